(** C96: 'cards create' for a port. *)
From Verif Require Import Base BaseProofs StrModel StrSpec StrProofs RulesModel RulesSpec RulesProofs FsModel FsSpec FsProofs FsOps FsExtract
  MetaModel MetaSpec MetaProofs DbModel DbSpec DbLoad DbOps DbRun EngineFs EngineRoot DbFacts DbProps DbExamples RemoveProps AddRun AddProps ManyRun RemoveCmdProofs
  Graph PortsModel PortsProofs PortsProps CreateOrder CreateModel CreateProps BuildModel.
From Verif Require Import DbInv.
From Coq Require Import ZArith Lia.

(** ** specification *)
(** the archive says that its package belongs to one of the two sets *)
Definition in_sets_archive (a : archive) : Prop := exists ls, member_text a (L ".META") ls /\ (In (L "schroot") ls \/ In (L "sdevel") ls).
(** the file [p] of the repository is an archive of the package [n] *)
Definition holds_pkg (files : str -> option archive) (p n : str) (a : archive) : Prop := files p = Some a /\ archive_name a n.
(** no two archives for one package *)
Definition one_each (files : str -> option archive) (ps : list str) : Prop :=
  forall p q n a b, In p ps -> In q ps -> holds_pkg files p n a -> holds_pkg files q n b -> a = b.
Definition no_dots (files : str -> option archive) : Prop := forall p a, files p = Some a -> no_dot_name a.

(** ** proofs *)
Section Steps.
  Variables (junk : bool) (machine : str) (re : str -> str -> option bool) (sh : str -> fs -> fs * bool) (root : str).
  Variables (conf : option str) (rules : list rule).
  Hypothesis Rr : read_rules_file conf = inl rules.
  Notation step := (step junk machine re sh root true rules).
  Notation puts := (puts junk machine re sh root true rules).
  Notation mades := (mades junk machine re sh root true rules).

  Lemma sets_of_archive a name info s : open_archive junk machine root a = Ok (name, info) ->
    (In s (r_sets info) <-> exists ls, member_text a (L ".META") ls /\ In ("s"%char :: s) ls).
  Proof.
    unfold open_archive. intro E. destruct (member_lines a (L ".MTREE")) as [mtree| |]; try discriminate E. cbn [rbind] in E.
    destruct (member_lines a (L ".META")) as [meta| |] eqn:Em; try discriminate E. cbn [rbind] in E. destruct meta as [|x meta]; [discriminate E|]. destruct mtree as [|y mtree]; [discriminate E|].
    destruct (first_tag "N" (x :: meta)) as [nm|] eqn:F; [|discriminate E]. cbv zeta in E. destruct (negb _ && _ && _); [discriminate E|].
    destruct (arch_release (x :: meta)) as [rel| |]; try discriminate E. cbn [rbind] in E. destruct nm as [|c nm]; [discriminate E|].
    destruct (arch_deps (x :: meta) _) as [deps| |]; try discriminate E. cbn [rbind] in E. injection E as _ <-. cbn [r_sets].
    assert (Ne : x :: meta <> []) by discriminate. rewrite set_of_In. unfold all_tag. rewrite in_map_iff. split.
    - intros [l [<- I]]. apply filter_In in I as [I T]. exists (x :: meta). split; [apply member_lines_text; [exact Ne|exact Em]|]. destruct l as [|c0 l]; [discriminate T|]. cbn [has_tag] in T. apply ceqb_eq in T. subst c0. exact I.
    - intros [ls [M I]]. assert (Nl : ls <> []) by (intros ->; destruct I). apply member_lines_text in M; [|exact Nl]. assert (Ls : ls = x :: meta) by congruence. subst ls. exists ("s"%char :: s). split; [reflexivity|]. apply filter_In. split; [exact I|reflexivity].
  Qed.
  (** in the memory of the command: the package belongs to one of the two sets *)
  Definition set_rec (r : rec) : bool := smem (L "chroot") (r_sets r) || smem (L "devel") (r_sets r).
  Lemma set_rec_archive a name info : open_archive junk machine root a = Ok (name, info) -> (set_rec info = true <-> in_sets_archive a).
  Proof.
    intro E. unfold set_rec, in_sets_archive. rewrite orb_true_iff, !smem_In. rewrite (sets_of_archive a name info (L "chroot") E), (sets_of_archive a name info (L "devel") E). split.
    - intros [[ls [M I]]|[ls [M I]]]; exists ls; auto.
    - intros [ls [M [I|I]]]; [left|right]; exists ls; auto.
  Qed.
  Lemma set_rec_load d m n r : load junk d = Ok m -> mget n (m_pkgs m) = Some r -> (set_rec r = true <-> in_sets d n).
  Proof.
    intros E G. unfold set_rec, in_sets. rewrite orb_true_iff, !smem_In, (load_sets junk d m n r _ E G), (load_sets junk d m n r _ E G). reflexivity.
  Qed.

  (** one archive put in *)
  Lemma put_ok sd a w m w' m' : inv (w_db w) -> agree (w_db w) m -> no_dot_name a -> step (Put sd a) w m = Ret tt w' m' ->
    exists name info, open_archive junk machine root a = Ok (name, info) /\ archive_name a name /\ inv (w_db w') /\ agree (w_db w') m' /\ m_alias m' = m_alias m /\
      (name_exists m name = true /\ w' = w /\ m' = m \/
       name_exists m name = false /\ (exists r, m_pkgs m' = mset name r (m_pkgs m) /\ set_rec r = set_rec info) /\
       (forall n, n <> name -> mget n (w_db w') = mget n (w_db w)) /\ mget name (w_db w') <> None /\
       (forall x, lists (w_db w') name x <-> ships a x /\ verdict re INSTALL rules x true)).
  Proof.
    intros I AG ND E. cbn [CreateModel.step] in E. destruct (open_archive junk machine root a) as [[name info]| |] eqn:Eo.
    2:{ unfold known_archive, create_run in E. rewrite Eo in E. discriminate E. }
    2:{ unfold known_archive, create_run in E. rewrite Eo in E. discriminate E. }
    exists name, info. split; [reflexivity|]. split; [exact (proj1 (open_name _ _ _ _ _ _ Eo))|].
    destruct (known_archive junk machine root a m) eqn:Ek.
    - injection E as <- <-. split; [exact I|]. split; [exact AG|]. split; [reflexivity|]. left. unfold known_archive in Ek. rewrite Eo in Ek. auto.
    - assert (Ek2 : known_archive junk machine root a (set_dep sd m) = false) by (destruct sd; exact Ek).
      destruct (create_run junk machine re sh root true false rules a w (set_dep sd m)) as [nm w1 m1|e w1] eqn:Ec; [|discriminate E]. injection E as -> ->.
      pose proof (create_is_add junk machine re sh root conf rules a w (set_dep sd m) nm w' m' Rr) as C. cbv zeta in C. rewrite Ek2 in C. pose proof (proj1 C Ec) as Ea.
      pose proof (set_dep_agree _ sd m AG) as AG0. destruct (add_next junk machine re sh root _ _ _ _ _ _ _ _ I AG0 (no_dot_named junk machine root a ND) Ea) as [I1 AG1].
      destruct (add_step junk machine re sh root _ _ _ _ _ _ _ _ I AG0 Ea) as (An & Gn & Sm & rules0 & R0 & Ls).
      assert (nm = name) by (apply (archive_name_unique a); [exact An|exact (proj1 (open_name _ _ _ _ _ _ Eo))]). subst nm. assert (rules0 = rules) by congruence. subst rules0.
      unfold create_run in Ec. rewrite Eo in Ec. destruct (apply_install_rules re rules (r_files info)) as [[[ins non] post]|]; [|discriminate Ec].
      destruct (pre_run sh root a w) as [w2|w2]; [discriminate Ec|]. destruct (conflicts root name ins (w_fs w2) (m_pkgs (set_dep sd m))); [|discriminate Ec].
      destruct (move_meta root name _) as [[w5 m5]| |] eqn:Em; [|discriminate Ec|discriminate Ec]. destruct (move_meta_mem _ _ _ _ _ _ Em) as [M5 A5].
      cbn [add_files_refs] in Ec. injection Ec as _ Em'.
      assert (Mp : m_pkgs m' = mset name (with_files ins info) (m_pkgs m)) by (rewrite <- Em'; cbn [m_pkgs]; rewrite M5; destruct sd; reflexivity).
      assert (Ma : m_alias m' = m_alias m) by (rewrite <- Em'; cbn [m_alias]; rewrite A5; destruct sd; reflexivity).
      split; [exact I1|]. split; [exact AG1|]. split; [exact Ma|]. right. split; [unfold known_archive in Ek; rewrite Eo in Ek; exact Ek|].
      split; [exists (with_files ins info); split; [exact Mp|reflexivity]|]. split; [|split; [exact Gn|exact Ls]]. intros n Nn. destruct (Sm n Nn) as [_ Z]. apply Z. reflexivity.
  Qed.

  (** several of them *)
  Lemma puts_ok files : no_dots files -> forall ps w m w' m', inv (w_db w) -> agree (w_db w) m -> puts files ps w m = Ret tt w' m' ->
    inv (w_db w') /\ agree (w_db w') m' /\ m_alias m' = m_alias m /\
    (forall sd p, In (sd, p) ps -> exists a n, holds_pkg files p n a) /\
    (forall n, (name_exists m n = true \/ forall sd p a, In (sd, p) ps -> ~ holds_pkg files p n a) -> mget n (w_db w') = mget n (w_db w) /\ mget n (m_pkgs m') = mget n (m_pkgs m)) /\
    (forall n sd p a, In (sd, p) ps -> holds_pkg files p n a -> name_exists m n = false ->
       exists sd' p' b r, In (sd', p') ps /\ holds_pkg files p' n b /\ mget n (w_db w') <> None /\ mget n (m_pkgs m') = Some r /\ (set_rec r = true <-> in_sets_archive b) /\
         forall x, lists (w_db w') n x <-> ships b x /\ verdict re INSTALL rules x true).
  Proof.
    intro ND. induction ps as [|[sd p] t IH]; intros w m w' m' I AG E; cbn [BuildModel.puts] in E.
    - injection E as <- <-. split; [exact I|]. split; [exact AG|]. split; [reflexivity|]. split; [intros ? ? []|]. split; [auto|]. intros n ? ? ? [].
    - destruct (files p) as [a|] eqn:Ef; [|discriminate E]. destruct (step (Put sd a) w m) as [[] w1 m1|e w1] eqn:Es; [|discriminate E].
      destruct (put_ok sd a w m w1 m1 I AG (ND p a Ef) Es) as (name & info & Eo & An & I1 & AG1 & Al1 & Hc).
      destruct (IH w1 m1 w' m' I1 AG1 E) as (I2 & AG2 & Al2 & Ex & Fr & Ad). split; [exact I2|]. split; [exact AG2|]. split; [congruence|].
      assert (Nx : forall n, name_exists m1 n = name_exists m n) by (intro n; unfold name_exists; rewrite Al1; reflexivity).
      split; [|split].
      + intros sd' q [J|J]; [injection J as <- <-; exists a, name; split; assumption|exact (Ex sd' q J)].
      + intros n H. destruct (Fr n) as [F1 F2].
        { destruct H as [H|H]; [left; rewrite Nx; exact H|right; intros sd' q b J; apply (H sd' q b), or_intror, J]. }
        assert (K : n <> name \/ name_exists m name = true).
        { destruct H as [H|H]; [destruct (str_eq_dec n name) as [->|N]; auto|]. left. intros ->. apply (H sd p a (or_introl eq_refl)). split; assumption. }
        rewrite F1, F2. destruct Hc as [(_ & -> & ->)|(Nn & [r [Mp _]] & O & _)]; [auto|]. destruct K as [K|K]; [|congruence]. split; [apply O, K|]. rewrite Mp, mget_mset, (proj2 (seqb_neq n name)) by exact K. reflexivity.
      + intros n sd' q b J Hb Ne.
        assert (Dec : (exists sd0 p0 b0, In (sd0, p0) t /\ holds_pkg files p0 n b0) \/ forall sd0 p0 b0, In (sd0, p0) t -> ~ holds_pkg files p0 n b0).
        { clear - Ex. induction t as [|[sd0 p0] t IHt]; [right; intros ? ? ? []|]. destruct (Ex sd0 p0 (or_introl eq_refl)) as (a0 & n0 & [H1 H2]).
          destruct IHt as [(sd1 & p1 & b1 & J & H)|H]; [intros sd1 p1 J; apply (Ex sd1 p1), or_intror, J|left; exists sd1, p1, b1; split; [right; exact J|exact H]|].
          destruct (str_eq_dec n n0) as [->|N]; [left; exists sd0, p0, a0; split; [left; reflexivity|split; assumption]|].
          right. intros sd1 p1 b1 [J|J]; [|exact (H sd1 p1 b1 J)]. injection J as <- <-. intros [K1 K2]. rewrite H1 in K1. injection K1 as <-. exact (N (archive_name_unique _ _ _ K2 H2)). }
        destruct Dec as [(sd0 & p0 & b0 & J0 & H0)|No].
        * destruct (Ad n sd0 p0 b0 J0 H0) as (sd1 & p1 & b1 & r & J1 & Z); [rewrite Nx; exact Ne|]. exists sd1, p1, b1, r. split; [right; exact J1|exact Z].
        * destruct J as [J|J]; [|destruct (No sd' q b J Hb)]. injection J as <- <-. destruct Hb as [B1 B2]. rewrite Ef in B1. injection B1 as <-. assert (n = name) by exact (archive_name_unique _ _ _ B2 An). subst n.
          destruct Hc as [(Nn & _)|(_ & [r [Mp Sr]] & _ & Gn & Ls)]; [congruence|]. destruct (Fr name (or_intror No)) as [F1 F2].
          exists sd, p, a, r. split; [left; reflexivity|]. split; [split; assumption|]. split; [rewrite F1; exact Gn|]. split; [rewrite F2, Mp, mget_mset, seqb_refl; reflexivity|].
          split; [rewrite Sr; apply (set_rec_archive a name info Eo)|]. intro x. rewrite <- Ls. apply lists_ext, F1.
  Qed.

  (** clearing *)
  Lemma outside_spec (d : disk) m n : agree d m -> (In n (outside_sets m) <-> exists r, mget n (m_pkgs m) = Some r /\ set_rec r = false).
  Proof.
    intros [Ss _]. unfold outside_sets. rewrite in_map_iff. split.
    - intros [[k r] [<- I]]. apply filter_In in I as [I B]. exists r. split; [apply (In_mget k r _ (ssorted_NoDup _ Ss) I)|]. apply negb_true_iff, B.
    - intros [r [G B]]. exists (n, r). split; [reflexivity|]. apply filter_In. split; [apply mget_In, G|]. apply negb_true_iff, B.
  Qed.
  Lemma clear_alias_eq names : forall w m w' m', clear junk root true names w m = Ret tt w' m' -> forall k, mget k (m_alias m') = if smem k names then None else mget k (m_alias m).
  Proof.
    induction names as [|n t IH]; intros w m w' m' E k; cbn [clear] in E; [injection E as _ <-; reflexivity|].
    destruct (remove_refs junk n (w, m)) as [[w1 m1]|] eqn:R; [|discriminate E]. cbn [remove_files] in E. rewrite (IH _ _ _ _ E k). cbn [m_alias].
    assert (A1 : m_alias m1 = m_alias m) by (unfold remove_refs in R; destruct (mget n (w_db w)); [|discriminate R]; injection R as _ <-; reflexivity).
    rewrite A1, mget_mdel. cbn [smem]. destruct (seqb k n) eqn:B; cbn [orb]; [destruct (smem k t); reflexivity|reflexivity].
  Qed.
  Lemma clear_ok w m w' m' : inv (w_db w) -> agree (w_db w) m -> step Clear w m = Ret tt w' m' ->
    inv (w_db w') /\ agree (w_db w') m' /\
    (forall n, (exists r, mget n (m_pkgs m) = Some r /\ set_rec r = false) -> mget n (w_db w') = None /\ name_exists m' n = false) /\
    (forall n, ~ (exists r, mget n (m_pkgs m) = Some r /\ set_rec r = false) -> mget n (w_db w') = mget n (w_db w) /\ mget n (m_pkgs m') = mget n (m_pkgs m) /\ name_exists m' n = name_exists m n).
  Proof.
    intros I AG E. cbn [CreateModel.step] in E. unfold base in E. pose proof (clear_fine junk machine re sh root true (outside_sets m) w m I (fun _ => AG)) as [F1 F2]. rewrite E in F1, F2. cbn [world_of mem_of] in F1, F2. specialize (F2 m' eq_refl eq_refl).
    split; [exact F1|]. split; [exact F2|].
    pose proof (clear_alias_eq _ _ _ _ _ E) as Al. destruct (clear_loop junk root true _ _ _ _ _ E) as (_ & Mp & Db & _).
    { apply outside_NoDup, ssorted_NoDup, AG. }
    { intros n J. apply (outside_spec (w_db w) m n AG) in J as [r [G _]]. congruence. }
    destruct (Db eq_refl) as [_ Db2].
    assert (Nd : NoDup (keys (m_pkgs m))) by apply ssorted_NoDup, AG.
    split; intros n H.
    - apply (outside_spec (w_db w) m n AG) in H. split.
      + destruct F2 as [_ F2]. specialize (F2 n). destruct (mget n (m_pkgs m')) as [r|] eqn:G; [|exact F2]. exfalso. apply mget_In in G. rewrite Mp in G. apply In_mdels in G as [_ G]. exact (G H).
      + unfold name_exists. rewrite Al, (proj2 (smem_In n _) H). reflexivity.
    - assert (Hn : ~ In n (outside_sets m)) by (intro J; apply H, (outside_spec (w_db w) m n AG), J). split; [apply Db2, Hn|]. split.
      + rewrite Mp. destruct (mget n (m_pkgs m)) as [r|] eqn:G.
        * apply In_mget; [|apply In_mdels; split; [apply mget_In, G|exact Hn]]. rewrite <- Mp. apply ssorted_NoDup, F2.
        * destruct (mget n (mdels (outside_sets m) (m_pkgs m))) as [r|] eqn:G2; [|reflexivity]. apply mget_In, In_mdels in G2 as [G2 _]. apply (In_mget n r _ Nd) in G2. congruence.
      + unfold name_exists. rewrite Al. destruct (smem n (outside_sets m)) eqn:B; [apply smem_In in B; contradiction|reflexivity].
  Qed.

  (** one archive that was made, and several of them *)
  Lemma made_ok a w m w' m' : inv (w_db w) -> agree (w_db w) m -> no_dot_name a -> step (Made a) w m = Ret tt w' m' ->
    exists name, archive_name a name /\ inv (w_db w') /\ agree (w_db w') m' /\
      (forall n, n <> name -> mget n (w_db w') = mget n (w_db w)) /\ mget name (w_db w') <> None /\ (forall x, lists (w_db w') name x <-> ships a x /\ verdict re INSTALL rules x true).
  Proof.
    intros I AG ND E. cbn [CreateModel.step] in E. destruct (create_run junk machine re sh root true (known_archive junk machine root a m) rules a w m) as [nm w1 m1|e w1] eqn:Ec; [|discriminate E]. injection E as -> ->.
    pose proof (create_is_add junk machine re sh root conf rules a w m nm w' m' Rr) as C. cbv zeta in C. pose proof (proj1 C Ec) as Ea.
    destruct (add_next junk machine re sh root _ _ _ _ _ _ _ _ I AG (no_dot_named junk machine root a ND) Ea) as [I1 AG1].
    destruct (add_step junk machine re sh root _ _ _ _ _ _ _ _ I AG Ea) as (An & Gn & Sm & rules0 & R0 & Ls). assert (rules0 = rules) by congruence. subst rules0.
    exists nm. split; [exact An|]. split; [exact I1|]. split; [exact AG1|]. split; [|split; [exact Gn|exact Ls]]. intros n Nn. destruct (Sm n Nn) as [_ Z]. apply Z. reflexivity.
  Qed.
  Lemma mades_ok files : no_dots files -> forall ps w m w' m', inv (w_db w) -> agree (w_db w) m -> mades files ps w m = Ret tt w' m' ->
    inv (w_db w') /\
    (forall p, In p ps -> exists a n, holds_pkg files p n a) /\
    (forall n, (forall p a, In p ps -> ~ holds_pkg files p n a) -> mget n (w_db w') = mget n (w_db w)) /\
    (forall n p a, In p ps -> holds_pkg files p n a -> mget n (w_db w') <> None /\ exists p' b, In p' ps /\ holds_pkg files p' n b /\ forall x, lists (w_db w') n x <-> ships b x /\ verdict re INSTALL rules x true).
  Proof.
    intro ND. induction ps as [|p t IH]; intros w m w' m' I AG E; cbn [BuildModel.mades] in E.
    - injection E as <- <-. split; [exact I|]. split; [intros ? []|]. split; [auto|]. intros n ? ? [].
    - destruct (files p) as [a|] eqn:Ef; [|discriminate E]. destruct (step (Made a) w m) as [[] w1 m1|e w1] eqn:Es; [|discriminate E].
      destruct (made_ok a w m w1 m1 I AG (ND p a Ef) Es) as (name & An & I1 & AG1 & O & Gn & Ls).
      destruct (IH w1 m1 w' m' I1 AG1 E) as (I2 & Ex & Fr & Ad). split; [exact I2|]. split; [|split].
      + intros q [<-|J]; [exists a, name; split; assumption|exact (Ex q J)].
      + intros n H. rewrite (Fr n (fun q b J => H q b (or_intror J))). apply O. intros ->. apply (H p a (or_introl eq_refl)). split; assumption.
      + intros n q b J Hb.
        assert (Dec : (exists p0 b0, In p0 t /\ holds_pkg files p0 n b0) \/ forall p0 b0, In p0 t -> ~ holds_pkg files p0 n b0).
        { clear - Ex. induction t as [|p0 t IHt]; [right; intros ? ? []|]. destruct (Ex p0 (or_introl eq_refl)) as (a0 & n0 & [H1 H2]).
          destruct IHt as [(p1 & b1 & J & H)|H]; [intros p1 J; apply (Ex p1), or_intror, J|left; exists p1, b1; split; [right; exact J|exact H]|].
          destruct (str_eq_dec n n0) as [->|N]; [left; exists p0, a0; split; [left; reflexivity|split; assumption]|].
          right. intros p1 b1 [J|J]; [|exact (H p1 b1 J)]. subst p1. intros [K1 K2]. rewrite H1 in K1. injection K1 as <-. exact (N (archive_name_unique _ _ _ K2 H2)). }
        destruct Dec as [(p0 & b0 & J0 & H0)|No].
        * destruct (Ad n p0 b0 J0 H0) as (G & p1 & b1 & J1 & Z). split; [exact G|]. exists p1, b1. split; [right; exact J1|exact Z].
        * destruct J as [J|J]; [|destruct (No q b J Hb)]. subst q. destruct Hb as [B1 B2]. rewrite Ef in B1. injection B1 as <-. assert (n = name) by exact (archive_name_unique _ _ _ B2 An). subst n.
          specialize (Fr name No). split; [rewrite Fr; exact Gn|]. exists p, a. split; [left; reflexivity|]. split; [split; assumption|]. intro x. rewrite <- Ls. apply lists_ext, Fr.
  Qed.
End Steps.

Section Port.
  Variables (junk : bool) (machine : str) (re : str -> str -> option bool) (sh : str -> fs -> fs * bool) (root : str).
  Variables (conf : option str) (core : list (bool * str)) (l : list (str * list str)) (s : ports) (d : depot) (groups : list str) (name : str).
  Notation env := (create_env junk machine re sh root true conf core s d groups name).
  Notation create := (fun pkgmk => create_port junk machine re sh root true conf core s d groups name pkgmk).
  (** the archives core() adds at the start, those of the wanted packages of the ports the port needs, directly or indirectly (C70), and
      those the repository has for the port after the build *)
  Definition start_files : list str := map snd core.
  Definition dep_file (p : str) : Prop := exists x, chain (needs l) name x /\ x <> name /\ available (p_bins d) x /\ made_with (p_bins d) x p /\ CreateOrder.wanted (p_bins d) groups p.
  Definition port_file (bins : list bin) (p : str) : Prop := available bins name /\ made_with bins name p.
  (** ports as C70 has them: no cycle below the port, dependencies without dots *)
  Definition sane_ports : Prop := tree l = Some s /\ In name (map fst l) /\ (forall c, chain (needs l) name c -> ~ on_cycle l c) /\ (forall m e, writes l m e -> ~ In "."%char e /\ In e (map fst l)).

  Lemma env_raw w w1 m1 : no_dots (p_files d) -> inv (w_db w) -> env w = Ret tt w1 m1 -> exists rules, read_rules_file conf = inl rules /\ inv (w_db w1) /\ agree (w_db w1) m1 /\
    (forall p, In p start_files \/ In p (build_archives s (p_bins d) groups name) -> exists a n, holds_pkg (p_files d) p n a) /\
    (forall n, spared (w_db w) n -> mget n (w_db w1) = mget n (w_db w)) /\
    (forall n, (known (w_db w) n -> cleared (w_db w) n) -> (exists p a, In p (build_archives s (p_bins d) groups name) /\ holds_pkg (p_files d) p n a) ->
       exists p b, In p (build_archives s (p_bins d) groups name) /\ holds_pkg (p_files d) p n b /\ mget n (w_db w1) <> None /\ forall x, lists (w_db w1) n x <-> ships b x /\ verdict re INSTALL rules x true) /\
    (forall n, ~ spared (w_db w) n -> ((known (w_db w) n -> cleared (w_db w) n) -> forall p a, In p (build_archives s (p_bins d) groups name) -> ~ holds_pkg (p_files d) p n a) ->
       (~ known (w_db w) n -> forall p a, In p start_files -> ~ holds_pkg (p_files d) p n a) -> mget n (w_db w1) = None) /\
    (forall n, ~ known (w_db w) n -> (forall p a, In p (build_archives s (p_bins d) groups name) -> ~ holds_pkg (p_files d) p n a) -> (exists p a, In p start_files /\ holds_pkg (p_files d) p n a) ->
       exists p b, In p start_files /\ holds_pkg (p_files d) p n b /\ (mget n (w_db w1) <> None <-> in_sets_archive b)).
  Proof.
    intros ND I E. unfold create_env, with_rules in E. cbn [w_db] in E. destruct (load junk (w_db w)) as [m| |] eqn:El; [|discriminate E|discriminate E]. destruct (read_rules_file conf) as [rules|] eqn:Rr; [|discriminate E].
    exists rules. split; [reflexivity|]. assert (AG : agree (w_db w) m) by exact (load_agree junk (w_db w) m (proj1 I) El).
    unfold prepare in E. set (w0 := World (cleanup_meta (w_fs w) root) (w_db w)) in E. assert (I0 : inv (w_db w0)) by exact I. assert (AG0 : agree (w_db w0) m) by exact AG.
    destruct (puts junk machine re sh root true rules (p_files d) core w0 m) as [[] wa ma|e wa] eqn:E1; [|discriminate E].
    destruct (CreateModel.step junk machine re sh root true rules Clear wa ma) as [[] wb mb|e wb] eqn:E2; [|discriminate E].
    destruct (puts_ok junk machine re sh root conf rules Rr (p_files d) ND _ _ _ _ _ I0 AG0 E1) as (Ia & Aa & Al & Xa & Fa & Pa).
    destruct (clear_ok junk machine re sh root rules wa ma wb mb Ia Aa E2) as (Ib & Ab & Cb & Kb).
    destruct (puts_ok junk machine re sh root conf rules Rr (p_files d) ND _ _ _ _ _ Ib Ab E) as (Ic & Ac & Alc & Xc & Fc & Pc).
    assert (In2 : forall sd p, In (sd, p) (map (pair false) (build_archives s (p_bins d) groups name)) <-> sd = false /\ In p (build_archives s (p_bins d) groups name)).
    { intros sd p. rewrite in_map_iff. split; [intros [q [Q J]]; injection Q as <- <-; auto|intros [-> J]; exists p; auto]. }
    assert (In1 : forall p, In p start_files <-> exists sd, In (sd, p) core).
    { intro p. unfold start_files. rewrite in_map_iff. split; [intros [[sd q] [<- J]]; exists sd; exact J|intros [sd J]; exists (sd, p); auto]. }
    assert (Nk : forall n, name_exists m n = true <-> known (w_db w) n) by (intro n; apply (name_exists_known junk (w_db w) m n El)).
    assert (Na : forall n, name_exists ma n = name_exists m n) by (intro n; unfold name_exists; rewrite Al; reflexivity).
    assert (Kin : forall n, installed (w_db w) n -> known (w_db w) n) by (intros n [N1 N2]; exists n; auto).
    (* the packages of the database at the start are in memory as they were *)
    assert (Old : forall n, known (w_db w) n -> mget n (w_db wa) = mget n (w_db w) /\ mget n (m_pkgs ma) = mget n (m_pkgs m)) by (intros n K; apply (Fa n), or_introl, Nk, K).
    assert (Sp : forall n, spared (w_db w) n -> (exists r, mget n (m_pkgs ma) = Some r /\ set_rec r = false) -> False).
    { intros n [S1 S2] [r [G B]]. rewrite (proj2 (Old n (Kin n S1))) in G. apply (proj2 (set_rec_load junk (w_db w) m n r El G)) in S2. congruence. }
    assert (Cl : forall n, cleared (w_db w) n -> exists r, mget n (m_pkgs ma) = Some r /\ set_rec r = false).
    { intros n [S1 S2]. rewrite (proj2 (Old n (Kin n S1))). apply (load_present junk (w_db w) m n El) in S1 as [r G]. exists r. split; [exact G|]. destruct (set_rec r) eqn:B; [|reflexivity]. destruct S2. apply (set_rec_load junk (w_db w) m n r El G), B. }
    assert (Fresh : forall n, ~ known (w_db w) n -> mget n (m_pkgs m) = None).
    { intros n K. destruct (mget n (m_pkgs m)) as [r|] eqn:G; [|reflexivity]. destruct K. apply Kin, (load_present junk (w_db w) m n El). exists r. exact G. }
    assert (Alias : forall n, known (w_db w) n -> ~ installed (w_db w) n -> mget n (m_pkgs m) = None).
    { intros n K Ni. destruct (mget n (m_pkgs m)) as [r|] eqn:G; [|reflexivity]. destruct Ni. apply (load_present junk (w_db w) m n El). exists r. exact G. }
    assert (NoneDb : forall n, mget n (m_pkgs m) = None -> mget n (w_db w) = None) by (intros n G; destruct AG as [_ A]; specialize (A n); rewrite G in A; exact A).
    assert (Ndep : forall n, (known (w_db w) n -> cleared (w_db w) n) -> name_exists mb n = false).
    { intros n K. destruct (mget n (m_pkgs ma)) as [r|] eqn:G.
      - destruct (set_rec r) eqn:B; [|apply (Cb n); exists r; auto]. rewrite (proj2 (proj2 (Kb n ltac:(intros [r' [G' B']]; congruence)))), Na. apply not_true_iff_false. intro K2. apply Nk in K2. destruct (Cl n (K K2)) as [r' [G' B']]. congruence.
      - rewrite (proj2 (proj2 (Kb n ltac:(intros [r' [G' B']]; congruence)))), Na. apply not_true_iff_false. intro K2. apply Nk in K2. destruct (Cl n (K K2)) as [r' [G' B']]. congruence. }
    split; [exact Ic|]. split; [exact Ac|]. split; [|split; [|split; [|split]]].
    - intros p [J|J]; [apply In1 in J as [sd J]; exact (Xa sd p J)|]. exact (Xc false p (proj2 (In2 false p) (conj eq_refl J))).
    - intros n Sn. pose proof (Kin n (proj1 Sn)) as K. destruct (Kb n (Sp n Sn)) as (B1 & _ & B3). assert (Ex : name_exists mb n = true) by (rewrite B3, Na; apply Nk, K). rewrite (proj1 (Fc n (or_introl Ex))), B1. apply (Old n K).
    - intros n K (p & a & J & H). destruct (Pc n false p a (proj2 (In2 false p) (conj eq_refl J)) H (Ndep n K)) as (sd & p' & b & r & J' & H' & G & _ & _ & Ls).
      exists p', b. split; [apply (In2 sd p'), J'|]. split; [exact H'|]. split; [exact G|exact Ls].
    - intros n Sn Hd Hs.
      assert (Fin : (name_exists mb n = true \/ forall sd p a, In (sd, p) (map (pair false) (build_archives s (p_bins d) groups name)) -> ~ holds_pkg (p_files d) p n a) -> mget n (w_db wb) = None -> mget n (w_db w1) = None).
      { intros F Z. rewrite (proj1 (Fc n F)). exact Z. }
      destruct (name_exists m n) eqn:Km.
      + pose proof (proj1 (Nk n) Km) as K. destruct (mget n (m_pkgs m)) as [r|] eqn:Gm.
        * assert (Inn : installed (w_db w) n) by (apply (load_present junk (w_db w) m n El); exists r; exact Gm).
          assert (C : cleared (w_db w) n). { split; [exact Inn|]. intro Z. apply Sn. split; assumption. }
          apply Fin; [right; intros sd p a J; apply In2 in J as [_ J]; exact (Hd (fun _ => C) p a J)|]. apply (Cb n), Cl, C.
        * assert (No : ~ exists r, mget n (m_pkgs ma) = Some r /\ set_rec r = false) by (intros [r [G _]]; rewrite (proj2 (Old n K)) in G; congruence).
          destruct (Kb n No) as (B1 & _ & B3). apply Fin; [left; rewrite B3, Na; exact Km|]. rewrite B1, (proj1 (Old n K)). apply NoneDb, Gm.
      + assert (K : ~ known (w_db w) n) by (intro K; apply Nk in K; congruence). specialize (Hs K).
        apply Fin; [right; intros sd p a J; apply In2 in J as [_ J]; apply (Hd (fun Z => match K Z with end) p a J)|].
        destruct (Fa n) as [F1 F2]; [right; intros sd p a J; apply Hs, In1; exists sd; exact J|].
        destruct (Kb n) as (B1 & _); [intros [r [G _]]; rewrite F2, (Fresh n K) in G; discriminate G|]. rewrite B1, F1. apply NoneDb, Fresh, K.
    - intros n K Hd (p & a & J & H). apply In1 in J as [sd J]. destruct (Pa n sd p a J H) as (sd' & p' & b & r & J' & H' & G & Gm & Sr & _).
      { apply not_true_iff_false. intro Z. apply K, Nk, Z. }
      exists p', b. split; [apply In1; exists sd'; exact J'|]. split; [exact H'|].
      rewrite (proj1 (Fc n (or_intror (fun sd0 p0 a0 J0 => Hd p0 a0 (proj2 (proj1 (In2 sd0 p0) J0)))))). destruct (set_rec r) eqn:B.
      + destruct (Kb n) as (B1 & _); [intros [r' [G' B']]; congruence|]. rewrite B1. rewrite <- Sr. tauto.
      + destruct (Cb n) as [B1 _]; [exists r; auto|]. rewrite B1, <- Sr. split; [congruence|discriminate].
  Qed.

  Lemma holds_dec files ps n : (forall p, In p ps -> exists a k, holds_pkg files p k a) -> (exists p a, In p ps /\ holds_pkg files p n a) \/ (forall p a, In p ps -> ~ holds_pkg files p n a).
  Proof.
    clear. induction ps as [|p t IH]; intro H; [right; intros ? ? []|]. destruct (H p (or_introl eq_refl)) as (a & k & [H1 H2]).
    destruct IH as [(q & b & J & K)|N]; [intros q J; apply H, or_intror, J|left; exists q, b; split; [right; exact J|exact K]|].
    destruct (str_eq_dec n k) as [->|Nk]; [left; exists p, a; split; [left; reflexivity|split; assumption]|].
    right. intros q b [<-|J]; [|exact (N q b J)]. intros [K1 K2]. rewrite H1 in K1. injection K1 as <-. exact (Nk (archive_name_unique _ _ _ K2 H2)).
  Qed.
  Lemma inv_installed (dk : disk) n : inv dk -> (installed dk n <-> mget n dk <> None).
  Proof.
    clear. intros [OK _]. unfold installed. split; [tauto|]. intro G. split; [|exact G]. destruct (mget n dk) as [dir|] eqn:E; [|congruence]. exact (proj1 (nondot_spec n) (proj1 (OK n dir E))).
  Qed.
  Lemma spared_dec w m n : load junk (w_db w) = Ok m -> {spared (w_db w) n} + {~ spared (w_db w) n}.
  Proof.
    intro El. destruct (mget n (m_pkgs m)) as [r|] eqn:G.
    - destruct (set_rec r) eqn:B.
      + left. split; [apply (load_present junk (w_db w) m n El); exists r; exact G|]. apply (set_rec_load junk (w_db w) m n r El G), B.
      + right. intros [_ Z]. apply (set_rec_load junk (w_db w) m n r El G) in Z. congruence.
    - right. intros [Z _]. apply (load_present junk (w_db w) m n El) in Z as [r Z]. congruence.
  Qed.
  Lemma dep_file_In : sane_ports -> forall p, In p (build_archives s (p_bins d) groups name) <-> dep_file p.
  Proof. intros (T & Jn & Cy & Dt). exact (proj1 (C70_archives_partial l s name (p_bins d) groups T Jn Cy Dt)). Qed.
  Lemma env_load w w1 m1 : env w = Ret tt w1 m1 -> exists m, load junk (w_db w) = Ok m.
  Proof. unfold create_env, with_rules. cbn [w_db]. destruct (load junk (w_db w)) as [m| |]; [exists m; reflexivity|discriminate|discriminate]. Qed.

  (** When pkgmk is run, the packages that are installed are those of the sets chroot and devel that were, those of the two sets added at the
      start, and the packages the port needs to be built, and no others. *)
  Theorem C96_environment w w1 m1 : sane_ports -> no_dots (p_files d) -> one_each (p_files d) start_files -> inv (w_db w) -> env w = Ret tt w1 m1 -> forall n,
    installed (w_db w1) n <->
      spared (w_db w) n \/
      ((exists p a, dep_file p /\ holds_pkg (p_files d) p n a) /\ (known (w_db w) n -> installed (w_db w) n)) \/
      ((exists p a, In p start_files /\ holds_pkg (p_files d) p n a /\ in_sets_archive a) /\ ~ known (w_db w) n).
  Proof.
    intros Sa ND OE I E n. destruct (env_load w w1 m1 E) as [m El]. pose proof (dep_file_In Sa) as Df.
    destruct (env_raw w w1 m1 ND I E) as (rules & _ & I1 & _ & Ex & Sp & Dp & No & St). rewrite (inv_installed (w_db w1) n I1).
    pose proof (name_exists_known junk (w_db w) m n El) as Kn. assert (Kd : known (w_db w) n \/ ~ known (w_db w) n) by (destruct (name_exists m n); [left; apply Kn; reflexivity|right; intro K; apply Kn in K; discriminate K]).
    assert (Kin : installed (w_db w) n -> known (w_db w) n) by (intros [N1 N2]; exists n; auto).
    destruct (spared_dec w m n El) as [Sn|Sn].
    { rewrite (Sp n Sn). destruct Sn as [[S1 S2] S3]. split; [intros _; left; split; [split; assumption|exact S3]|intros _; exact S2]. }
    assert (Cn : installed (w_db w) n -> cleared (w_db w) n) by (intro Z; split; [exact Z|intro S; apply Sn; split; assumption]).
    assert (Id : installed (w_db w) n \/ ~ installed (w_db w) n).
    { destruct (mget n (m_pkgs m)) as [r|] eqn:G; [left; apply (load_present junk (w_db w) m n El); exists r; exact G|right; intro Z; apply (load_present junk (w_db w) m n El) in Z as [r Z]; congruence]. }
    destruct (holds_dec (p_files d) (build_archives s (p_bins d) groups name) n (fun p J => Ex p (or_intror J))) as [Hd|Hd].
    - assert (Kd2 : (known (w_db w) n -> installed (w_db w) n) \/ known (w_db w) n /\ ~ installed (w_db w) n) by tauto. destruct Kd2 as [K|[K1 K2]].
      + destruct (Dp n (fun Z => Cn (K Z)) Hd) as (p & b & J & H & G & _). split; [|intros _; exact G]. intros _. right. left. split; [|exact K]. exists p, b. split; [apply Df, J|exact H].
      + assert (Z : mget n (w_db w1) = None). { apply (No n Sn); [intro C; destruct (K2 (proj1 (C K1)))|intro C; contradiction]. }
        rewrite Z. split; [congruence|]. intros [C|[[_ C]|[_ C]]]; [contradiction|destruct (K2 (C K1))|contradiction].
    - assert (Nd : ~ exists p a, dep_file p /\ holds_pkg (p_files d) p n a) by (intros (p & a & J & H); apply (Hd p a); [apply Df, J|exact H]).
      destruct Kd as [K|K].
      + assert (Z : mget n (w_db w1) = None) by (apply (No n Sn); [intros _; exact Hd|intro C; contradiction]). rewrite Z. split; [congruence|tauto].
      + destruct (holds_dec (p_files d) start_files n (fun p J => Ex p (or_introl J))) as [Hs|Hs].
        * destruct (St n K Hd Hs) as (p & b & J & H & G). rewrite G. split.
          -- intro B. right. right. split; [exists p, b; auto|exact K].
          -- intros [C|[[C _]|[(q & a & Jq & Hq & Ba) _]]]; [contradiction|contradiction|]. rewrite <- (OE q p n a b Jq J Hq H). exact Ba.
        * assert (Z : mget n (w_db w1) = None) by (apply (No n Sn); [intros _; exact Hd|intros _; exact Hs]). rewrite Z. split; [congruence|]. intros [C|[[C _]|[(q & a & Jq & Hq & Ba) _]]]; [contradiction|contradiction|destruct (Hs q a Jq Hq)].
  Qed.
  (** Their records: those of the two sets are as they were, those of what the port needs list the files of the archives that the rules let
      through. *)
  Theorem C96_records w w1 m1 : sane_ports -> no_dots (p_files d) -> inv (w_db w) -> env w = Ret tt w1 m1 ->
    (forall n, spared (w_db w) n -> mget n (w_db w1) = mget n (w_db w)) /\
    exists rules, read_rules_file conf = inl rules /\
      ((forall p q n a b, dep_file p -> dep_file q -> holds_pkg (p_files d) p n a -> holds_pkg (p_files d) q n b -> a = b) ->
       forall n p a, dep_file p -> holds_pkg (p_files d) p n a -> ~ spared (w_db w) n -> (known (w_db w) n -> installed (w_db w) n) ->
         forall x, lists (w_db w1) n x <-> ships a x /\ verdict re INSTALL rules x true).
  Proof.
    intros Sa ND I E. pose proof (dep_file_In Sa) as Df. destruct (env_raw w w1 m1 ND I E) as (rules & Rr & _ & _ & _ & Sp & Dp & _ & _). split; [exact Sp|]. exists rules. split; [exact Rr|]. intros OE n p a Dn H Sn K.
    destruct (Dp n) as (q & b & J & Hb & _ & Ls).
    { intro Z. split; [exact (K Z)|]. intro S2. apply Sn. split; [exact (K Z)|exact S2]. }
    { exists p, a. split; [apply Df, Dn|exact H]. }
    rewrite (OE p q n a b Dn (proj1 (Df q) J) H Hb). exact Ls.
  Qed.
  Lemma port_file_In bins p : In p (group_files bins name) <-> port_file bins p.
  Proof. exact (group_files_In bins name p). Qed.
  (** If the command succeeds, pkgmk was run in such an environment and did not fail, and every package the repository has for the port
      afterwards is installed, from the archive the repository has for it; nothing else in the database differs from the environment. *)
  Theorem C96_created pkgmk w w' : no_dots (p_files d) -> inv (w_db w) -> create pkgmk w = (None, w') ->
    exists w1 m1 status f d' rules, env w = Ret tt w1 m1 /\ pkgmk (w_fs w1) = (status, f, d') /\ (status <= 0)%Z /\ read_rules_file conf = inl rules /\
      (no_dots (p_files d') ->
        (forall p, port_file (p_bins d') p -> exists a n, holds_pkg (p_files d') p n a /\ installed (w_db w') n) /\
        (forall p n a, port_file (p_bins d') p -> holds_pkg (p_files d') p n a -> one_each (p_files d') (group_files (p_bins d') name) ->
           forall x, lists (w_db w') n x <-> ships a x /\ verdict re INSTALL rules x true) /\
        (forall n, (forall p a, port_file (p_bins d') p -> ~ holds_pkg (p_files d') p n a) -> mget n (w_db w') = mget n (w_db w1))).
  Proof.
    intros ND I E. unfold create_port, with_rules in E. cbn [w_db] in E. assert (Ee : forall w1 m1, env w = Ret tt w1 m1 -> inv (w_db w1) /\ agree (w_db w1) m1).
    { intros w1 m1 Z. destruct (env_raw w w1 m1 ND I Z) as (_ & _ & I1 & A1 & _). auto. }
    unfold create_env, with_rules in *. cbn [w_db] in Ee |- *. destruct (load junk (w_db w)) as [m| |]; [|discriminate E|discriminate E]. destruct (read_rules_file conf) as [rules|] eqn:Rr; [|discriminate E].
    unfold build in E. destruct (prepare junk machine re sh root true rules core s d groups name (World (cleanup_meta (w_fs w) root) (w_db w)) m) as [[] w1 m1|e w1]; [|discriminate E].
    destruct (Ee w1 m1 eq_refl) as [I1 A1]. destruct (pkgmk (w_fs w1)) as [[status f] d'] eqn:Ep. destruct (0 <? status)%Z eqn:Es; [discriminate E|]. apply Z.ltb_ge in Es.
    exists w1, m1, status, f, d', rules. split; [reflexivity|]. split; [exact Ep|]. split; [exact Es|]. split; [reflexivity|]. intro ND'.
    destruct (mades junk machine re sh root true rules (p_files d') (group_files (p_bins d') name) (World f (w_db w1)) m1) as [[] w2 m2|e w2] eqn:Em; [|discriminate E]. cbn [DbModel.finish] in E. injection E as <-.
    destruct (mades_ok junk machine re sh root conf rules Rr (p_files d') ND' _ (World f (w_db w1)) m1 w2 m2 I1 A1 Em) as (I2 & Ex & Fr & Ad). split; [|split].
    - intros p J. apply port_file_In in J. destruct (Ex p J) as (a & n & H). exists a, n. split; [exact H|]. apply (inv_installed (w_db w2) n I2). apply (Ad n p a J H).
    - intros p n a J H OE. apply port_file_In in J. destruct (Ad n p a J H) as (_ & q & b & Jq & Hb & Ls). rewrite (OE p q n a b J Jq H Hb). exact Ls.
    - intros n H. apply (Fr n). intros p a J. apply (H p a), port_file_In, J.
  Qed.
  (** If the environment cannot be made ready, pkgmk is not run; if pkgmk fails, the command fails and nothing that was made is installed. *)
  Theorem C96_failed pkgmk w :
    (forall e w1, env w = Stop e w1 -> create pkgmk w = (Some e, w1)) /\
    (forall w1 m1 status f d', env w = Ret tt w1 m1 -> pkgmk (w_fs w1) = (status, f, d') -> (0 < status)%Z -> create pkgmk w = (Some Exception, World f (w_db w1))).
  Proof.
    unfold create_env, create_port, with_rules. cbn [w_db]. destruct (load junk (w_db w)) as [m| |]; [|split; [intros e w1 E; injection E as <- <-; reflexivity|discriminate]|split; [intros e w1 E; injection E as <- <-; reflexivity|discriminate]].
    destruct (read_rules_file conf) as [rules|]; [|split; [intros e w1 E; injection E as <- <-; reflexivity|discriminate]]. unfold build.
    destruct (prepare junk machine re sh root true rules core s d groups name (World (cleanup_meta (w_fs w) root) (w_db w)) m) as [[] w1 m1|e w1].
    - split; [discriminate|]. intros w2 m2 status f d' E Ep Ls. injection E as <- <-. rewrite Ep. apply Z.ltb_lt in Ls. rewrite Ls. reflexivity.
    - split; [|discriminate]. intros e' w2 E. injection E as <- <-. reflexivity.
  Qed.
End Port.

(** ** concrete cases *)
Definition arc (n : str) (more : list str) (f : str) : archive := pkg ((L "N" ++ n) :: L "V1" :: L "ax86_64" :: more) [(L "usr/", dirn); (L "usr/" ++ f, reg n)].
Definition shelf (ps : list (str * archive)) : str -> option archive := fun p => option_map snd (find (fun x => seqb (fst x) p) ps).
Definition b_archives : list (str * archive) :=
  [(L "/r/b.tar", arc (L "b") [] (L "b")); (L "/r/b.lib.tar", arc (L "b.lib") [] (L "blib")); (L "/r/b.doc.tar", arc (L "b.doc") [] (L "bdoc"));
   (L "/r/b.fr.tar", arc (L "b.fr") [] (L "bfr")); (L "/r/c.tar", arc (L "c") [] (L "c")); (L "/r/make.tar", arc (L "make") [L "sdevel"] (L "make")); (L "/r/less.tar", arc (L "less") [] (L "less"))].
Definition b_depot : depot := Depot ok_repo (shelf b_archives).
Definition b_after : depot := Depot (Bin (L "a") (L "a") (L "/r/a.tar") [] [] :: ok_repo) (shelf ((L "/r/a.tar", arc (L "a") [] (L "a")) :: b_archives)).
Definition b_core : list (bool * str) := [(false, L "/r/make.tar"); (true, L "/r/less.tar")].
Notation c_env := (create_env false mach pfx quiet rt true None).
Notation c_port := (create_port false mach pfx quiet rt true None).
Definition made_a (f : fs) : Z * fs * depot := (0%Z, f, b_after).
Lemma b_files_In p a ps : shelf ps p = Some a -> In (p, a) ps.
Proof. unfold shelf. destruct (find _ ps) as [[q b]|] eqn:E; [|discriminate]. apply find_some in E as [I E]. cbn [fst] in E. apply seqb_eq in E. subst q. intro H. injection H as <-. exact I. Qed.
Lemma b_no_dots : no_dots (p_files b_after) /\ no_dots (p_files b_depot).
Proof.
  split; intros p a H; apply b_files_In in H; cbn [In b_archives] in H; decompose [or] H; try contradiction; match goal with X : _ = _ |- _ => injection X as _ <- end; no_dot.
Qed.
Lemma shelf_name p a n : p_files b_after p = Some a -> archive_name a n -> In (p, n) [(L "/r/a.tar", L "a"); (L "/r/b.tar", L "b"); (L "/r/b.lib.tar", L "b.lib"); (L "/r/b.doc.tar", L "b.doc"); (L "/r/b.fr.tar", L "b.fr"); (L "/r/c.tar", L "c"); (L "/r/make.tar", L "make"); (L "/r/less.tar", L "less")].
Proof.
  intros H An. apply b_files_In in H. assert (O : exists m i, open_archive false mach rt a = Ok (m, i) /\ In (p, m) [(L "/r/a.tar", L "a"); (L "/r/b.tar", L "b"); (L "/r/b.lib.tar", L "b.lib"); (L "/r/b.doc.tar", L "b.doc"); (L "/r/b.fr.tar", L "b.fr"); (L "/r/c.tar", L "c"); (L "/r/make.tar", L "make"); (L "/r/less.tar", L "less")]).
  { cbn [In b_archives] in H. decompose [or] H; try contradiction; match goal with X : _ = _ |- _ => injection X as <- <- end; do 2 eexists; (split; [vm_compute; reflexivity|cbn [In]; tauto]). }
  destruct O as (m & i & O & J). apply open_name in O as [O _]. rewrite (archive_name_unique _ _ _ An O). exact J.
Qed.
Lemma b_unique p q n a b : holds_pkg (p_files b_after) p n a -> holds_pkg (p_files b_after) q n b -> a = b.
Proof.
  intros [H1 H2] [K1 K2]. pose proof (shelf_name p a n H1 H2) as Jp. pose proof (shelf_name q b n K1 K2) as Jq. assert (p = q); [|subst q; congruence].
  cbn [In] in Jp, Jq. decompose [or] Jp; try contradiction; match goal with X : _ = (p, n) |- _ => injection X as <- <- end; decompose [or] Jq; try contradiction; match goal with X : _ = (q, _) |- _ => first [discriminate X | injection X as <-; reflexivity] end.
Qed.
Lemma three_inv : inv (w_db w_three).
Proof.
  unfold w_three, performs. cbn [fold_left perform]. apply session_inv; [apply op_no_dot; constructor; [no_dot|constructor]|]. apply create_session_inv; [|exact inv_empty].
  constructor; [constructor; [apply no_dot_named; no_dot|constructor]|]. constructor; [constructor; [apply no_dot_named; no_dot|constructor]|]. constructor.
Qed.
(** 'cards create a' where gcc (of the set devel), lib and doc are installed: make (devel) is added at the start, less too but it is cleared
    away with lib and doc; then c, b.lib and b, which the port needs, and after the build a. *)
Example C96_case : exists s, sane_ports ok_ports s (L "a") /\ no_dots (p_files b_depot) /\ no_dots (p_files b_after) /\ one_each (p_files b_depot) (start_files b_core) /\ inv (w_db w_three) /\
  one_each (p_files b_after) (group_files (p_bins b_after) (L "a")) /\
  (exists w1 m1, c_env b_core s b_depot [L "lib"] (L "a") w_three = Ret tt w1 m1 /\ keys (w_db w1) = [L "b"; L "b.lib"; L "c"; L "gcc"; L "make"]) /\
  fst (c_port b_core s b_depot [L "lib"] (L "a") made_a w_three) = None /\
  keys (w_db (snd (c_port b_core s b_depot [L "lib"] (L "a") made_a w_three))) = [L "a"; L "b"; L "b.lib"; L "c"; L "gcc"; L "make"].
Proof.
  destruct C70_witness as (s & T & Cy & W & _). exists s. split; [split; [exact T|split; [vm_compute; tauto|split; [exact Cy|exact W]]]|].
  split; [exact (proj2 b_no_dots)|]. split; [exact (proj1 b_no_dots)|]. split; [|split; [|split]].
  - intros p q n a b Jp Jq Hp Hq. apply (b_unique p q n a b); [|].
    + destruct Hp as [H1 H2]. split; [|exact H2]. vm_compute in Jp. destruct Jp as [<-|[<-|[]]]; vm_compute in H1; injection H1 as <-; vm_compute; reflexivity.
    + destruct Hq as [H1 H2]. split; [|exact H2]. vm_compute in Jq. destruct Jq as [<-|[<-|[]]]; vm_compute in H1; injection H1 as <-; vm_compute; reflexivity.
  - exact three_inv.
  - intros p q n a b _ _. apply b_unique.
  - vm_compute in T. injection T as <-. split; [do 2 eexists; split; [vm_compute; reflexivity|vm_compute; reflexivity]|]. split; vm_compute; reflexivity.
Qed.

(** *** what the environment lacks *)
(** An installed package outside the sets answers to the name of a package the port needs: it is cleared away, but its alias is not, so the
    package the port needs is taken for installed and is not put in: pkgmk is run without it. *)
Definition old_c : archive := arc (L "old") [L "Ac"] (L "old").
Definition w_alias : world := his [Add simple false None old_c] w_empty.
Theorem C96_alias_refuted : exists s w1 m1, sane_ports ok_ports s (L "a") /\ dep_file ok_ports b_depot [L "lib"] (L "a") (L "/r/c.tar") /\ holds_pkg (p_files b_depot) (L "/r/c.tar") (L "c") (arc (L "c") [] (L "c")) /\
  c_env [] s b_depot [L "lib"] (L "a") w_alias = Ret tt w1 m1 /\ ~ installed (w_db w1) (L "c") /\ ~ installed (w_db w1) (L "old") /\ keys (w_db w1) = [L "b"; L "b.lib"].
Proof.
  destruct C70_witness as (s & T & Cy & W & _). assert (Sa : sane_ports ok_ports s (L "a")) by (split; [exact T|split; [vm_compute; tauto|split; [exact Cy|exact W]]]).
  assert (Df : dep_file ok_ports b_depot [L "lib"] (L "a") (L "/r/c.tar")).
  { apply (dep_file_In ok_ports s b_depot [L "lib"] (L "a") Sa). vm_compute in T. injection T as <-. vm_compute. tauto. }
  assert (H : exists w1 m1, c_env [] s b_depot [L "lib"] (L "a") w_alias = Ret tt w1 m1 /\ keys (w_db w1) = [L "b"; L "b.lib"] /\ mget (L "c") (w_db w1) = None /\ mget (L "old") (w_db w1) = None).
  { vm_compute in T. injection T as <-. do 2 eexists. split; [vm_compute; reflexivity|]. split; [vm_compute; reflexivity|]. split; vm_compute; reflexivity. }
  destruct H as (w1 & m1 & E & K & Gc & Go). exists s, w1, m1. split; [exact Sa|]. split; [exact Df|]. split.
  - split; [vm_compute; reflexivity|]. assert (O : exists i, open_archive false mach rt (arc (L "c") [] (L "c")) = Ok (L "c", i)) by (eexists; vm_compute; reflexivity). destruct O as [i O]. exact (proj1 (open_name _ _ _ _ _ _ O)).
  - split; [exact E|]. split; [intros [_ Z]; exact (Z Gc)|]. split; [intros [_ Z]; exact (Z Go)|exact K].
Qed.
(** A package of the set devel runs with a library that belongs to neither set: the library is cleared away and the package is kept without it. *)
Definition gcc_lib : archive := arc (L "gcc") [L "sdevel"; L "Rlib1700000000"] (L "gcc").
Definition w_needs : world := his [Add simple false None lib; Add simple false None gcc_lib] w_empty.
Theorem C96_needed_cleared_refuted : exists s w1 m1, sane_ports ok_ports s (L "a") /\ spared (w_db w_needs) (L "gcc") /\ meta_has (w_db w_needs) (L "gcc") (L "Rlib1700000000") /\ installed (w_db w_needs) (L "lib") /\
  c_env [] s b_depot [L "lib"] (L "a") w_needs = Ret tt w1 m1 /\ installed (w_db w1) (L "gcc") /\ ~ installed (w_db w1) (L "lib") /\ keys (w_db w1) = [L "b"; L "b.lib"; L "c"; L "gcc"].
Proof.
  destruct C70_witness as (s & T & Cy & W & _). assert (Sa : sane_ports ok_ports s (L "a")) by (split; [exact T|split; [vm_compute; tauto|split; [exact Cy|exact W]]]).
  assert (H : exists w1 m1, c_env [] s b_depot [L "lib"] (L "a") w_needs = Ret tt w1 m1 /\ keys (w_db w1) = [L "b"; L "b.lib"; L "c"; L "gcc"] /\ mget (L "gcc") (w_db w1) <> None /\ mget (L "lib") (w_db w1) = None).
  { vm_compute in T. injection T as <-. do 2 eexists. split; [vm_compute; reflexivity|]. split; [vm_compute; reflexivity|]. split; vm_compute; [discriminate|reflexivity]. }
  destruct H as (w1 & m1 & E & K & Gg & Gl). exists s, w1, m1. split; [exact Sa|].
  assert (M : forall t, In t [L "sdevel"; L "Rlib1700000000"] -> meta_has (w_db w_needs) (L "gcc") t).
  { intros t J. exists (match mget (L "gcc") (w_db w_needs) with Some d => d | None => [] end), (text_of [L "Ngcc"; L "V1"; L "ax86_64"; L "sdevel"; L "Rlib1700000000"]), [L "Ngcc"; L "V1"; L "ax86_64"; L "sdevel"; L "Rlib1700000000"].
    split; [vm_compute; reflexivity|]. split; [vm_compute; reflexivity|]. split; [vm_compute; reflexivity|]. cbn [In] in J |- *. tauto. }
  split; [split; [split; [intros v Z; discriminate Z|vm_compute; discriminate]|right; apply M; cbn [In]; tauto]|]. split; [apply M; cbn [In]; tauto|].
  split; [split; [intros v Z; discriminate Z|vm_compute; discriminate]|]. split; [exact E|]. split; [split; [intros v Z; discriminate Z|exact Gg]|]. split; [intros [_ Z]; contradiction (Z Gl)|exact K].
Qed.
(** When the build leaves nothing for the port in the repository, the command succeeds and installs nothing. *)
Example C96_nothing_made : exists s, sane_ports ok_ports s (L "a") /\ fst (c_port b_core s b_depot [L "lib"] (L "a") (fun f => (0%Z, f, b_depot)) w_three) = None /\
  keys (w_db (snd (c_port b_core s b_depot [L "lib"] (L "a") (fun f => (0%Z, f, b_depot)) w_three))) = [L "b"; L "b.lib"; L "c"; L "gcc"; L "make"].
Proof.
  destruct C70_witness as (s & T & Cy & W & _). exists s. split; [split; [exact T|split; [vm_compute; tauto|split; [exact Cy|exact W]]]|]. vm_compute in T. injection T as <-. split; vm_compute; reflexivity.
Qed.
