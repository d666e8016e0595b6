(** C97: 'cards create' for a collection. *)
From Verif Require Import Base BaseProofs StrModel StrSpec StrProofs RulesModel RulesSpec RulesProofs FsModel FsSpec FsProofs FsOps FsExtract
  MetaModel MetaSpec MetaProofs DbModel DbSpec DbLoad DbOps DbRun EngineFs EngineRoot DbFacts DbProps DbExamples RemoveProps AddRun AddProps ManyRun RemoveCmdProofs
  Graph PortsModel PortsProofs PortsProps PortsLists CreateOrder CreateModel CreateProps BuildModel BuildProps.
From Verif Require Import DbInv.
From Coq Require Import ZArith Lia.

Section Mem.
  Variables (junk : bool) (machine : str) (re : str -> str -> option bool) (sh : str -> fs -> fs * bool) (root : str).
  Variables (conf : option str) (rules : list rule).
  Hypothesis Rr : read_rules_file conf = inl rules.
  Notation step := (step junk machine re sh root true rules).
  Notation mades := (mades junk machine re sh root true rules).

  (** what a package that was made changes in the memory *)
  Lemma made_mem a w m w' m' : step (Made a) w m = Ret tt w' m' ->
    exists name, archive_name a name /\ (exists r, mget name (m_pkgs m') = Some r /\ (set_rec r = true <-> in_sets_archive a)) /\
      (forall n, n <> name -> mget n (m_pkgs m') = mget n (m_pkgs m) /\ name_exists m' n = name_exists m n) /\ (name_exists m' name = true -> name_exists m name = true).
  Proof.
    intro E. cbn [CreateModel.step] in E. destruct (create_run junk machine re sh root true (known_archive junk machine root a m) rules a w m) as [nm w1 m1|e w1] eqn:Ec; [|discriminate E]. injection E as -> ->.
    unfold create_run in Ec. destruct (open_archive junk machine root a) as [[name info]| |] eqn:Eo; [|discriminate Ec|discriminate Ec].
    destruct (apply_install_rules re rules (r_files info)) as [[[ins non] post]|]; [|discriminate Ec].
    destruct (pre_run sh root a w) as [w2|w2]; [discriminate Ec|]. destruct (conflicts root name ins (w_fs w2) (m_pkgs m)); [|discriminate Ec].
    exists name. split; [exact (proj1 (open_name _ _ _ _ _ _ Eo))|].
    assert (K : exists w4 m3, (forall n, n <> name -> mget n (m_pkgs m3) = mget n (m_pkgs m) /\ name_exists m3 n = name_exists m n) /\ (name_exists m3 name = true -> name_exists m name = true) /\
              match move_meta root name (w4, m3) with UB => Stop Undefined w4 | Throw => Stop Exception (World (removeFile (w_fs w4) root (L "/.MTREE")) (w_db w4))
              | Ok wm5 => let '(w6, m6) := add_files_refs name (with_files ins info) wm5 in Ret name (post_run sh root true w6) m6 end = Ret nm w' m').
    { destruct (known_archive junk machine root a m).
      - destruct (remove_refs junk name (w2, mark_auto junk name m)) as [[w3 m3]|] eqn:R; [|discriminate Ec]. destruct (get_keep_list re rules ins) as [kl|]; [|discriminate Ec].
        cbn [remove_files] in Ec. eexists _, _. split; [|split; [|exact Ec]].
        + intros n Nn. unfold name_exists. cbn [m_pkgs m_alias]. rewrite !mget_mdel, (proj2 (seqb_neq n name)) by exact Nn. unfold remove_refs in R. destruct (mget name (w_db w2)) as [dir|]; [|discriminate R]. injection R as _ <-. cbn [m_pkgs m_alias].
          unfold mark_auto. destruct (mget name (m_pkgs m)) as [r|] eqn:G.
          * destruct (r_auto r); cbn [m_pkgs m_alias]; rewrite G; auto.
          * cbn [m_pkgs m_alias]. rewrite mget_mset, seqb_refl, mget_mset, (proj2 (seqb_neq n name)) by exact Nn. auto.
        + unfold name_exists. cbn [m_alias]. rewrite mget_mdel, seqb_refl. discriminate.
      - eexists _, _. split; [|split; [|exact Ec]]; auto. }
    destruct K as (w4 & m3 & K1 & K2 & Ek). destruct (move_meta root name (w4, m3)) as [[w5 m5]| |] eqn:Em; [|discriminate Ek|discriminate Ek]. destruct (move_meta_mem _ _ _ _ _ _ Em) as [M5 A5].
    cbn [add_files_refs] in Ek. injection Ek as _ _ Em'.
    assert (Mp : m_pkgs m' = mset name (with_files ins info) (m_pkgs m3)) by (rewrite <- Em'; cbn [m_pkgs]; rewrite M5; reflexivity).
    assert (Ma : m_alias m' = m_alias m3) by (rewrite <- Em'; cbn [m_alias]; rewrite A5; reflexivity).
    split; [|split].
    - exists (with_files ins info). split; [rewrite Mp, mget_mset, seqb_refl; reflexivity|]. change (set_rec (with_files ins info)) with (set_rec info). exact (set_rec_archive junk machine root a name info Eo).
    - intros n Nn. destruct (K1 n Nn) as [K3 K4]. split; [rewrite Mp, mget_mset, (proj2 (seqb_neq n name)) by exact Nn; exact K3|]. unfold name_exists in *. rewrite Ma. exact K4.
    - unfold name_exists in *. rewrite Ma. exact K2.
  Qed.
End Mem.

Section Coll.
  Variables (junk : bool) (machine : str) (re : str -> str -> option bool) (sh : str -> fs -> fs * bool) (root : str).
  Variables (conf : option str) (l : list (str * list str)) (s : ports) (groups : list str).
  Variables (due : str -> depot -> fs -> bool) (pkgmk : str -> depot -> fs -> Z * fs * depot).
  (** the database when the command was started *)
  Variable db0 : disk.
  (** a package of the two sets: one that was installed, or one that came from an archive of one of the repositories [ds] *)
  Definition of_sets (ds : list depot) (n : str) : Prop :=
    spared db0 n \/ exists d p a, In d ds /\ holds_pkg (p_files d) p n a /\ in_sets_archive a.
  Definition good_pkgmk : Prop := forall n d f status f' d', pkgmk n d f = (status, f', d') -> no_dots (p_files d) -> no_dots (p_files d').

  Section Loop.
    Variable rules : list rule.
    Hypothesis Rr : read_rules_file conf = inl rules.
    Notation puts := (puts junk machine re sh root true rules).
    Notation mades := (mades junk machine re sh root true rules).
    Notation step := (step junk machine re sh root true rules).
    Notation builds := (builds junk machine re sh root true rules s groups due pkgmk).
    Definition alias_ok (m : mem) : Prop := forall k, name_exists m k = true -> known db0 k /\ (mget k (m_pkgs m) <> None \/ ~ installed db0 k).
    Definition sets_ok (ds : list depot) (m : mem) : Prop := forall k r, mget k (m_pkgs m) = Some r -> set_rec r = true -> of_sets ds k.
    Definition state_ok (ds : list depot) (w : world) (m : mem) : Prop := inv (w_db w) /\ agree (w_db w) m /\ alias_ok m /\ sets_ok ds m.

    Lemma of_sets_incl ds ds' n : incl ds ds' -> of_sets ds n -> of_sets ds' n.
    Proof. intros I [H|(d & p & a & J & H)]; [left; exact H|right; exists d, p, a; split; [apply I, J|exact H]]. Qed.
    Lemma agree_none (d : disk) m n : agree d m -> mget n d = None -> mget n (m_pkgs m) = None.
    Proof. intros [_ A] G. specialize (A n). destruct (mget n (m_pkgs m)); [|reflexivity]. destruct A as [_ [dir [Z _]]]. congruence. Qed.
    Lemma agree_some (d : disk) m n : agree d m -> mget n (m_pkgs m) <> None -> mget n d <> None.
    Proof. intros [_ A] G. specialize (A n). destruct (mget n (m_pkgs m)); [|congruence]. destruct A as [_ [dir [Z _]]]. congruence. Qed.

    Lemma puts_state files ps ds w m w' m' : no_dots files -> (exists d, In d ds /\ p_files d = files) -> state_ok ds w m -> puts files ps w m = Ret tt w' m' -> state_ok ds w' m'.
    Proof.
      intros ND [d [Id Ed]] (I & AG & Al & Se) E. destruct (puts_ok junk machine re sh root conf rules Rr files ND ps w m w' m' I AG E) as (I2 & AG2 & A2 & Ex & Fr & Ad).
      assert (Nx : forall k, name_exists m' k = name_exists m k) by (intro k; unfold name_exists; rewrite A2; reflexivity).
      assert (Dec : forall k, (exists sd p a, In (sd, p) ps /\ holds_pkg files p k a) \/ forall sd p a, In (sd, p) ps -> ~ holds_pkg files p k a).
      { intro k. destruct (holds_dec files (map snd ps) k) as [(p & a & J & H)|H].
        - intros p J. apply in_map_iff in J as [[sd q] [<- J]]. exact (Ex sd q J).
        - left. apply in_map_iff in J as [[sd q] [<- J]]. exists sd, q, a. auto.
        - right. intros sd p a J. apply (H p a). apply in_map_iff. exists (sd, p). auto. }
      assert (Mono : forall k, mget k (m_pkgs m) <> None -> mget k (m_pkgs m') <> None).
      { intros k G. destruct (name_exists m k) eqn:B; [rewrite (proj2 (Fr k (or_introl B))); exact G|]. destruct (Dec k) as [(sd & p & a & J & H)|No].
        - destruct (Ad k sd p a J H B) as (_ & _ & _ & r & _ & _ & _ & G2 & _). congruence.
        - rewrite (proj2 (Fr k (or_intror No))). exact G. }
      split; [exact I2|]. split; [exact AG2|]. split.
      - intros k B. rewrite Nx in B. destruct (Al k B) as [K [G|G]]; [split; [exact K|left; apply Mono, G]|split; [exact K|right; exact G]].
      - intros k r G B. destruct (name_exists m k) eqn:Bk; [rewrite (proj2 (Fr k (or_introl Bk))) in G; exact (Se k r G B)|]. destruct (Dec k) as [(sd & p & a & J & H)|No].
        + destruct (Ad k sd p a J H Bk) as (_ & q & b & r' & _ & Hb & _ & G2 & Sr & _). assert (r' = r) by congruence. subst r'. right. exists d, q, b. split; [exact Id|]. rewrite Ed. split; [exact Hb|apply Sr, B].
        + rewrite (proj2 (Fr k (or_intror No))) in G. exact (Se k r G B).
    Qed.
    Lemma clear_state ds w m w' m' : state_ok ds w m -> step Clear w m = Ret tt w' m' -> state_ok ds w' m' /\ forall k r, mget k (m_pkgs m') = Some r -> set_rec r = true.
    Proof.
      intros (I & AG & Al & Se) E. destruct (clear_ok junk machine re sh root rules w m w' m' I AG E) as (I2 & AG2 & Cl & Kp).
      assert (Dec : forall k, (exists r, mget k (m_pkgs m) = Some r /\ set_rec r = false) \/ ~ exists r, mget k (m_pkgs m) = Some r /\ set_rec r = false).
      { intro k. destruct (mget k (m_pkgs m)) as [r|]; [|right; intros [r [G _]]; discriminate G]. destruct (set_rec r) eqn:B; [|left; exists r; auto]. right. intros [r' [G B']]. congruence. }
      assert (Se2 : forall k r, mget k (m_pkgs m') = Some r -> set_rec r = true /\ mget k (m_pkgs m) = Some r).
      { intros k r G. destruct (Dec k) as [H|H].
        - destruct (Cl k H) as [Z _]. apply (agree_none _ _ _ AG2) in Z. congruence.
        - destruct (Kp k H) as (_ & Z & _). rewrite Z in G. split; [|exact G]. destruct (set_rec r) eqn:B; [reflexivity|]. destruct H. exists r. auto. }
      split; [|intros k r G; apply (Se2 k r G)]. split; [exact I2|]. split; [exact AG2|]. split.
      - intros k B. destruct (Dec k) as [H|H]; [destruct (Cl k H) as [_ Z]; congruence|]. destruct (Kp k H) as (_ & Z & Zn). rewrite Zn in B. rewrite Z. exact (Al k B).
      - intros k r G B. apply (Se k r); [apply Se2, G|exact B].
    Qed.
    Lemma mades_state files ps ds : no_dots files -> (exists d, In d ds /\ p_files d = files) -> forall w m w' m', state_ok ds w m -> mades files ps w m = Ret tt w' m' -> state_ok ds w' m'.
    Proof.
      intros ND [d [Id Ed]]. induction ps as [|p t IH]; intros w m w' m' St E; cbn [BuildModel.mades] in E; [injection E as <- <-; exact St|].
      destruct (files p) as [a|] eqn:Ef; [|discriminate E]. destruct (step (Made a) w m) as [[] w1 m1|e w1] eqn:Es; [|discriminate E]. apply (IH w1 m1 w' m'); [|exact E].
      destruct St as (I & AG & Al & Se). destruct (made_ok junk machine re sh root conf rules Rr a w m w1 m1 I AG (ND p a Ef) Es) as (name & An & I1 & AG1 & _).
      destruct (made_mem junk machine re sh root rules a w m w1 m1 Es) as (nm & An2 & [r [Gr Sr]] & Oth & Nn). assert (nm = name) by exact (archive_name_unique _ _ _ An2 An). subst nm.
      split; [exact I1|]. split; [exact AG1|]. split.
      - intros k B. destruct (str_eq_dec k name) as [->|N].
        + destruct (Al name (Nn B)) as [K _]. split; [exact K|]. left. congruence.
        + destruct (Oth k N) as [Z1 Z2]. rewrite Z2 in B. rewrite Z1. exact (Al k B).
      - intros k r' G B. destruct (str_eq_dec k name) as [->|N].
        + assert (r' = r) by congruence. subst r'. right. exists d, p, a. split; [exact Id|]. rewrite Ed. split; [split; assumption|apply Sr, B].
        + rewrite (proj1 (Oth k N)) in G. exact (Se k r' G B).
    Qed.
    Lemma inv_fs w f m ds : state_ok ds w m -> state_ok ds (World f (w_db w)) m.
    Proof. intro H. exact H. Qed.

    (** the system pkgmk is run in *)
    Definition env_ok (ds : list depot) (n : str) (d : depot) (w1 : world) : Prop :=
      (forall p k a, dep_file l d groups n p -> holds_pkg (p_files d) p k a -> (known db0 k -> installed db0 k) -> installed (w_db w1) k) /\
      (forall k, installed (w_db w1) k -> (exists p a, dep_file l d groups n p /\ holds_pkg (p_files d) p k a) \/ of_sets ds k) /\
      (forall p k a, dep_file l d groups n p -> holds_pkg (p_files d) p k a -> (known db0 k -> installed db0 k) -> ~ of_sets ds k ->
         exists q b, dep_file l d groups n q /\ holds_pkg (p_files d) q k b /\ forall x, lists (w_db w1) k x <-> ships b x /\ verdict re INSTALL rules x true).
    Lemma prepare_state ds n d w m w1 m1 : sane_ports l s n -> no_dots (p_files d) -> In d ds -> state_ok ds w m ->
      prepare junk machine re sh root true rules [] s d groups n w m = Ret tt w1 m1 -> state_ok ds w1 m1 /\ env_ok ds n d w1.
    Proof.
      intros Sa ND Id St E. unfold prepare in E. cbn [BuildModel.puts] in E. destruct (step Clear w m) as [[] wb mb|e wb] eqn:Ec; [|discriminate E].
      destruct (clear_state ds w m wb mb St Ec) as [Sb Only]. pose proof (puts_state (p_files d) _ ds wb mb w1 m1 ND (ex_intro _ d (conj Id eq_refl)) Sb E) as S1. split; [exact S1|].
      destruct Sb as (Ib & AGb & Alb & Seb). destruct (puts_ok junk machine re sh root conf rules Rr (p_files d) ND _ _ _ _ _ Ib AGb E) as (I1 & AG1 & A1 & Ex & Fr & Ad).
      pose proof (dep_file_In l s d groups n Sa) as Df.
      assert (In2 : forall sd p, In (sd, p) (map (pair false) (build_archives s (p_bins d) groups n)) <-> sd = false /\ dep_file l d groups n p).
      { intros sd p. rewrite <- Df, in_map_iff. split; [intros [q [Q J]]; injection Q as <- <-; auto|intros [-> J]; exists p; auto]. }
      assert (Stay : forall k, name_exists mb k = true -> (known db0 k -> installed db0 k) -> of_sets ds k /\ mget k (w_db w1) <> None).
      { intros k B K. destruct (Alb k B) as [Kn [G|G]]; [|destruct (G (K Kn))]. destruct (mget k (m_pkgs mb)) as [r|] eqn:Gr; [|congruence]. split; [exact (Seb k r Gr (Only k r Gr))|].
        rewrite (proj1 (Fr k (or_introl B))). apply (agree_some (w_db wb) mb k AGb). congruence. }
      split; [|split].
      - intros p k a D H K. apply (inv_installed (w_db w1) k I1). destruct (name_exists mb k) eqn:B; [exact (proj2 (Stay k B K))|].
        destruct (Ad k false p a (proj2 (In2 false p) (conj eq_refl D)) H B) as (_ & _ & _ & _ & _ & _ & G & _). exact G.
      - intros k G. apply (inv_installed (w_db w1) k I1) in G. destruct (holds_dec (p_files d) (build_archives s (p_bins d) groups n) k) as [(p & a & J & H)|No].
        + intros p J. apply (Ex false p), in_map, J.
        + left. exists p, a. split; [apply Df, J|exact H].
        + right. rewrite (proj1 (Fr k (or_intror (fun sd p a J => No p a (proj2 (Df p) (proj2 (proj1 (In2 sd p) J))))))) in G.
          destruct (mget k (m_pkgs mb)) as [r|] eqn:Gr; [exact (Seb k r Gr (Only k r Gr))|]. destruct AGb as [_ AGb]. specialize (AGb k). rewrite Gr in AGb. congruence.
      - intros p k a D H K Ns. destruct (name_exists mb k) eqn:B; [destruct (Ns (proj1 (Stay k B K)))|].
        destruct (Ad k false p a (proj2 (In2 false p) (conj eq_refl D)) H B) as (sd & q & b & _ & J & Hb & _ & _ & _ & Ls). exists q, b. split; [apply (In2 sd q), J|]. split; [exact Hb|exact Ls].
    Qed.

    Definition dep_of (c : call) : depot := snd (fst c).
    Lemma builds_env (Gp : good_pkgmk) order : (forall n, In n order -> sane_ports l s n) -> forall ds0 d w m tr o, no_dots (p_files d) -> state_ok (ds0 ++ [d]) w m -> builds order d w m = (tr, o) ->
      forall pre n d1 w1 post, tr = pre ++ (n, d1, w1) :: post -> env_ok (ds0 ++ map dep_of pre ++ [d1]) n d1 w1.
    Proof.
      induction order as [|n t IH]; intros Sa ds0 d w m tr o ND St E pre n1 d1 w1 post Et; cbn [BuildModel.builds] in E; [injection E as <- _; destruct pre; discriminate Et|].
      destruct (due n d (w_fs w)); [|exact (IH (fun k J => Sa k (or_intror J)) ds0 d w m tr o ND St E pre n1 d1 w1 post Et)].
      destruct (prepare junk machine re sh root true rules [] s d groups n w m) as [[] wa ma|e wa] eqn:Ep; [|injection E as <- _; destruct pre; discriminate Et].
      destruct (prepare_state (ds0 ++ [d]) n d w m wa ma (Sa n (or_introl eq_refl)) ND (in_elt _ _ _) St Ep) as [Sta En].
      assert (First : forall t1, tr = (n, d, wa) :: t1 -> pre = [] -> env_ok (ds0 ++ map dep_of pre ++ [d1]) n1 d1 w1).
      { intros t1 Z ->. cbn [app map]. rewrite Z in Et. injection Et as <- <- <- _. exact En. }
      destruct (pkgmk n d (w_fs wa)) as [[status f] d'] eqn:Em. destruct (0 <? status)%Z.
      { injection E as <- _. apply (First []); [reflexivity|]. destruct pre as [|c pre]; [reflexivity|]. injection Et as _ Et. destruct pre; discriminate Et. }
      destruct (mades (p_files d') (group_files (p_bins d') n) (World f (w_db wa)) ma) as [[] wc mc|e wc] eqn:Ed.
      2:{ injection E as <- _. apply (First []); [reflexivity|]. destruct pre as [|c pre]; [reflexivity|]. injection Et as _ Et. destruct pre; discriminate Et. }
      destruct (builds t d' wc mc) as [tr' o'] eqn:Er. injection E as <- _. destruct pre as [|c pre]; [exact (First tr' eq_refl eq_refl)|]. injection Et as <- Et.
      assert (Sc : state_ok ((ds0 ++ [d]) ++ [d']) wc mc).
      { apply (mades_state (p_files d') (group_files (p_bins d') n) ((ds0 ++ [d]) ++ [d']) (Gp _ _ _ _ _ _ Em ND) (ex_intro _ d' (conj (in_elt _ _ _) eq_refl)) (World f (w_db wa)) ma wc mc); [|exact Ed].
        destruct Sta as (Q1 & Q2 & Q3 & Q4). split; [exact Q1|]. split; [exact Q2|]. split; [exact Q3|]. intros k r G B. apply (of_sets_incl (ds0 ++ [d])); [apply incl_appl, incl_refl|exact (Q4 k r G B)]. }
      pose proof (IH (fun k J => Sa k (or_intror J)) (ds0 ++ [d]) d' wc mc tr' o' (Gp _ _ _ _ _ _ Em ND) Sc Er pre n1 d1 w1 post Et) as R. rewrite <- app_assoc in R. exact R.
    Qed.
    Lemma start_state w m ds : load junk (w_db w) = Ok m -> inv (w_db w) -> db0 = w_db w -> state_ok ds w m.
    Proof.
      intros El I Ez. unfold state_ok, alias_ok, sets_ok, of_sets. rewrite Ez. assert (Hd : forall k, known (w_db w) k <-> name_exists m k = true) by (intro k; symmetry; apply (name_exists_known junk (w_db w) m k El)).
      pose proof (load_agree junk (w_db w) m (proj1 I) El) as AG. split; [exact I|]. split; [exact AG|]. split.
      - intros k B. split; [apply Hd, B|]. destruct (mget k (m_pkgs m)) as [r|] eqn:G; [left; discriminate|]. right. intro Z. apply (load_present junk (w_db w) m k El) in Z as [r Z]. congruence.
      - intros k r G B. left. split; [apply (load_present junk (w_db w) m k El); exists r; exact G|apply (set_rec_load junk (w_db w) m k r El G), B].
    Qed.
    (** a package the repository offers for the port: an archive of the main package *)
    Definition offers (d : depot) (x : str) : Prop :=
      exists b a, In b (p_bins d) /\ b_name b = x /\ b_group b = [] /\ b_nls b = [] /\ holds_pkg (p_files d) (b_path b) x a.
    Lemma offers_dep d n x : chain (needs l) n x -> x <> n -> offers d x -> exists p a, dep_file l d groups n p /\ holds_pkg (p_files d) p x a.
    Proof.
      intros C N (b & a & I & Bn & Bg & Bl & H). exists (b_path b), a. split; [|exact H]. exists x. split; [exact C|]. split; [exact N|]. split; [exists b; auto|]. split; [exists b; auto|]. exists b. auto.
    Qed.
    Lemma split_before {A} (x : A) (a b e done t : list A) n : NoDup (done ++ n :: t) -> done ++ n :: t = a ++ x :: b ++ n :: e -> In x done.
    Proof.
      revert a. induction done as [|y done IH]; intros a Nd E; cbn [app] in *.
      - exfalso. inversion Nd as [|? ? Hn _]; subst. destruct a as [|z a]; cbn [app] in E; injection E as -> E; apply Hn; rewrite E; [|apply in_app_iff; right; right]; apply in_elt.
      - inversion Nd as [|? ? _ Nd']; subst. destruct a as [|z a]; cbn [app] in E; injection E as -> E; [left; reflexivity|right; exact (IH a Nd' E)].
    Qed.
    Lemma builds_offers (order : list str) : NoDup order -> (forall n x, In n order -> In x order -> chain (needs l) n x -> x <> n -> exists a b e, order = a ++ x :: b ++ n :: e) ->
      (forall n d f, In n order -> due n d f = false -> offers d n) ->
      (forall n d f status f' d', pkgmk n d f = (status, f', d') -> (status <= 0)%Z -> offers d' n /\ forall x, offers d x -> offers d' x) ->
      forall t done d w m tr o, order = done ++ t -> (forall x, In x done -> offers d x) -> (forall n x, In n order -> chain (needs l) n x -> ~ In x order -> offers d x) ->
      builds t d w m = (tr, o) -> forall n d1 w1, In (n, d1, w1) tr -> In n order /\ forall x, chain (needs l) n x -> x <> n -> offers d1 x.
    Proof.
      intros Nd Ord Hd Hm. induction t as [|n t IH]; intros done d w m tr o Eo Do Ou E n1 d1 w1 J; cbn [BuildModel.builds] in E; [injection E as <- _; destruct J|].
      assert (Io : In n order) by (rewrite Eo; apply in_elt).
      assert (Here : In n order /\ forall x, chain (needs l) n x -> x <> n -> offers d x).
      { split; [exact Io|]. intros x C N. destruct (in_dec str_eq_dec x order) as [Ix|Ix]; [|exact (Ou n x Io C Ix)]. destruct (Ord n x Io Ix C N) as (a & b & e & Eq). apply Do. apply (split_before x a b e done t n); [rewrite <- Eo; exact Nd|rewrite <- Eo; exact Eq]. }
      destruct (due n d (w_fs w)) eqn:Dn.
      2:{ apply (IH (done ++ [n]) d w m tr o) with (w1 := w1); [rewrite <- app_assoc; exact Eo| |exact Ou|exact E|exact J]. intros x H. apply in_app_iff in H as [H|[<-|[]]]; [exact (Do x H)|exact (Hd n d (w_fs w) Io Dn)]. }
      destruct (prepare junk machine re sh root true rules [] s d groups n w m) as [[] wa ma|e wa]; [|injection E as <- _; destruct J].
      destruct (pkgmk n d (w_fs wa)) as [[status f] d'] eqn:Em. destruct (0 <? status)%Z eqn:Es; [injection E as <- _; destruct J as [J|[]]; injection J as <- <- <-; exact Here|]. apply Z.ltb_ge in Es.
      destruct (mades (p_files d') (group_files (p_bins d') n) (World f (w_db wa)) ma) as [[] wc mc|e wc]; [|injection E as <- _; destruct J as [J|[]]; injection J as <- <- <-; exact Here].
      destruct (builds t d' wc mc) as [tr' o'] eqn:Er. injection E as <- _. destruct J as [J|J]; [injection J as <- <- <-; exact Here|].
      destruct (Hm n d (w_fs wa) status f d' Em Es) as [On Ok]. apply (IH (done ++ [n]) d' wc mc tr' o') with (w1 := w1); [rewrite <- app_assoc; exact Eo| | |exact Er|exact J].
      - intros x H. apply in_app_iff in H as [H|[<-|[]]]; [apply Ok, Do, H|exact On].
      - intros k x Ik C Nx. apply Ok. exact (Ou k x Ik C Nx).
    Qed.
  End Loop.
End Coll.

(** one list is obtained from another by leaving names out *)
Inductive left_out {A} : list A -> list A -> Prop :=
| lo_nil : left_out [] []
| lo_keep x a b : left_out a b -> left_out (x :: a) (x :: b)
| lo_skip x a b : left_out a b -> left_out a (x :: b).
Lemma left_out_nil {A} (b : list A) : left_out [] b.
Proof. induction b; [constructor|constructor; assumption]. Qed.
Section Calls.
  Variables (junk : bool) (machine : str) (re : str -> str -> option bool) (sh : str -> fs -> fs * bool) (root : str).
  Variables (rules : list rule) (s : ports) (groups : list str).
  Variables (due : str -> depot -> fs -> bool) (pkgmk : str -> depot -> fs -> Z * fs * depot).
  Notation builds := (builds junk machine re sh root true rules s groups due pkgmk).
  Definition name_of (c : call) : str := fst (fst c).
  Definition ran (c : call) (d' : depot) : Prop := exists status f, pkgmk (name_of c) (dep_of c) (w_fs (snd c)) = (status, f, d') /\ (status <= 0)%Z.
  Fixpoint follow (d : depot) (tr : list call) : Prop :=
    match tr with [] => True | c :: t => dep_of c = d /\ match t with [] => True | c2 :: _ => ran c (dep_of c2) /\ follow (dep_of c2) t end end.
  Lemma builds_calls order : forall d w m tr o, builds order d w m = (tr, o) -> left_out (map name_of tr) order /\ follow d tr /\
    (forall c, In c tr -> exists f, due (name_of c) (dep_of c) f = true) /\
    (forall w' m', o = Ret tt w' m' -> (forall n, In n order -> In n (map name_of tr) \/ exists d1 f, (d1 = d \/ exists c, In c tr /\ ran c d1) /\ due n d1 f = false) /\ forall c, In c tr -> exists d', ran c d').
  Proof.
    induction order as [|n t IH]; intros d w m tr o E; cbn [BuildModel.builds] in E.
    - injection E as <- <-. split; [constructor|]. split; [exact Logic.I|]. split; [intros c []|]. intros w' m' _. split; [intros n []|intros c []].
    - destruct (due n d (w_fs w)) eqn:Dn.
      2:{ destruct (IH d w m tr o E) as (A & B & C & D). split; [constructor; exact A|]. split; [exact B|]. split; [exact C|]. intros w' m' Z. destruct (D w' m' Z) as [D1 D2]. split; [|exact D2].
          intros k [<-|J]; [right; exists d, (w_fs w); split; [left; reflexivity|exact Dn]|exact (D1 k J)]. }
      destruct (prepare junk machine re sh root true rules [] s d groups n w m) as [[] wa ma|e wa].
      2:{ injection E as <- <-. split; [apply left_out_nil|]. split; [exact Logic.I|]. split; [intros c []|discriminate]. }
      destruct (pkgmk n d (w_fs wa)) as [[status f] d'] eqn:Em.
      assert (One : left_out (map name_of [(n, d, wa)]) (n :: t) /\ follow d [(n, d, wa)] /\ (forall c, In c [(n, d, wa)] -> exists f0, due (name_of c) (dep_of c) f0 = true)).
      { split; [constructor; apply left_out_nil|]. split; [split; [reflexivity|exact Logic.I]|]. intros c [<-|[]]. exists (w_fs w). exact Dn. }
      destruct (0 <? status)%Z eqn:Es; [injection E as <- <-; destruct One as (A & B & C); split; [exact A|]; split; [exact B|]; split; [exact C|discriminate]|]. apply Z.ltb_ge in Es.
      destruct (mades junk machine re sh root true rules (p_files d') (group_files (p_bins d') n) (World f (w_db wa)) ma) as [[] wc mc|e wc]; [|injection E as <- <-; destruct One as (A & B & C); split; [exact A|]; split; [exact B|]; split; [exact C|discriminate]].
      destruct (builds t d' wc mc) as [tr' o'] eqn:Er. injection E as <- <-. destruct (IH d' wc mc tr' o' Er) as (A & B & C & D).
      assert (Rn : ran (n, d, wa) d') by (exists status, f; split; [exact Em|exact Es]).
      split; [cbn [map]; constructor; exact A|]. split; [|split].
      + cbn [follow]. split; [reflexivity|]. destruct tr' as [|c2 t2]; [exact Logic.I|]. cbn [follow] in B |- *. destruct B as [<- B2]. split; [exact Rn|]. split; [reflexivity|exact B2].
      + intros c [<-|J]; [exists (w_fs w); exact Dn|exact (C c J)].
      + intros w' m' Z. destruct (D w' m' Z) as [D1 D2]. split.
        * intros k [<-|J]; [left; left; reflexivity|]. destruct (D1 k J) as [H|(d1 & f1 & [-> |(c & Jc & Rc)] & H)]; [left; right; exact H| |].
          -- right. exists d', f1. split; [right; exists (n, d, wa); split; [left; reflexivity|exact Rn]|exact H].
          -- right. exists d1, f1. split; [right; exists c; split; [right; exact Jc|exact Rc]|exact H].
        * intros c [<-|J]; [exists d'; exact Rn|exact (D2 c J)].
  Qed.
  Lemma follow_next : forall tr d pre c1 c2 post, follow d tr -> tr = pre ++ c1 :: c2 :: post -> ran c1 (dep_of c2).
  Proof.
    induction tr as [|c t IH]; intros d pre c1 c2 post F E; [destruct pre; discriminate E|]. cbn [follow] in F. destruct F as [_ F]. destruct pre as [|c0 pre]; cbn [app] in E.
    - injection E as -> ->. exact (proj1 F).
    - injection E as _ E. destruct t as [|c3 t]; [destruct pre; discriminate E|]. exact (IH (dep_of c3) pre c1 c2 post (proj2 F) E).
  Qed.
End Calls.

Section Command.
  Variables (junk : bool) (machine : str) (re : str -> str -> option bool) (sh : str -> fs -> fs * bool) (root : str).
  Variables (conf : option str) (core : list (bool * str)) (d0 : depot) (check : fs -> fs) (l : list (str * list str)) (s : ports) (d : depot) (groups : list str).
  Variables (due : str -> depot -> fs -> bool) (pkgmk : str -> depot -> fs -> Z * fs * depot) (order : list str).
  Notation collection := (create_collection junk machine re sh root true conf core d0 check s d groups due pkgmk order).
  (** Every time pkgmk is run for a port of the collection: all the packages it needs are installed, as the repository of that moment has
      them; and no others but those of the two sets. *)
  Theorem C97_environment w tr res : no_dots (p_files d0) -> no_dots (p_files d) -> good_pkgmk pkgmk -> (forall n, In n order -> sane_ports l s n) -> inv (w_db w) -> collection w = (tr, res) ->
    forall pre n d1 w1 post, tr = pre ++ (n, d1, w1) :: post ->
      let ds := d0 :: map dep_of pre ++ [d1] in
      (forall p k a, dep_file l d1 groups n p -> holds_pkg (p_files d1) p k a -> (known (w_db w) k -> installed (w_db w) k) -> installed (w_db w1) k) /\
      (forall k, installed (w_db w1) k -> (exists p a, dep_file l d1 groups n p /\ holds_pkg (p_files d1) p k a) \/ of_sets (w_db w) ds k) /\
      exists rules, read_rules_file conf = inl rules /\
      (forall p k a, dep_file l d1 groups n p -> holds_pkg (p_files d1) p k a -> (known (w_db w) k -> installed (w_db w) k) -> ~ of_sets (w_db w) ds k ->
         exists q b, dep_file l d1 groups n q /\ holds_pkg (p_files d1) q k b /\ forall x, lists (w_db w1) k x <-> ships b x /\ verdict re INSTALL rules x true).
  Proof.
    intros N0 N1 Gp Sa I E pre n d1 w1 post Et. unfold create_collection in E. cbn [w_db] in E.
    assert (Nil : tr = [] -> False) by (intros ->; destruct pre; discriminate Et).
    destruct (load junk (w_db w)) as [m| |] eqn:El; [|injection E as E _; destruct (Nil (eq_sym E))|injection E as E _; destruct (Nil (eq_sym E))]. destruct (read_rules_file conf) as [rules|] eqn:Rr; [|injection E as E _; destruct (Nil (eq_sym E))].
    destruct (puts junk machine re sh root true rules (p_files d0) core (World (cleanup_meta (w_fs w) root) (w_db w)) m) as [[] wa ma|e wa] eqn:Ep; [|injection E as E _; destruct (Nil (eq_sym E))].
    destruct (builds junk machine re sh root true rules s groups due pkgmk order d (World (check (w_fs wa)) (w_db wa)) ma) as [tr' o] eqn:Eb. injection E as -> _.
    assert (St : state_ok (w_db w) ([d0] ++ [d]) wa ma).
    { apply (puts_state junk machine re sh root conf (w_db w) rules Rr (p_files d0) core _ (World (cleanup_meta (w_fs w) root) (w_db w)) m wa ma N0); [exists d0; split; [left; reflexivity|reflexivity]| |exact Ep].
      apply (start_state junk (w_db w) (World (cleanup_meta (w_fs w) root) (w_db w)) m _ El I eq_refl). }
    destruct (builds_env junk machine re sh root conf l s groups due pkgmk (w_db w) rules Rr Gp order Sa [d0] d (World (check (w_fs wa)) (w_db wa)) ma tr o N1 St Eb pre n d1 w1 post Et) as (A & B & C).
    split; [exact A|]. split; [exact B|]. exists rules. split; [reflexivity|exact C].
  Qed.
  (** pkgmk is run for ports of the collection that are due, in the order of the collection; each time in the repository the run before left;
      after a run that fails there is no other. If the command succeeds no run failed, and a port pkgmk was not run for was not due. *)
  Theorem C97_calls w tr res : collection w = (tr, res) -> left_out (map name_of tr) order /\
    (forall c t, tr = c :: t -> dep_of c = d) /\ (forall pre c1 c2 post, tr = pre ++ c1 :: c2 :: post -> ran pkgmk c1 (dep_of c2)) /\
    (forall c, In c tr -> exists f, due (name_of c) (dep_of c) f = true) /\
    (fst res = None -> (forall n, In n order -> In n (map name_of tr) \/ exists d1 f, (d1 = d \/ exists c, In c tr /\ ran pkgmk c d1) /\ due n d1 f = false) /\ forall c, In c tr -> exists d', ran pkgmk c d').
  Proof.
    intro E. unfold create_collection in E. cbn [w_db] in E.
    assert (Nil : forall e w', tr = [] -> res = (Some e, w') -> left_out (map name_of tr) order /\ (forall c t, tr = c :: t -> dep_of c = d) /\ (forall pre c1 c2 post, tr = pre ++ c1 :: c2 :: post -> ran pkgmk c1 (dep_of c2)) /\
      (forall c, In c tr -> exists f, due (name_of c) (dep_of c) f = true) /\
      (fst res = None -> (forall n, In n order -> In n (map name_of tr) \/ exists d1 f, (d1 = d \/ exists c, In c tr /\ ran pkgmk c d1) /\ due n d1 f = false) /\ forall c, In c tr -> exists d', ran pkgmk c d')).
    { intros e w' -> ->. split; [apply left_out_nil|]. split; [discriminate|]. split; [intros pre c1 c2 post Z; destruct pre; discriminate Z|]. split; [intros c []|discriminate]. }
    destruct (load junk (w_db w)) as [m| |]; [|injection E as E1 E2; symmetry in E1, E2; exact (Nil _ _ E1 E2)|injection E as E1 E2; symmetry in E1, E2; exact (Nil _ _ E1 E2)]. destruct (read_rules_file conf) as [rules|]; [|injection E as E1 E2; symmetry in E1, E2; exact (Nil _ _ E1 E2)].
    destruct (puts junk machine re sh root true rules (p_files d0) core (World (cleanup_meta (w_fs w) root) (w_db w)) m) as [[] wa ma|e wa]; [|injection E as E1 E2; symmetry in E1, E2; exact (Nil _ _ E1 E2)]. clear Nil.
    destruct (builds junk machine re sh root true rules s groups due pkgmk order d (World (check (w_fs wa)) (w_db wa)) ma) as [tr' o] eqn:Eb. injection E as -> <-.
    destruct (builds_calls junk machine re sh root rules s groups due pkgmk order d _ _ _ _ Eb) as (A & B & C & D). split; [exact A|]. split; [intros c t ->; exact (proj1 B)|]. split; [|split; [exact C|]].
    - intros pre c1 c2 post Z. exact (follow_next pkgmk tr d pre c1 c2 post B Z).
    - intro Z. destruct o as [[] w' m'|e w']; [|discriminate Z]. exact (D w' m' eq_refl).
  Qed.
  Lemma chain_port n x : In n (map fst l) -> chain (needs l) n x -> In x (map fst l).
  Proof. intros I C. induction C as [n|n z m H _ IH]; [exact I|]. destruct H as (? & ? & _ & _ & _ & Iz & _). exact (IH Iz). Qed.
  (** If pkgmk, when it does not fail, leaves an archive of the port it was run for and those of the others, if what is not due is offered and
      what the collection needs of other collections is too, then every port is built with all the ports it needs, directly or
      indirectly, installed. *)
  Theorem C97_dependencies coll c w tr res : no_dots (p_files d0) -> no_dots (p_files d) -> good_pkgmk pkgmk -> (forall n, In n order -> sane_ports l s n) -> inv (w_db w) ->
    tree l = Some s -> coll_order coll c s = Some order ->
    (forall n dd f, In n order -> due n dd f = false -> offers dd n) ->
    (forall n dd f status f' d', pkgmk n dd f = (status, f', d') -> (status <= 0)%Z -> offers d' n /\ forall x, offers dd x -> offers d' x) ->
    (forall n x, In n order -> chain (needs l) n x -> coll x <> c -> offers d x) ->
    collection w = (tr, res) -> forall n d1 w1, In (n, d1, w1) tr -> forall x, chain (needs l) n x -> x <> n -> (known (w_db w) x -> installed (w_db w) x) -> installed (w_db w1) x.
  Proof.
    intros N0 N1 Gp Sa I T Co Hd Hm Ho E n d1 w1 J x C N K.
    destruct (C71_collection l s coll c T) as (out & Eo & Nd & Mem & Ord). assert (out = order) by congruence. subst out.
    assert (Off : offers d1 x).
    { pose proof E as E'. unfold create_collection in E'. cbn [w_db] in E'. assert (Nil : tr = [] -> False) by (intros ->; destruct J).
      destruct (load junk (w_db w)) as [m| |]; [|injection E' as Z _; destruct (Nil (eq_sym Z))|injection E' as Z _; destruct (Nil (eq_sym Z))]. destruct (read_rules_file conf) as [rules|]; [|injection E' as Z _; destruct (Nil (eq_sym Z))].
      destruct (puts junk machine re sh root true rules (p_files d0) core (World (cleanup_meta (w_fs w) root) (w_db w)) m) as [[] wa ma|e wa]; [|injection E' as Z _; destruct (Nil (eq_sym Z))].
      destruct (builds junk machine re sh root true rules s groups due pkgmk order d (World (check (w_fs wa)) (w_db wa)) ma) as [tr' o] eqn:Eb. injection E' as -> _.
      refine (proj2 (builds_offers junk machine re sh root l s groups due pkgmk rules order Nd _ Hd Hm order [] d (World (check (w_fs wa)) (w_db wa)) ma tr o eq_refl _ _ Eb n d1 w1 J) x C N).
      - intros k y Ik Iy Cy Ny. exact (Ord k y Ik Iy Cy Ny (proj1 (proj2 (proj2 (Sa k Ik))))).
      - intros y [].
      - intros k y Ik Cy Ny. apply (Ho k y Ik Cy). intro Z. apply Ny, Mem. split; [|exact Z]. apply (chain_port k y); [|exact Cy]. exact (proj1 (proj1 (Mem k) Ik)). }
    apply in_split in J as (pre & post & Et). destruct (C97_environment w tr res N0 N1 Gp Sa I E pre n d1 w1 post Et) as [A _].
    destruct (offers_dep l groups d1 n x C N Off) as (p & a & Dp & H). exact (A p x a Dp H K).
  Qed.
End Command.

(** ** concrete cases *)
(** a repository that offers a package or not *)
Definition offersb (d : depot) (n : str) : bool :=
  existsb (fun b => seqb (b_name b) n && seqb (b_group b) [] && seqb (b_nls b) [] &&
    match p_files d (b_path b) with Some a => match open_archive false mach rt a with Ok (m, _) => seqb m n | _ => false end | None => false end) (p_bins d).
Lemma offersb_spec d n : offersb d n = true -> offers d n.
Proof.
  unfold offersb. intro H. apply existsb_exists in H as [b [I H]]. apply andb_prop in H as [H F]. apply andb_prop in H as [H N]. apply andb_prop in H as [Hn G].
  apply seqb_eq in Hn, G, N. destruct (p_files d (b_path b)) as [a|] eqn:Ef; [|discriminate F]. destruct (open_archive false mach rt a) as [[m i]| |] eqn:Eo; [|discriminate F|discriminate F]. apply seqb_eq in F. subst m.
  exists b, a. split; [exact I|]. split; [exact Hn|]. split; [exact G|]. split; [exact N|]. split; [exact Ef|]. exact (proj1 (open_name _ _ _ _ _ _ Eo)).
Qed.
(** pkgmk makes a and b, if the repository has no file of that name; it knows no other port *)
Definition path_of (n : str) : str := L "/r/" ++ n ++ L ".tar".
Definition makes_ab (n : str) (d : depot) (f : fs) : Z * fs * depot :=
  if (seqb n (L "a") || seqb n (L "b")) && match p_files d (path_of n) with None => true | Some _ => false end
  then (0%Z, f, Depot (Bin n n (path_of n) [] [] :: p_bins d) (fun p => if seqb p (path_of n) then Some (arc n [] n) else p_files d p))
  else (1%Z, f, d).
Definition not_offered (n : str) (d : depot) (f : fs) : bool := negb (offersb d n).
(** a repository with c only *)
Definition c_depot : depot := Depot [Bin (L "c") (L "c") (L "/r/c.tar") [] []] (shelf [(L "/r/c.tar", arc (L "c") [] (L "c")); (L "/r/make.tar", arc (L "make") [L "sdevel"] (L "make"))]).
Definition ab_coll (n : str) : str := if seqb n (L "a") || seqb n (L "b") then L "x" else L "base".
Lemma makes_ab_good : good_pkgmk makes_ab.
Proof.
  intros n d f status f' d' E ND. unfold makes_ab in E. destruct (seqb n (L "a") || seqb n (L "b")) eqn:B; [|injection E as _ _ <-; exact ND]. cbn [andb] in E. destruct (p_files d (path_of n)); injection E as _ _ <-; [exact ND|].
  intros p a H. cbn [p_files] in H. destruct (seqb p (path_of n)); [|exact (ND p a H)]. injection H as <-. apply orb_prop in B as [B|B]; apply seqb_eq in B; subst n; no_dot.
Qed.
Lemma makes_ab_offers n d f status f' d' : makes_ab n d f = (status, f', d') -> (status <= 0)%Z -> offers d' n /\ forall x, offers d x -> offers d' x.
Proof.
  intros E Le. unfold makes_ab in E. destruct (seqb n (L "a") || seqb n (L "b")) eqn:B; cbn [andb] in E; [|injection E as <- _ _; lia]. destruct (p_files d (path_of n)) eqn:Ef; injection E as <- _ <-; [lia|]. split.
  - apply offersb_spec. unfold offersb. cbn [p_bins existsb b_name b_group b_nls b_path p_files]. rewrite !seqb_refl. cbn [andb]. apply orb_prop in B as [B|B]; apply seqb_eq in B; subst n; vm_compute; reflexivity.
  - intros x (b & a & I & Bn & Bg & Bl & [H1 H2]). exists b, a. split; [right; exact I|]. split; [exact Bn|]. split; [exact Bg|]. split; [exact Bl|]. split; [|exact H2]. cbn [p_files].
    destruct (seqb (b_path b) (path_of n)) eqn:P; [|exact H1]. apply seqb_eq in P. rewrite P in H1. congruence.
Qed.
Lemma ok_needs m e : needs ok_ports m e -> In (m, e) [(L "a", L "b"); (L "a", L "c"); (L "b", L "c"); (L "d", L "a")].
Proof.
  intros [ds [e' (Rc & Ie & De & _ & _)]]. assert (X : writes ok_ports m e') by (exists ds; auto). apply ok_writes in X. destruct De as [[<- _]|[z [-> _]]]; [exact X|].
  exfalso. cbn [In] in X. decompose [or] X; try contradiction; match goal with Y : _ = _ |- _ => injection Y as _ Y; repeat (destruct e as [|? e]; [discriminate Y|injection Y as _ Y]); destruct e; discriminate Y end.
Qed.
Notation c_coll := (create_collection false mach pfx quiet rt true None [(false, L "/r/make.tar")] c_depot (fun f => f)).
(** 'cards create x' for the collection of a and b; c, of another collection, is in the repository. gcc and make (devel) stay; lib and doc are
    cleared away. b is built with c, and a with c and b. In a repository that has b already only a is built. *)
Example C97_case : exists s, tree ok_ports = Some s /\ coll_order ab_coll (L "x") s = Some [L "b"; L "a"] /\ (forall n, In n [L "b"; L "a"] -> sane_ports ok_ports s n) /\
  no_dots (p_files c_depot) /\ inv (w_db w_three) /\ good_pkgmk makes_ab /\
  (forall n dd f, In n [L "b"; L "a"] -> not_offered n dd f = false -> offers dd n) /\
  (forall n dd f status f' d', makes_ab n dd f = (status, f', d') -> (status <= 0)%Z -> offers d' n /\ forall x, offers dd x -> offers d' x) /\
  (forall n x, In n [L "b"; L "a"] -> chain (needs ok_ports) n x -> ab_coll x <> L "x" -> offers c_depot x) /\
  map (fun c => (name_of c, keys (w_db (snd c)))) (fst (c_coll s c_depot [L "lib"] not_offered makes_ab [L "b"; L "a"] w_three)) = [(L "b", [L "c"; L "gcc"; L "make"]); (L "a", [L "b"; L "c"; L "gcc"; L "make"])] /\
  fst (snd (c_coll s c_depot [L "lib"] not_offered makes_ab [L "b"; L "a"] w_three)) = None /\
  map (fun c => (name_of c, keys (w_db (snd c)))) (fst (c_coll s b_depot [L "lib"] not_offered makes_ab [L "b"; L "a"] w_three)) = [(L "a", [L "b"; L "b.lib"; L "c"; L "gcc"; L "make"])].
Proof.
  destruct C70_witness as (s & T & Cy & W & _). exists s. split; [exact T|].
  assert (Nab : needs ok_ports (L "a") (L "b")).
  { exists [L "b"; L "c"], (L "b"). split; [exists [], (skipn 1 ok_ports); split; [reflexivity|intro H; vm_compute in H; repeat (destruct H as [H|H]; [discriminate H|]); destruct H]|].
    split; [left; reflexivity|]. split; [left; split; [reflexivity|]|]. 2:{ split; [vm_compute; tauto|discriminate]. } intro K; vm_compute in K; repeat (destruct K as [K|K]; [discriminate K|]); destruct K. }
  split; [vm_compute in T; injection T as <-; vm_compute; reflexivity|]. split; [|split; [|split; [exact three_inv|split; [exact makes_ab_good|split; [|split; [exact makes_ab_offers|split]]]]]].
  - intros n [<-|[<-|[]]]; (split; [exact T|split; [vm_compute; tauto|split; [|exact W]]]); [|exact Cy]. intros c C. apply Cy. exact (chain_step _ _ _ _ Nab C).
  - intros p a H. apply b_files_In in H. cbn [In] in H. decompose [or] H; try contradiction; match goal with X : _ = _ |- _ => injection X as _ <- end; no_dot.
  - intros n dd f _ H. apply offersb_spec. unfold not_offered in H. apply negb_false_iff in H. exact H.
  - intros n x Hn C. assert (R : In x [L "b"; L "a"; L "c"]).
    { assert (Hn' : In n [L "b"; L "a"; L "c"]) by (cbn [In] in Hn |- *; tauto). clear Hn. induction C as [n|n z x H _ IH]; [exact Hn'|]. apply IH. apply ok_needs in H. clear -H Hn'.
      destruct H as [H|[H|[H|[H|[]]]]]; injection H as <- <-; [cbn [In]; tauto|cbn [In]; tauto|cbn [In]; tauto|].
      exfalso. destruct Hn' as [X|[X|[X|[]]]]; discriminate X. }
    destruct R as [<-|[<-|[<-|[]]]]; intro K; [destruct K; vm_compute; reflexivity|destruct K; vm_compute; reflexivity|]. apply offersb_spec. vm_compute. reflexivity.
  - vm_compute in T. injection T as <-. split; [vm_compute; reflexivity|]. split; vm_compute; reflexivity.
Qed.
(** A package outside the sets answers to the name of one the ports need: it is cleared away, the package is taken for installed and b is
    built without it (see C96). *)
Theorem C97_alias_refuted : exists s w1, sane_ports ok_ports s (L "b") /\ needs ok_ports (L "b") (L "c") /\ offers c_depot (L "c") /\
  In (L "b", c_depot, w1) (fst (c_coll s c_depot [L "lib"] not_offered makes_ab [L "b"; L "a"] w_alias)) /\ ~ installed (w_db w1) (L "c") /\ keys (w_db w1) = [L "make"].
Proof.
  destruct C97_case as (s & T & _ & Sa & _). assert (Hs : exists tr, exists w1, fst (c_coll s c_depot [L "lib"] not_offered makes_ab [L "b"; L "a"] w_alias) = (L "b", c_depot, w1) :: tr /\ mget (L "c") (w_db w1) = None /\ keys (w_db w1) = [L "make"]).
  { clear Sa. vm_compute in T. injection T as <-. do 2 eexists. split; [vm_compute; reflexivity|]. split; vm_compute; reflexivity. }
  destruct Hs as (tr & w1 & E & G & K). exists s, w1. split; [apply Sa; left; reflexivity|]. split; [|split; [apply offersb_spec; vm_compute; reflexivity|]].
  - exists [L "c"], (L "c"). split; [exists (firstn 1 ok_ports), (skipn 2 ok_ports); split; [reflexivity|intro H; vm_compute in H; repeat (destruct H as [H|H]; [discriminate H|]); destruct H]|].
    split; [left; reflexivity|]. split; [left; split; [reflexivity|]|split; [vm_compute; tauto|discriminate]]. intro J; vm_compute in J; repeat (destruct J as [J|J]; [discriminate J|]); destruct J.
  - rewrite E. split; [left; reflexivity|]. split; [intros [_ Z]; exact (Z G)|exact K].
Qed.
