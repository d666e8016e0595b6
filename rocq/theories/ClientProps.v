(** C106: what "Go !" does to the system. *)
From Verif Require Import Base BaseProofs StrModel StrSpec StrProofs RulesModel RulesSpec RulesProofs FsModel FsSpec FsProofs FsOps MetaModel MetaSpec MetaProofs
  DbModel DbSpec DbLoad DbOps DbRun DbInv EngineFs EngineWay DbFacts DbProps DbExamples RemoveProps AddRun AddProps UpgradeProps RootProps GenDeps GenDepsProofs GenDepsProps HexModel HexProps IndexModel FetchModel FetchProps FetchExamples
  ManyRun ManyMeta ManyFiles RemoveCmd RemoveCmdProofs RemoveCmdExamples InstallModel InstallRun InstallProps InstallClosed InstallExamples UpCmdModel UpCmdProps UpCmdMore UpCmdExamples UpCmdFiles TransFiles ClientModel.
From Coq Require Import ZArith Lia.
Import DbInv.

Section Remove.
  Variables (junk : bool) (root : str).
  Notation take_out := (take_out junk root).
  Notation client_remove := (client_remove junk root).

  (** one package *)
  Lemma out_step n w m w1 m1 : db_ok (w_db w) -> agree (w_db w) m -> remove_refs junk n (w, m) = Some (w1, m1) ->
    exists xs, remove_files root n [] (w1, m1) = (World (del_files root xs (w_fs w)) (mdel n (w_db w)), Mem (mdel n (m_pkgs m)) (mdel n (m_alias m)) (m_dep m)) /\
      agree (mdel n (w_db w)) (Mem (mdel n (m_pkgs m)) (mdel n (m_alias m)) (m_dep m)) /\
      forall x, In x xs <-> lists (w_db w) n x /\ forall k, k <> n -> ~ lists (w_db w) k x.
  Proof.
    intros OK AG E. pose proof (remove_refs_disk junk n w m w1 m1 OK E) as (_ & D & F).
    assert (M : m1 = m).
    { unfold remove_refs in E. destruct (mget n (w_db w)) as [dir|] eqn:Gd; [|discriminate E]. destruct AG as [Ss A]. specialize (A n). destruct (mget n (m_pkgs m)) as [r|]; [|congruence].
      cbv zeta in E. match type of E with Some (?a, ?b) = _ => assert (Z : b = m1) by congruence end. rewrite <- Z. destruct m; reflexivity. }
    subst m1. destruct w1 as [f1 d1]. cbn [w_fs w_db] in F, D. subst f1 d1. unfold remove_files. cbn [w_fs w_db]. eexists. split; [reflexivity|]. split.
    - destruct AG as [Ss A]. split; [cbn [m_pkgs]; apply mdel_keys_sorted, Ss|]. intro k. cbn [m_pkgs]. rewrite !mget_mdel. destruct (seqb_spec k n) as [->|N]; [reflexivity|apply A].
    - intro x. rewrite minus_refs_In. cbn [sminus fold_left]. rewrite (agree_lists _ m n x AG). pose proof (ssorted_NoDup _ (proj1 AG)) as Nd. split.
      + intros [J O]. split.
        * destruct (mget n (m_pkgs m)) as [r|]; [exists r; auto|destruct J].
        * intros k N Lk. apply (agree_lists _ m k x AG) in Lk as (r & G & J'). apply (O k r); [|exact J']. apply In_mdel. split; [exact (mget_In _ _ _ G)|exact N].
      + intros [(r & G & J) O]. rewrite G. split; [exact J|]. intros k r' I J'. apply In_mdel in I as [I N]. apply (O k N), (agree_lists _ m k x AG). exists r'. split; [exact (In_mget k r' _ Nd I)|exact J'].
  Qed.

  (** ** specification *)
  (** the packages of [gone] are out of the database, nothing else is changed *)
  Definition only_gone (d d' : disk) (gone : list str) : Prop :=
    (forall n, In n gone -> mget n d' = None) /\ (forall n, ~ In n gone -> mget n d' = mget n d).
  (** the outcome of a removal: [gone] are the names dealt with, in order, [left] the others *)
  Inductive removal (w w' : world) (names : list str) : option stop -> Prop :=
  | All : only_gone (w_db w) (w_db w') names -> (forall n, In n names -> installed (w_db w) n) -> removal w w' names None
  | Halt e gone n left : names = gone ++ n :: left -> only_gone (w_db w) (w_db w') gone -> (forall k, In k gone -> installed (w_db w) k) ->
      ~ installed (w_db w) n -> (known (w_db w) n -> e = Exception) -> (~ known (w_db w) n -> e = NotInstalled) -> removal w w' names (Some e).

  Lemma out_db names : forall w m, db_ok (w_db w) -> agree (w_db w) m -> NoDup names -> (forall n, In n names -> nodot n) -> (forall n, mget n (w_db w) <> None -> nodot n -> name_exists m n = true) ->
    match take_out names w m with
    | Ret _ w' _ => only_gone (w_db w) (w_db w') names /\ forall n, In n names -> mget n (w_db w) <> None
    | Stop e w' => exists gone n left, names = gone ++ n :: left /\ only_gone (w_db w) (w_db w') gone /\ (forall k, In k gone -> mget k (w_db w) <> None) /\
        mget n (w_db w) = None /\ e = (if name_exists m n then Exception else NotInstalled)
    end.
  Proof.
    induction names as [|n t IH]; intros w m OK AG N Dn Kn; cbn [ClientModel.take_out].
    { split; [split; [intros n []|reflexivity]|intros n []]. }
    inversion N as [|? ? N1 N2]; subst. destruct (name_exists m n) eqn:En; cbn [negb].
    2:{ exists [], n, t. split; [reflexivity|]. split; [split; [intros k []|reflexivity]|]. split; [intros k []|]. split; [|rewrite En; reflexivity].
        destruct (mget n (w_db w)) eqn:G; [|reflexivity]. rewrite Kn in En; [discriminate En|congruence|apply Dn; left; reflexivity]. }
    destruct (remove_refs junk n (w, m)) as [[w1 m1]|] eqn:R.
    2:{ exists [], n, t. split; [reflexivity|]. split; [split; [intros k []|reflexivity]|]. split; [intros k []|]. rewrite En. split; [|reflexivity].
        unfold remove_refs in R. destruct (mget n (w_db w)); [discriminate R|reflexivity]. }
    assert (G : mget n (w_db w) <> None) by exact (proj1 (remove_refs_disk junk n w m w1 m1 OK R)).
    destruct (out_step n w m w1 m1 OK AG R) as (xs & F & AG1 & _). rewrite F. cbv beta iota.
    specialize (IH (World (del_files root xs (w_fs w)) (mdel n (w_db w))) (Mem (mdel n (m_pkgs m)) (mdel n (m_alias m)) (m_dep m))). cbn [w_db] in IH.
    specialize (IH (db_ok_mdel _ n OK) AG1 N2 (fun k J => Dn k (or_intror J))).
    assert (Kn1 : forall k, mget k (mdel n (w_db w)) <> None -> nodot k -> name_exists (Mem (mdel n (m_pkgs m)) (mdel n (m_alias m)) (m_dep m)) k = true).
    { intros k Gk Dk. rewrite mget_mdel in Gk. specialize (Kn k). unfold name_exists in *. cbn [m_alias]. rewrite mget_mdel. destruct (seqb k n); [congruence|]. auto. }
    specialize (IH Kn1).
    assert (OG : forall d' l, only_gone (mdel n (w_db w)) d' l -> ~ In n l -> only_gone (w_db w) d' (n :: l)).
    { intros d' l [A B] Nl. split.
      - intros k [<-|J]; [|exact (A k J)]. rewrite (B n Nl), mget_mdel, seqb_refl. reflexivity.
      - intros k J. rewrite B by (intro; apply J; right; assumption). rewrite mget_mdel. destruct (seqb_spec k n) as [->|Nk]; [exfalso; apply J; left; reflexivity|reflexivity]. }
    destruct (take_out t _ _) as [[] w' m'|e w'].
    - destruct IH as [O P]. split; [apply OG; assumption|]. intros k [<-|J]; [exact G|]. specialize (P k J). rewrite mget_mdel in P. destruct (seqb k n); congruence.
    - destruct IH as (gone & k & left & E1 & O & P & Gk & Ee). exists (n :: gone), k, left. split; [rewrite E1; reflexivity|]. subst t.
      assert (Nk : k <> n) by (intros ->; apply N1, in_elt). assert (Ng : ~ In n gone) by (intro J; apply N1, in_or_app; left; exact J).
      split; [apply OG; assumption|]. split; [|split].
      + intros q [<-|J]; [exact G|]. specialize (P q J). rewrite mget_mdel in P. destruct (seqb q n); congruence.
      + rewrite mget_mdel in Gk. destruct (seqb_spec k n) as [Z|_]; [contradiction|exact Gk].
      + rewrite Ee. unfold name_exists. cbn [m_alias]. rewrite mget_mdel. destruct (seqb_spec k n) as [Z|_]; [contradiction|reflexivity].
  Qed.

  (** Exactly the chosen packages go, in order, up to the first that is not installed. *)
  Theorem C106_remove names w m o w' : inv (w_db w) -> load junk (w_db w) = Ok m -> NoDup names -> (forall n, In n names -> nodot n) ->
    client_remove names w = (o, w') -> removal w w' names o /\ inv (w_db w').
  Proof.
    intros I El N Dn E. pose proof (load_agree junk _ m (proj1 I) El) as AG.
    assert (Kn : forall n, mget n (w_db w) <> None -> nodot n -> name_exists m n = true).
    { intros n G D. apply (name_exists_known junk _ m n El). exists n. split; [exact D|]. split; [exact G|left; reflexivity]. }
    assert (Sub : forall d' l, only_gone (w_db w) d' l -> inv d').
    { intros d' l [A B]. assert (Z : forall k dir, mget k d' = Some dir -> mget k (w_db w) = Some dir).
      { intros k dir G. destruct (in_dec str_eq_dec k l) as [J|J]; [rewrite (A k J) in G; discriminate G|rewrite <- (B k J); exact G]. }
      destruct I as [I1 I2]. split; [intros k dir G; exact (I1 k dir (Z k dir G))|]. eapply no_share_sub; [|exact I2]. intros k x (dir & c & G & H). exists dir, c. split; [exact (Z k dir G)|exact H]. }
    destruct names as [|n0 t]; cbn [ClientModel.client_remove] in E.
    { injection E as <- <-. split; [|exact I]. apply All; [split; [intros n []|reflexivity]|intros n []]. }
    cbv zeta in E. cbn [w_db] in E. rewrite El in E. pose proof (out_db (n0 :: t) (World (cleanup_meta (w_fs w) root) (w_db w)) m (proj1 I) AG N Dn Kn) as H. cbn [w_db] in H.
    destruct (take_out (n0 :: t) _ m) as [[] w1 m1|e w1]; cbn [finish] in E; injection E as <- <-.
    - destruct H as [O P]. split; [|exact (Sub _ _ O)]. apply All; [exact O|]. intros n J. split; [exact (Dn n J)|exact (P n J)].
    - destruct H as (gone & n & left & E1 & O & P & G & Ee). split; [|exact (Sub _ _ O)]. apply (Halt w w1 (n0 :: t) e gone n left E1 O).
      + intros k J. split; [apply Dn; rewrite E1; apply in_or_app; left; exact J|exact (P k J)].
      + intros [_ Z]. exact (Z G).
      + intro K. apply (name_exists_known junk _ m n El) in K. rewrite K in Ee. exact Ee.
      + intro K. destruct (name_exists m n) eqn:En; [|exact Ee]. exfalso. apply K, (name_exists_known junk _ m n El), En.
  Qed.

  (** ** the files *)
  Hypothesis Rs : ends_slash root = true.
  Lemma out_sub names : forall w m w' m', db_ok (w_db w) -> agree (w_db w) m -> tree (w_fs w) -> take_out names w m = Ret tt w' m' ->
    tree (w_fs w') /\ forall q, fget (w_fs w') q = fget (w_fs w) q \/ fget (w_fs w') q = None /\ exists n x, In n names /\ lists (w_db w) n x /\ (forall k, lists (w_db w) k x -> In k names) /\ q = comps root ++ comps x.
  Proof.
    induction names as [|n t IH]; intros w m w' m' OK AG T E; cbn [ClientModel.take_out] in E; [injection E as <- _; auto|].
    destruct (negb (name_exists m n)); [discriminate E|]. destruct (remove_refs junk n (w, m)) as [[w1 m1]|] eqn:R; [|discriminate E].
    destruct (out_step n w m w1 m1 OK AG R) as (xs & F & AG1 & X). rewrite F in E.
    destruct (IH (World (del_files root xs (w_fs w)) (mdel n (w_db w))) _ _ _ (db_ok_mdel _ n OK) AG1 (del_files_tree root xs _ T) E) as [T' S]. split; [exact T'|]. intro q. cbn [w_fs w_db] in S.
    destruct (S q) as [E1|(E1 & k & x & J & Lk & O & Q)].
    - rewrite E1. destruct (in_dec (list_eq_dec str_eq_dec) q (map (fun x => comps root ++ comps x) xs)) as [J|J].
      + destruct (del_files_sub root Rs xs (w_fs w) q) as [E2|E2]; [left; exact E2|right]. split; [exact E2|]. apply in_map_iff in J as (x & Hx & J). apply X in J as [J1 J2].
        exists n, x. split; [left; reflexivity|]. split; [exact J1|]. split; [|symmetry; exact Hx]. intros k Lk. destruct (str_eq_dec k n) as [->|Nk]; [left; reflexivity|destruct (J2 k Nk Lk)].
      + left. apply (del_files_frame root Rs). intros x Jx Hq. apply J. rewrite Hq. exact (in_map (fun x => comps root ++ comps x) xs x Jx).
    - right. split; [exact E1|]. apply lists_mdel in Lk as [Lk Nk]. exists k, x. split; [right; exact J|]. split; [exact Lk|]. split; [|exact Q].
      intros h Lh. destruct (str_eq_dec h n) as [->|Nh]; [left; reflexivity|right; apply O, lists_mdel; auto].
  Qed.
  Lemma out_gone names x cs : plain x cs -> ends_slash x = false -> forall w m w' m', db_ok (w_db w) -> agree (w_db w) m -> tree (w_fs w) ->
    take_out names w m = Ret tt w' m' -> (exists n, lists (w_db w) n x) -> (forall n, lists (w_db w) n x -> In n names) ->
    fget (w_fs w') (comps root ++ comps x) = None \/ dir_at (w_fs w') (comps root ++ comps x).
  Proof.
    intros P Es. induction names as [|n t IH]; intros w m w' m' OK AG T E (k & Lk) Z; [destruct (Z k Lk)|].
    cbn [ClientModel.take_out] in E. destruct (negb (name_exists m n)); [discriminate E|]. destruct (remove_refs junk n (w, m)) as [[w1 m1]|] eqn:R; [|discriminate E].
    destruct (out_step n w m w1 m1 OK AG R) as (xs & F & AG1 & X). rewrite F in E. pose proof (db_ok_mdel _ n OK) as OK1. pose proof (del_files_tree root xs _ T) as T1.
    destruct (listed_dec_db (mdel n (w_db w)) _ x AG1) as [Ly|Ln].
    - refine (IH (World (del_files root xs (w_fs w)) (mdel n (w_db w))) _ w' m' OK1 AG1 T1 E Ly _). cbn [w_db]. intros q Lq. apply lists_mdel in Lq as [Lq Nq]. destruct (Z q Lq) as [<-|J]; [contradiction|exact J].
    - assert (J : In x xs).
      { apply X. assert (kn : k = n) by (destruct (str_eq_dec k n) as [e|e]; [exact e|]; exfalso; apply Ln; exists k; apply lists_mdel; auto). subst k. split; [exact Lk|].
        intros q Nq Lq. apply Ln. exists q. apply lists_mdel. auto. }
      destruct (out_sub t (World (del_files root xs (w_fs w)) (mdel n (w_db w))) _ w' m' OK1 AG1 T1 E) as [_ S]. cbn [w_fs] in S. specialize (S (comps root ++ comps x)). rewrite (plain_comps _ _ P) in *.
      destruct (del_files_one root Rs xs (w_fs w) x cs P Es J) as [G|[nd [G K]]]; destruct S as [S|[S _]]; [left; congruence|left; exact S| |left; exact S].
      right. exists nd. split; [congruence|exact K].
  Qed.

  (** Only what the chosen packages alone list goes; a file (not a directory) they alone list does go. *)
  Theorem C106_files names w m w' : inv (w_db w) -> load junk (w_db w) = Ok m -> tree (w_fs w) -> client_remove names w = (None, w') ->
    (forall q, ~ where_meta q -> fget (w_fs w') q = fget (w_fs w) q \/
       fget (w_fs w') q = None /\ exists n x, In n names /\ lists (w_db w) n x /\ (forall k, lists (w_db w) k x -> In k names) /\ q = comps root ++ comps x) /\
    (forall n x cs, In n names -> lists (w_db w) n x -> (forall k, lists (w_db w) k x -> In k names) -> plain x cs -> ends_slash x = false ->
       fget (w_fs w') (comps root ++ cs) = None \/ dir_at (w_fs w') (comps root ++ cs)).
  Proof.
    intros I El T E. pose proof (load_agree junk _ m (proj1 I) El) as AG. destruct names as [|n0 t]; cbn [ClientModel.client_remove] in E.
    { injection E as <-. split; [intros q _; left; reflexivity|intros n x cs []]. }
    cbv zeta in E. cbn [w_db] in E. rewrite El in E. destruct (cleanup_spec (w_fs w) root T) as [T0 C0].
    destruct (take_out (n0 :: t) _ m) as [[] w1 m1|e w1] eqn:Et; cbn [finish] in E; [injection E as ->|discriminate E].
    destruct (out_sub (n0 :: t) (World (cleanup_meta (w_fs w) root) (w_db w)) m w' m1 (proj1 I) AG T0 Et) as [_ S]. cbn [w_fs w_db] in S. split.
    - intros q Nq. destruct (S q) as [E1|E1]; [|right; exact E1]. left. rewrite E1. apply C0. intro J. apply Nq, meta_where, J.
    - intros n x cs J Lx Z P Es. rewrite <- (plain_comps _ _ P). exact (out_gone (n0 :: t) x cs P Es (World (cleanup_meta (w_fs w) root) (w_db w)) m w' m1 (proj1 I) AG T0 Et (ex_intro _ n Lx) Z).
  Qed.
End Remove.

Section Go.
  Variables (junk : bool) (machine : str) (re : str -> str -> option bool) (sh : str -> fs -> fs * bool) (root : str).
  Variable url : str.
  Variable repo : list (str * ent).
  Variable sha : str -> str.
  Variable key : Type.
  Variable pem : str -> option key.
  Variable verify : key -> str -> str -> bool.
  Variable unpack : str -> option archive.
  Variable jb : Z.
  Variable arch : str -> apkg.
  Variables (fuel : nat) (scripts : bool) (conf : option str) (s : fstate).
  Notation client_install := (client_install junk machine re sh root url repo sha key pem verify unpack jb fuel scripts conf).
  Notation client_go := (client_go junk machine re sh root url repo sha key pem verify unpack jb fuel scripts conf).
  Notation trusted := (trusted url repo sha key pem verify unpack arch s).

  (** ** specification *)
  (** with the database [d], installing [ins] brings [n]: one of them, or a dependency of one that is missing or not current *)
  Definition brings (d : disk) (ins : list str) (n : str) : Prop := exists m r, load junk d = Ok m /\ In r ins /\ wants (m_pkgs m) jb arch r n.
  (** the installation of [ins] over [w] *)
  Inductive installation (w w' : world) (ins : list str) : option stop -> Prop :=
  | Done_ : inv (w_db w') -> (forall n, In n ins -> installed (w_db w') n) -> (forall n, installed (w_db w) n -> installed (w_db w') n) ->
      (forall n, brings (w_db w) ins n -> installed (w_db w') n) ->
      (forall n, installed (w_db w') n -> installed (w_db w) n \/ brings (w_db w) ins n) ->
      (forall n, ~ brings (w_db w) ins n -> same_but_files (w_db w) (w_db w') n) -> installation w w' ins None
  | Broken e x : (forall n, n <> x -> installed (w_db w) n -> installed (w_db w') n) ->
      (forall n, installed (w_db w') n -> ~ installed (w_db w) n -> brings (w_db w) ins n) -> installation w w' ins (Some e).

  Lemma wanted_brings m ins w n : load junk (w_db w) = Ok m -> (InstallProps.wanted repo jb arch (map Package ins) [] w m n <-> brings (w_db w) ins n).
  Proof.
    intro El. unfold InstallProps.wanted, asked_for, requested, brings. split.
    - intros (r & [[J|(l & J & _)]|(q & k & g & _ & _ & [] & _)] & W); [|apply in_map_iff in J as (y & Z & _); discriminate Z].
      apply in_map_iff in J as (y & Z & J). injection Z as ->. exists m, r. auto.
    - intros (m' & r & El' & J & W). rewrite El in El'. injection El' as <-. exists r. split; [|exact W]. left. left. apply in_map. exact J.
  Qed.
  Theorem C106_install ins w o w' : trusted -> inv (w_db w) -> client_install ins s w = Some (o, w') -> installation w w' ins o.
  Proof.
    intros T I E. destruct ins as [|i0 it].
    { cbn in E. injection E as <- <-. apply Done_; [exact I|intros n []|auto|intros n (m & r & _ & [] & _)|auto|intros n _; apply same_refl]. }
    set (ins := i0 :: it) in *. change (client_install ins s w) with
      (cards_install junk machine re sh root url repo sha key pem verify unpack jb fuel (w_db w) true scripts conf (map Package ins) [] s w) in E. clearbody ins. destruct o as [e|].
    - assert (X := C76_partway junk machine re sh root url repo sha key pem verify unpack jb arch fuel (w_db w) true scripts conf (map Package ins) [] s w e w' T I E). destruct X as (x & A & B).
      apply (Broken w w' ins e x A). intros n N1 N2.
      destruct (load junk (w_db w)) as [m| |] eqn:El.
      + apply (wanted_brings m ins w n El). exact (proj1 (proj1 (B m eq_refl) n N1 N2)).
      + exfalso. unfold cards_install in E. rewrite El in E. cbn [rbind] in E. injection E as _ <-. exact (N2 N1).
      + exfalso. unfold cards_install in E. rewrite El in E. cbn [rbind] in E. injection E as _ <-. exact (N2 N1).
    - destruct (C76_installed junk machine re sh root url repo sha key pem verify unpack jb arch fuel (w_db w) true scripts conf (map Package ins) [] s w w' T I E) as (m & El & A & _ & B & _).
      destruct (C76_kept junk machine re sh root url repo sha key pem verify unpack jb arch fuel (w_db w) true scripts conf (map Package ins) [] s w w' T I E) as (I' & K & m' & El' & S).
      rewrite El in El'. injection El' as <-. apply Done_; [exact I'| |exact K| | |].
      + intros n J. apply B, in_map, J.
      + intros n J. apply A, (wanted_brings m ins w n El), J.
      + intros n J. destruct (install_outcome junk machine re sh root url repo sha key pem verify unpack jb arch fuel (w_db w) true scripts conf (map Package ins) [] s w None w' T E) as [Z _|mh m2 l hl Eh _ _ _ Wl _ _ _ _ _]; [destruct (Z eq_refl)|].
        rewrite El in Eh. injection Eh as <-. destruct (in_dec str_eq_dec n (map fst l)) as [Jl|Jl]; [right; apply (wanted_brings m ins w n El), Wl, Jl|left].
        assert (Nw : ~ InstallProps.wanted repo jb arch (map Package ins) [] w m n) by (intro Z; apply Jl, Wl, Z). destruct (S n Nw) as [(Q & _) _]. destruct J as [Dn G]. split; [exact Dn|]. intro Z. apply G, Q, Z.
      + intros n J. apply S. intro W. apply J, (wanted_brings m ins w n El), W.
  Qed.

  (** A successful "Go !": what was to be installed is there, what was to be removed is gone unless it came back as something an
      installed package needs, and the rest is as before. *)
  Theorem C106_go rm ins w m w' : trusted -> inv (w_db w) -> load junk (w_db w) = Ok m -> NoDup rm -> (forall n, In n rm -> nodot n) ->
    client_go rm ins s w = Some (None, w') ->
    exists d, only_gone (w_db w) d rm /\ inv (w_db w') /\
      (forall n, In n rm -> installed (w_db w) n) /\
      (forall n, In n ins -> installed (w_db w') n) /\
      (forall n, ~ In n rm -> installed (w_db w) n -> installed (w_db w') n) /\
      (forall n, In n rm -> (installed (w_db w') n <-> brings d ins n)) /\
      (forall n, installed (w_db w') n -> installed (w_db w) n \/ brings d ins n) /\
      (forall n, ~ In n rm -> ~ brings d ins n -> same_but_files (w_db w) (w_db w') n).
  Proof.
    intros T I El N Dn E. unfold ClientModel.client_go in E. destruct (client_remove junk root rm w) as [o w1] eqn:Er.
    destruct (C106_remove junk root rm w m o w1 I El N Dn Er) as [R I1]. destruct o as [e|]; [discriminate E|].
    pose proof (C106_install ins w1 None w' T I1 E) as Q. inversion Q as [I' A B C F S|]; subst. inversion R as [O P|]; subst. destruct O as [O1 O2].
    assert (Bk : forall n, installed (w_db w1) n -> ~ In n rm /\ installed (w_db w) n).
    { intros n [D G]. destruct (in_dec str_eq_dec n rm) as [J|J]; [destruct (G (O1 n J))|]. split; [exact J|]. split; [exact D|]. rewrite <- (O2 n J). exact G. }
    exists (w_db w1). split; [split; assumption|]. split; [exact I'|]. split; [exact P|]. split; [exact A|]. split; [|split; [|split]].
    - intros n J [D G]. apply B. split; [exact D|]. rewrite (O2 n J). exact G.
    - intros n J. split; [|apply C]. intro K. destruct (F n K) as [Z|Z]; [|exact Z]. destruct (Bk n Z) as [Y _]. contradiction.
    - intros n K. destruct (F n K) as [Z|Z]; [left; apply Bk, Z|right; exact Z].
    - intros n J K. destruct (S n K) as (S1 & S2 & S3). split; [rewrite S1, (O2 n J); tauto|]. split.
      + intros k Nk. rewrite (S2 k Nk). unfold dbfile. rewrite (O2 n J). reflexivity.
      + intros x Lx. apply S3 in Lx. destruct Lx as (dir & c & G & H). exists dir, c. rewrite <- (O2 n J). auto.
  Qed.
  (** When "Go !" fails, either a removal failed and nothing was installed, or all the removals were done and the installation broke off. *)
  Theorem C106_stops rm ins w m e w' : trusted -> inv (w_db w) -> load junk (w_db w) = Ok m -> NoDup rm -> (forall n, In n rm -> nodot n) ->
    client_go rm ins s w = Some (Some e, w') ->
    removal w w' rm (Some e) \/ exists w1, removal w w1 rm None /\ installation w1 w' ins (Some e).
  Proof.
    intros T I El N Dn E. unfold ClientModel.client_go in E. destruct (client_remove junk root rm w) as [o w1] eqn:Er.
    destruct (C106_remove junk root rm w m o w1 I El N Dn Er) as [R I1]. destruct o as [e1|]; [injection E as <- <-; left; exact R|].
    right. exists w1. split; [exact R|]. exact (C106_install ins w1 (Some e) w' T I1 E).
  Qed.
End Go.
