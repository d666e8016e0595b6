(** C117: repeating an upgrade that was killed while it deleted the files of the old version
    (pkgadd::run, pkgadd.cxx:67-139, pkgdbh.cxx:974-1020 removePackageFiles with a keep list, on the model of DbModel.v). *)
From Verif Require Import Base BaseProofs StrModel StrSpec StrProofs RulesModel RulesSpec RulesProofs FsModel FsSpec FsProofs FsOps FsExtract
  MetaModel MetaSpec MetaProofs DbModel DbSpec DbLoad DbOps DbRun DbInv EngineFs EngineRoot EngineWay DbFacts DbProps RemoveProps AddRun DbExamples AddProps
  UpgradeProps UpgradeExamples RulesProps ConcModel DisturbProps FsExt RmAgain RemoveCmdExamples.

Section Up.
  Variables (junk : bool) (machine : str) (re : str -> str -> option bool) (sh : str -> fs -> fs * bool) (root : str).
  Notation session := (session junk machine re sh root).
  Notation R := (comps root).
  (** the rules keep the installed file of that name *)
  Definition kept (a : archive) rules (x : str) : Prop := ships a x /\ verdict re INSTALL rules x true /\ verdict re UPGRADE rules x false.
  (** the names that the upgrade of [name] deletes before it unpacks the archive *)
  Definition drops (a : archive) rules (name : str) (d : disk) (x : str) : Prop := lists_alone d name x /\ ~ kept a rules x.
  (** the file systems the upgrade goes through while it deletes them, one by one, in the reverse order of their names *)
  Definition killed_dropping (a : archive) rules (name : str) (d : disk) (f f' : fs) : Prop :=
    exists l before after, ssorted l /\ (forall x, In x l <-> drops a rules name d x) /\ rev l = before ++ after /\ f' = fold_left (del_one root) before f.
  (** any of them may be gone *)
  Definition half_up (a : archive) rules (name : str) (d : disk) (f f' : fs) : Prop :=
    tree f' /\ forall q, fget f' q = fget f q \/ (fget f' q = None /\ exists x, drops a rules name d x /\ at_path root x q).
  Hypothesis Rs : ends_slash root = true.
  Theorem C117_reached a rules name d f f' : tree f -> killed_dropping a rules name d f f' -> half_up a rules name d f f'.
  Proof.
    intros T (l & before & after & S & I & E & ->). split; [apply del_fold_tree, T|]. intro q.
    destruct (at_names_dec root before q) as [(x & Ix & ->)|N].
    - destruct (del_fold_sub root Rs before f (R ++ comps x)) as [Z|Z]; [left; exact Z|]. right. split; [exact Z|]. exists x. split; [|reflexivity].
      apply I, in_rev. rewrite E. apply in_app_iff. left. exact Ix.
    - left. apply (del_fold_frame root Rs). intros x Ix ->. apply N. exists x. split; [exact Ix|reflexivity].
  Qed.
  (** what the rules keep, and what another package lists, is untouched *)
  Theorem C117_safe a rules name d f f' q : half_up a rules name d f f' ->
    (forall x, lists_alone d name x -> at_path root x q -> kept a rules x) -> fget f' q = fget f q.
  Proof. intros [_ H] K. destruct (H q) as [E|(_ & x & (A & N) & P)]; [exact E|]. exfalso. exact (N (K x A P)). Qed.
  (** repeated, the upgrade ends as if it had never been killed *)
  Theorem C117_again a rules name sd conf f f' d w1 : no_dot_name a -> archive_name a name -> read_rules_file conf = inl rules -> tree f -> no_leftover root f ->
    (forall y, lists d name y -> well_spelled root f y) ->
    session (Add (Opts false true false) sd conf a) (World f d) = (None, w1) -> half_up a rules name d f f' ->
    exists w2, session (Add (Opts false true false) sd conf a) (World f' d) = (None, w2) /\ w_db w2 = w_db w1 /\ forall q, fget (w_fs w2) q = fget (w_fs w1) q.
  Proof.
    intros ND An Hr T NL W E [T' Hf].
    assert (Sub : forall q, fget f' q = fget f q \/ fget f' q = None) by (intro q; destruct (Hf q) as [Z|[Z _]]; auto).
    assert (NL' : no_leftover root f') by (intros x I; destruct (Sub (R ++ comps x)) as [Z|Z]; [rewrite Z; exact (NL x I)|exact Z]).
    assert (C : cleanup_meta f root = f) by (pose proof (leftover_clean root Rs (World f d) NL) as Z; apply (f_equal w_fs) in Z; exact Z).
    assert (C' : cleanup_meta f' root = f') by (pose proof (leftover_clean root Rs (World f' d) NL') as Z; apply (f_equal w_fs) in Z; exact Z).
    apply session_add_none in E as (m & nm & m' & Lo & E). cbn [w_fs w_db] in Lo, E. rewrite C in E.
    apply DbRun.add_run_ret in E as (info & rules' & ins & non & post & w1' & w2 & m2 & kl & w3 & m3 & w5 & m5 & Eo & Er & En & Ei & Ep & Ec & Eu & Em & Ew & _).
    rewrite Hr in Er. injection Er as <-. cbn [o_upgrade o_scripts o_force] in *.
    assert (nm = name) as -> by (apply open_name in Eo as [Z _]; exact (archive_name_unique _ _ _ Z An)).
    assert (Nd : nodot name) by (intros v ->; exact (ND v An)).
    assert (w1' = World f d) as -> by (inversion Ep; reflexivity). clear Ep.
    destruct Ec as [(C0 & -> & ->)|(_ & Z & _)]; [|discriminate Z]. destruct Eu as [(Z & _)|(_ & Ek & Eu)]; [discriminate Z|].
    cbn [w_fs w_db] in *. rewrite set_dep_pkgs in C0.
    destruct (remove_files root name kl (World f d, mark_auto junk name (set_dep sd m))) as [wr mr] eqn:Erf.
    assert (Gn : mget name d <> None).
    { unfold remove_files in Erf. inversion Erf; subst wr mr. unfold remove_refs in Eu. cbn [w_db] in Eu. destruct (mget name d); [discriminate|discriminate Eu]. }
    destruct (load_record junk d m name Lo) as [r Gr]; [apply (proj2 (nondot_spec name)), Nd|exact Gn|].
    (* the same names are deleted again *)
    assert (Erf' : exists wr', remove_files root name kl (World f' d, mark_auto junk name (set_dep sd m)) = (wr', mr) /\ weq wr wr').
    { assert (U : exists l, wr = World (del_files root l f) d /\ remove_files root name kl (World f' d, mark_auto junk name (set_dep sd m)) = (World (del_files root l f') d, mr) /\
                  ssorted l /\ forall x, In x l <-> drops a rules name d x).
      { assert (Pm : m_pkgs (mark_auto junk name (set_dep sd m)) = m_pkgs m) by (unfold mark_auto; rewrite set_dep_pkgs, Gr; destruct (r_auto r); cbn [m_pkgs]; first [reflexivity|apply set_dep_pkgs]).
        unfold remove_files in Erf |- *. rewrite Pm in Erf |- *. rewrite Gr in Erf |- *.
        match type of Erf with context [del_files root ?x _] => set (l0 := x) in Erf |- * end.
        exists l0. split; [inversion Erf; reflexivity|]. split; [inversion Erf; reflexivity|].
        assert (Sr : ssorted (r_files r)) by (eapply load_files_sorted; eauto).
        assert (S0 : ssorted l0) by (unfold l0; apply minus_refs_sorted, sminus_sorted, Sr).
        split; [exact S0|]. intro x. unfold l0. rewrite minus_refs_In, sminus_In. unfold drops, lists_alone, kept.
        pose proof (keep_list_spec re rules ins kl Ek) as [Ik _]. pose proof (install_rules_spec re rules _ _ _ _ Ei) as [Ii _].
        rewrite (Ik x), (Ii x), (proj2 (open_name _ _ _ _ _ _ Eo) x).
        rewrite (load_lists junk d m name r x Lo Gr). assert (SS := load_keys _ _ _ Lo). split.
        - intros [[A K] B]. split; [split; [exact A|]|tauto]. intros n Nn Nm Ln. destruct (load_record junk d m n Lo) as [r' G'].
          { apply (proj2 (nondot_spec n)), Nn. }
          { destruct Ln as [dir [c [G _]]]. congruence. }
          apply (B n r'); [apply In_mdel; split; auto; apply mget_In, G'|]. eapply load_lists; eauto.
        - intros [[A B] K]. split; [split; [exact A|tauto]|]. intros n r' J Ir. apply In_mdel in J as [J Nm].
          apply (In_mget n r' _ (ssorted_NoDup _ SS)) in J. apply (B n); auto.
          + refine (proj1 (nondot_spec n) _). apply load_spec in Lo as [_ [P _]]. apply P in J as [J _]. exact J.
          + eapply load_lists; eauto. }
      destruct U as (l & -> & E' & S & I). eexists. split; [exact E'|]. split; [|reflexivity]. cbn [w_fs]. intro q. symmetry.
      assert (Pl : forall x, In x l -> exists cs, plain x cs) by (intros x J; apply I in J as [[J _] _]; exact (proj1 (W x J))).
      assert (Fi : forall x, In x l -> fits root f x).
      { intros x J. apply I in J as [[J _] _]. intro Es. apply ends_slash_iff in Es as [y ->]. apply (proj2 (W _ J) y eq_refl). }
      apply del_files_again_at; auto.
      - intros x J. apply (fits_sub root f f' x Sub), (Fi x J).
      - intros p _. destruct (Hf p) as [Z|(Z & x & D & P)]; [left; exact Z|]. right. split; [exact Z|]. exists x. split; [apply I, D|exact P]. }
    destruct Erf' as (wr' & Erf' & Wq).
    assert (Eu' : exists w3', remove_refs junk name (wr', mr) = Some (w3', m3) /\ weq w3 w3').
    { destruct Wq as [Wq1 Wq2]. unfold remove_refs in Eu |- *. rewrite <- Wq2. destruct (mget name (w_db wr)) as [dir|]; [|discriminate].
      inversion Eu; subst w3 m3. eexists. split; [reflexivity|]. split; cbn [w_fs w_db]; [exact Wq1|reflexivity]. }
    destruct Eu' as (w3' & Eu' & W3).
    assert (W4 : weq (World (install_archive root a kl non (w_fs w3)) (w_db w3)) (World (install_archive root a kl non (w_fs w3')) (w_db w3'))).
    { destruct W3 as [A B]. split; cbn [w_fs w_db]; [apply archive_feq, A|exact B]. }
    pose proof (move_meta_feq root name _ _ m3 W4) as Mv. rewrite Em in Mv.
    destruct (move_meta root name (World (install_archive root a kl non (w_fs w3')) (w_db w3'), m3)) as [[w5' m5']| |] eqn:Em'; try contradiction.
    destruct Mv as [W5 <-].
    (* no conflict *)
    assert (C1 : conflicts root name ins f' (m_pkgs m) = []).
    { destruct (conflicts root name ins f' (m_pkgs m)) as [|x cs] eqn:Ecf; [reflexivity|]. exfalso.
      assert (J : In x (conflicts root name ins f' (m_pkgs m))) by (rewrite Ecf; left; reflexivity). apply conflicts_In in J as (J1 & J2 & J3 & J4).
      assert (K : In x (conflicts root name ins f (m_pkgs m))).
      { apply conflicts_In. split; [exact J1|]. split; [exact J2|]. split; [|exact J4]. destruct J3 as [J3|J3]; [left; exact J3|]. right.
        unfold exists_file, lstat in J3 |- *. destruct (Sub (comps (root ++ x))) as [Z|Z]; rewrite Z in J3; [exact J3|discriminate J3]. }
      rewrite C0 in K. destruct K. }
    exists (post_run sh root false (fst (add_files_refs name (with_files ins info) (w5', m5)))). split.
    - unfold DbModel.session. cbn [w_db w_fs]. rewrite C', Lo. unfold add_run. rewrite Eo, Hr, En. cbn [o_upgrade o_scripts o_force andb negb].
      rewrite Ei. cbn [w_fs]. rewrite set_dep_pkgs, C1, Ek, Erf', Eu'. rewrite Em'. cbn [add_files_refs fst]. reflexivity.
    - assert (W6 : weq (fst (add_files_refs name (with_files ins info) (w5, m5))) (fst (add_files_refs name (with_files ins info) (w5', m5)))).
      { destruct W5 as [A B]. split; cbn [add_files_refs fst w_fs w_db]; [exact A|rewrite B; reflexivity]. }
      destruct (post_feq root sh _ _ W6) as [A B]. rewrite Ew. split; [symmetry; exact B|]. intro q. symmetry. apply A.
  Qed.
End Up.

(** *** foo to foo2 with usr/bin/tool protected, killed when usr/foo.txt is gone *)
Definition f_dropped : fs := del_one rt (w_fs w_foo) (L "usr/foo.txt").
Definition foo_drops : list str := [L "usr/"; L "usr/bin/"; L "usr/foo.txt"].
Lemma foo_drops_sorted : ssorted foo_drops.
Proof. assert (E : foo_drops = set_of foo_drops) by (vm_compute; reflexivity). rewrite E. apply set_of_sorted. Qed.
Lemma kept_tool : kept pfx foo2 keep_rules tool.
Proof.
  split; [apply foo2_ships; cbn [In]; unfold tool; tauto|]. split.
  - apply verdict_default. intros r [<-|[]] H. discriminate.
  - apply (verdict_rule pfx UPGRADE keep_rules tool (Rule UPGRADE (L "usr/bin/tool") false)). exists [], []. split; [reflexivity|]. split; [reflexivity|].
    split; [vm_compute; reflexivity|intros r []].
Qed.
Lemma others_not_kept x : kept pfx foo2 keep_rules x -> x = tool.
Proof.
  intros (S & _ & V). apply foo2_ships in S. destruct S as [<-|[<-|[<-|[]]]]; [exfalso|exfalso|reflexivity].
  - assert (W : verdict pfx UPGRADE keep_rules (L "usr/") true) by (apply verdict_default; intros r [<-|[]] H; vm_compute; reflexivity).
    pose proof (C09_verdict_unique _ _ _ _ _ _ V W). discriminate.
  - assert (W : verdict pfx UPGRADE keep_rules (L "usr/bin/") true) by (apply verdict_default; intros r [<-|[]] H; vm_compute; reflexivity).
    pose proof (C09_verdict_unique _ _ _ _ _ _ V W). discriminate.
Qed.
Lemma foo_drops_spec x : In x foo_drops <-> drops pfx foo2 keep_rules (L "foo") (w_db w_foo) x.
Proof.
  unfold drops. rewrite <- foo_alone. split.
  - intro I. split; [unfold foo_names; cbn [In] in *; unfold foo_drops in I; cbn [In] in I; tauto|].
    intro K. apply others_not_kept in K as ->. destruct I as [I|[I|[I|[]]]]; discriminate I.
  - intros [[<-|[<-|[<-|[<-|[]]]]] N]; unfold foo_drops; cbn [In]; try tauto. exfalso. exact (N kept_tool).
Qed.
Definition w_auto : world := snd (session false mach pfx quiet rt (Add simple true None foo) w_empty).
(** the record of foo, its META gone *)
Definition d_unmarked : disk := mset (L "foo") (mdel (L "META") (match mget (L "foo") (w_db w_auto) with Some dir => dir | None => [] end)) (w_db w_auto).
Theorem C117_case : no_dot_name foo2 /\ archive_name foo2 (L "foo") /\ read_rules_file (Some keep_conf) = inl keep_rules /\ tree (w_fs w_foo) /\
  no_leftover rt (w_fs w_foo) /\ (forall y, lists (w_db w_foo) (L "foo") y -> well_spelled rt (w_fs w_foo) y) /\
  session false mach pfx quiet rt (Add upgr false (Some keep_conf) foo2) w_foo = (None, w_kept) /\
  killed_dropping pfx rt foo2 keep_rules (L "foo") (w_db w_foo) (w_fs w_foo) f_dropped /\
  kept pfx foo2 keep_rules tool /\
  fget (w_fs w_foo) [L "usr"; L "foo.txt"] <> None /\ fget f_dropped [L "usr"; L "foo.txt"] = None.
Proof.
  split; [exact foo2_no_dot|]. split; [apply foo2_name; reflexivity|]. split; [vm_compute; reflexivity|]. split; [exact tree_w_foo|].
  split; [intros m I; vm_compute in I; decompose [or] I; try contradiction; subst m; vm_compute; reflexivity|].
  split; [exact foo_well_spelled|]. split; [vm_compute; reflexivity|].
  split.
  { exists foo_drops, [L "usr/foo.txt"], [L "usr/bin/"; L "usr/"]. split; [exact foo_drops_sorted|]. split; [exact foo_drops_spec|]. split; reflexivity. }
  split; [exact kept_tool|]. split; [vm_compute; discriminate|vm_compute; reflexivity].
Qed.
(** killed a little later, when the META of the old record is gone and its list of files is not, the repeated upgrade succeeds,
    but the package, installed as a dependency, is no longer marked so *)
Theorem C117_mark_refuted : automatic (w_db w_auto) (L "foo") /\
  (exists w1, session false mach pfx quiet rt (Add upgr false None foo2) w_auto = (None, w1) /\ automatic (w_db w1) (L "foo")) /\
  (exists w2, session false mach pfx quiet rt (Add upgr false None foo2) (World (w_fs w_auto) d_unmarked) = (None, w2) /\
     lists (w_db w2) (L "foo") tool /\ ~ automatic (w_db w2) (L "foo")).
Proof.
  split; [apply has_meta; vm_compute; reflexivity|]. split.
  - eexists. split; [vm_compute; reflexivity|]. apply has_meta. vm_compute. reflexivity.
  - eexists. split; [vm_compute; reflexivity|]. split; [|apply has_no_meta; vm_compute; reflexivity].
    apply (files_of_lists _ _ [L "usr/"; L "usr/bin/"; L "usr/bin/tool"]); [vm_compute; reflexivity|cbn [In]; unfold tool; tauto].
Qed.
