(** Concrete non-trivial cases meeting the hypotheses of C01 (META), C04, C07, C08, C18, C51, C52, and the counterexamples. *)
From Verif Require Import Base BaseProofs StrModel StrSpec StrProofs RulesModel RulesSpec RulesProofs FsModel FsSpec FsProofs FsOps FsExtract
  MetaModel MetaSpec MetaProofs DbModel DbSpec DbLoad DbOps DbRun DbInv EngineFs EngineRoot EngineWay DbFacts DbProps RemoveProps AddRun DbExamples AddProps UpgradeProps.

Fixpoint nodupb (l : list path) : bool := match l with [] => true | p :: t => negb (existsb (peqb p) t) && nodupb t end.
Lemma nodupb_NoDup l : nodupb l = true -> NoDup l.
Proof.
  induction l as [|p l IH]; intro H; constructor; cbn in H; apply andb_true_iff in H as [A B]; auto.
  intro I. apply negb_true_iff in A. assert (existsb (peqb p) l = true); [|congruence]. apply existsb_exists. exists p. split; auto. apply peqb_refl.
Qed.
Definition tidyb (a : archive) : bool := nodupb (map (fun e => comps (fst e)) a) &&
  forallb (fun e => forallb (fun g => is_dir (snd e) || negb (belowb (comps (fst e)) (comps (fst g)))) a) a.
Lemma tidyb_tidy a : tidyb a = true -> tidy a.
Proof.
  intro H. apply andb_true_iff in H as [A B]. split; [apply nodupb_NoDup, A|]. intros x n y m I J K Bl. rewrite forallb_forall in B.
  specialize (B _ I). rewrite forallb_forall in B. specialize (B _ J). cbn [fst snd] in B. apply is_dir_false in K. rewrite K in B.
  apply belowb_below in Bl. rewrite Bl in B. discriminate.
Qed.
Definition pfxb (p q : path) : bool := peqb p q || belowb p q.
Lemma pfxb_prefix p q : prefix_of p q -> pfxb p q = true.
Proof. intro H. apply prefix_below in H as [->|H]; unfold pfxb; [rewrite peqb_refl; reflexivity|]. apply belowb_below in H. rewrite H. apply orb_true_r. Qed.
Definition norejb (a : archive) : bool :=
  forallb (fun e => negb (pfxb reject_comps (comps (fst e))) && (is_dir (snd e) || negb (pfxb (comps (fst e)) reject_comps))) a.
Lemma norejb_spec a : norejb a = true -> no_reject_area a.
Proof.
  intros H y k I. unfold norejb in H. rewrite forallb_forall in H. specialize (H _ I). cbn [fst snd] in H. apply andb_true_iff in H as [A B]. split.
  - intro P. apply pfxb_prefix in P. rewrite P in A. discriminate.
  - intros K P. apply is_dir_false in K. apply pfxb_prefix in P. rewrite K, P in B. discriminate.
Qed.
Definition wayb (f : fs) (p : path) : bool := forallb (fun e => negb (belowb (fst e) p) || dirb f (fst e)) f.
Lemma wayb_way f p : wayb f p = true -> way_clear f p.
Proof.
  intros H q B. destruct (fget f q) as [n|] eqn:G; [right|auto]. assert (X : fget f q <> None) by congruence. apply fget_In in X as [k X].
  unfold wayb in H. rewrite forallb_forall in H. specialize (H _ X). cbn [fst] in H. apply belowb_below in B. rewrite B in H. apply dirb_dir, H.
Qed.
(** the files of a concrete archive *)
Definition shipped (a : archive) : list str := match open_archive false mach rt a with Ok (_, r) => r_files r | _ => [] end.
Definition called (a : archive) : str := match open_archive false mach rt a with Ok (n, _) => n | _ => [] end.
Lemma ships_shipped a nm r x : open_archive false mach rt a = Ok (nm, r) -> (ships a x <-> In x (shipped a)).
Proof. intro E. unfold shipped. rewrite E. apply open_name in E as [_ E]. symmetry. apply E. Qed.
Lemma called_name a nm r n : open_archive false mach rt a = Ok (nm, r) -> (archive_name a n <-> n = called a).
Proof.
  intro E. unfold called. rewrite E. apply open_name in E as [E _]. split; [intro H; exact (archive_name_unique _ _ _ H E)|intros ->; exact E].
Qed.
Ltac opened := vm_compute; reflexivity.
Lemma foo2_ships x : ships foo2 x <-> In x [L "usr/"; L "usr/bin/"; L "usr/bin/tool"].
Proof. erewrite ships_shipped by opened. assert (E : shipped foo2 = [L "usr/"; L "usr/bin/"; L "usr/bin/tool"]) by (vm_compute; reflexivity). rewrite E. tauto. Qed.
Lemma foo2_name n : archive_name foo2 n <-> n = L "foo".
Proof. erewrite called_name by opened. assert (E : called foo2 = L "foo") by (vm_compute; reflexivity). rewrite E. tauto. Qed.
Lemma foo_lists x : lists (w_db w_foo) (L "foo") x <-> In x [L "usr/"; L "usr/bin/"; L "usr/bin/tool"; L "usr/foo.txt"].
Proof. apply files_of_lists. vm_compute. reflexivity. Qed.
Lemma foo_well_spelled y : lists (w_db w_foo) (L "foo") y -> well_spelled rt (w_fs w_foo) y.
Proof.
  intro H. apply foo_lists in H. destruct H as [<-|[<-|[<-|[<-|[]]]]]; split.
  - exists [L "usr"]. change (L "usr/") with (join slash [L "usr"] ++ [slash]). constructor; [discriminate|lits].
  - intros _ _. right. apply dirb_dir. vm_compute. reflexivity.
  - exists [L "usr"; L "bin"]. change (L "usr/bin/") with (join slash [L "usr"; L "bin"] ++ [slash]). constructor; [discriminate|lits].
  - intros _ _. right. apply dirb_dir. vm_compute. reflexivity.
  - exists [L "usr"; L "bin"; L "tool"]. change (L "usr/bin/tool") with (join slash [L "usr"; L "bin"; L "tool"]). constructor; [discriminate|lits].
  - intros y E. apply (f_equal (@rev ascii)) in E. rewrite rev_app_distr in E. discriminate.
  - exists [L "usr"; L "foo.txt"]. change (L "usr/foo.txt") with (join slash [L "usr"; L "foo.txt"]). constructor; [discriminate|lits].
  - intros y E. apply (f_equal (@rev ascii)) in E. rewrite rev_app_distr in E. discriminate.
Qed.

(** *** C07: usr/bin/tool is protected *)
Definition keep_conf : str := L "UPGRADE usr/bin/tool NO" ++ [nl].
Definition keep_rules : list rule := [Rule UPGRADE (L "usr/bin/tool") false].
Definition tool : str := L "usr/bin/tool".
Definition w_kept : world := snd (session false mach pfx quiet rt (Add upgr false (Some keep_conf) foo2) w_foo).
Lemma tool_no_slash : ~ (exists y, tool = y ++ [slash]).
Proof. intros [y E]. apply (f_equal (@rev ascii)) in E. rewrite rev_app_distr in E. discriminate. Qed.
Lemma tool_plain : exists cs, plain tool cs.
Proof. exists [L "usr"; L "bin"; L "tool"]. change tool with (join slash [L "usr"; L "bin"; L "tool"]). constructor; [discriminate|lits]. Qed.
Lemma tool_spelled : spelled_once foo2 (w_db w_foo) tool.
Proof.
  intros nm y N H E. apply foo2_name in N. subst nm. rewrite foo2_ships, foo_lists in H. cbn [In] in H.
  destruct H as [H|H]; decompose [or] H; subst; try contradiction; try reflexivity; exfalso; vm_compute in E; discriminate.
Qed.
Example C07_witness : no_dot_name foo2 /\ tree (w_fs w_foo) /\ read_rules_file (Some keep_conf) = inl keep_rules /\
  protected pfx upgr keep_rules foo2 (w_db w_foo) tool (reg (L "foo tool 2")) /\
  fget (w_fs w_foo) (comps rt ++ comps tool) = Some (reg (L "foo tool")) /\
  way_clear (w_fs w_foo) (comps rt ++ reject_comps ++ comps tool) /\ ~ dir_at (w_fs w_foo) (comps rt ++ reject_comps ++ comps tool) /\
  session false mach pfx quiet rt (Add upgr false (Some keep_conf) foo2) w_foo = (None, w_kept) /\
  ~ alike (reg (L "foo tool 2")) (reg (L "foo tool")).
Proof.
  split; [exact foo2_no_dot|]. split; [exact tree_w_foo|]. split; [vm_compute; reflexivity|]. split.
  { split; [reflexivity|]. split; [reflexivity|]. split; [apply tidyb_tidy; vm_compute; reflexivity|]. split; [apply norejb_spec; vm_compute; reflexivity|].
    split; [apply foo2_ships; cbn [In]; unfold tool; tauto|]. split; [exact tool_plain|]. split; [exact tool_no_slash|].
    split; [unfold foo2, pkg; cbn [In app]; unfold tool; tauto|]. split; [discriminate|]. split; [exact tool_spelled|]. split.
    - apply verdict_default. intros r [<-|[]] H. discriminate.
    - apply (verdict_rule pfx UPGRADE keep_rules tool (Rule UPGRADE (L "usr/bin/tool") false)). exists [], []. split; [reflexivity|]. split; [reflexivity|].
      split; [vm_compute; reflexivity|intros r []]. }
  split; [vm_compute; reflexivity|]. split.
  { apply wayb_way. vm_compute. reflexivity. }
  split; [intros [z [Z _]]; vm_compute in Z; discriminate|]. split; [vm_compute; reflexivity|].
  intros [_ [_ [_ [Z|Z]]]]; discriminate.
Qed.

(** C07: a file with both an INSTALL NO and an UPGRADE NO rule is not kept: when the old version listed it, it is deleted *)
Definition both_conf : str := L "UPGRADE usr/bin/tool NO" ++ nl :: L "INSTALL usr/bin/tool NO" ++ [nl].
Theorem C07_not_installed_refuted :
  let r := session false mach pfx quiet rt (Add upgr false (Some both_conf) foo2) w_foo in
  fst r = None /\ fget (w_fs w_foo) [L "usr"; L "bin"; L "tool"] = Some (reg (L "foo tool")) /\
  fget (w_fs (snd r)) [L "usr"; L "bin"; L "tool"] = None.
Proof. split; [|split]; vm_compute; reflexivity. Qed.

(** *** C08: usr/foo.txt is dropped by the new version *)
Lemma foo_txt_alone : lists_alone (w_db w_foo) (L "foo") (L "usr/foo.txt").
Proof. split; [apply foo_lists; cbn [In]; tauto|]. intros n _ N H. apply only_foo in H. contradiction. Qed.
Example C08_witness : no_dot_name foo2 /\ archive_name foo2 (L "foo") /\ tree (w_fs w_foo) /\
  (exists w', session false mach pfx quiet rt (Add upgr false None foo2) w_foo = (None, w')) /\
  (forall y, lists (w_db w_foo) (L "foo") y -> well_spelled rt (w_fs w_foo) y) /\
  lists_alone (w_db w_foo) (L "foo") (L "usr/foo.txt") /\ nodot (L "usr/foo.txt") /\ ~ ships foo2 (L "usr/foo.txt") /\
  (forall y m, In (y, m) foo2 -> ~ prefix_of (comps (L "usr/foo.txt")) (comps y)) /\
  ~ prefix_of (comps (L "usr/foo.txt")) reject_comps /\ ~ prefix_of reject_comps (comps (L "usr/foo.txt")).
Proof.
  split; [exact foo2_no_dot|]. split; [apply foo2_name; reflexivity|]. split; [exact tree_w_foo|]. split; [eexists; vm_compute; reflexivity|].
  split; [exact foo_well_spelled|]. split; [exact foo_txt_alone|]. split; [intros v H; discriminate|]. split.
  { intro H. apply foo2_ships in H. cbn [In] in H. decompose [or] H; try contradiction; discriminate. }
  split; [|split; intro P; apply pfxb_prefix in P; vm_compute in P; discriminate].
  intros y m I P. apply pfxb_prefix in P. unfold foo2, pkg in I. cbn [In app] in I.
  decompose [or] I; try contradiction; match goal with H : (_, _) = (y, m) |- _ => inversion H; subst y end; vm_compute in P; discriminate.
Qed.

(** *** C51: bar's file is left alone by an upgrade of foo *)
Example C51_witness : exists w', let w := snd (session false mach pfx quiet rt (Add simple false None bar0) w_foo) in
  tree (w_fs w) /\ session false mach pfx quiet rt (Add upgr false None foo2) w = (None, w') /\
  lists (w_db w) (L "bar") (L "usr/bar.txt") /\ ~ lists (w_db w) (L "foo") (L "usr/bar.txt") /\
  fget (w_fs w) [L "usr"; L "bar.txt"] = Some (reg (L "about bar")) /\ fget (w_fs w') [L "usr"; L "bar.txt"] = Some (reg (L "about bar")).
Proof.
  eexists. cbv zeta. split; [apply treeb_tree; vm_compute; reflexivity|]. split; [vm_compute; reflexivity|].
  split; [apply (files_of_lists _ _ [L "usr/"; L "usr/bar.txt"]); [vm_compute; reflexivity|cbn [In]; tauto]|].
  split; [rewrite (files_of_lists _ _ [L "usr/"; L "usr/bin/"; L "usr/bin/tool"; L "usr/foo.txt"]); [|vm_compute; reflexivity]; cbn [In]; intro H; decompose [or] H; try contradiction; discriminate|].
  split; vm_compute; reflexivity.
Qed.
(** C51: a directory shipped at the path of another package's file replaces it, without any conflict being reported *)
Theorem C51_directory_refuted :
  let w := snd (session false mach pfx quiet rt (Add simple false None p_file) w_empty) in
  let r := session false mach pfx quiet rt (Add simple false None p_dir) w in
  fst r = None /\ files_of (w_db w) (L "a") = Some [L "lib"] /\ fget (w_fs w) [L "lib"] = Some (reg (L "x")) /\
  fget (w_fs (snd r)) [L "lib"] = Some dirn.
Proof. split; [|split; [|split]]; vm_compute; reflexivity. Qed.

(** *** C52 *)
Example C52_witness : tidy foo /\ no_reject_area foo /\ In (tool, reg (L "foo tool")) foo /\
  way_clear (w_fs w_empty) (comps rt ++ comps tool) /\ ~ dir_at (w_fs w_empty) (comps rt ++ comps tool) /\
  session false mach pfx quiet rt (Add simple false None foo) w_empty = (None, w_foo).
Proof.
  split; [apply tidyb_tidy; vm_compute; reflexivity|]. split; [apply norejb_spec; vm_compute; reflexivity|].
  split; [unfold foo, pkg, tool; cbn [In app]; tauto|]. split; [apply wayb_way; vm_compute; reflexivity|].
  split; [intros [z [Z _]]; vm_compute in Z; discriminate|vm_compute; reflexivity].
Qed.
(** C52: with force, a file whose place is a directory with something in it is recorded but not installed *)
Definition p_sub : archive := pkg [L "Nc"; L "V1"; L "ax86_64"] [(L "lib/", dirn); (L "lib/y", reg (L "y"))].
Theorem C52_recorded_missing_refuted :
  let w := snd (session false mach pfx quiet rt (Add simple false None p_sub) w_empty) in
  let r := session false mach pfx quiet rt (Add forced false None p_file) w in
  fst r = None /\ files_of (w_db (snd r)) (L "a") = Some [L "lib"] /\ fget (w_fs (snd r)) [L "lib"] = Some dirn.
Proof. split; [|split]; vm_compute; reflexivity. Qed.

(** *** C01 (META), C18: foo2 over foo *)
Example C01_meta_witness : no_dot_name foo2 /\ tree (w_fs w_foo) /\ dir_at (w_fs w_foo) (comps rt) /\ ~ where_meta (comps rt) /\
  meta_once foo2 (reg (text_of [L "Nfoo"; L "V2"; L "ax86_64"; L "r1"])) /\ rooted foo2 /\ plain_names foo2 /\
  (forall nm x, archive_name foo2 nm -> lists (w_db w_foo) nm x -> exists cs, plain x cs) /\
  (exists w', session false mach pfx quiet rt (Add upgr false None foo2) w_foo = (None, w')) /\
  (forall ls, parse_lines (text_of [L "Nfoo"; L "V2"; L "ax86_64"; L "r1"]) = Some ls -> ~ In (L "d1") ls) /\
  ~ automatic (w_db w_foo) (L "foo").
Proof.
  split; [exact foo2_no_dot|]. split; [exact tree_w_foo|]. split; [apply dirb_dir; vm_compute; reflexivity|].
  split; [intros [m [I E]]; discriminate|]. split; [|split; [|split; [|split; [|split; [|split]]]]].
  - split; [left; reflexivity|]. split; [discriminate|]. intros x m I E. unfold foo2, pkg in I. cbn [In app] in I.
    destruct I as [I|I]; [inversion I; auto|]. exfalso.
    decompose [or] I; try contradiction; match goal with H : (_, _) = (x, m) |- _ => inversion H; subst x end; vm_compute in E; discriminate.
  - intros x m I E. unfold foo2, pkg in I. cbn [In app] in I. exfalso.
    decompose [or] I; try contradiction; match goal with H : (_, _) = (x, m) |- _ => inversion H; subst x end; vm_compute in E; discriminate.
  - intros x H. apply foo2_ships in H. apply (proj1 (foo_well_spelled x ltac:(apply foo_lists; cbn [In] in *; tauto))).
  - intros nm x N H. apply foo2_name in N. subst nm. apply (proj1 (foo_well_spelled x H)).
  - eexists. vm_compute. reflexivity.
  - intros ls H. vm_compute in H. inversion H; subst. cbn [In]. intro I. decompose [or] I; try contradiction; discriminate.
  - intros [dir [c [ls [A [B [C I]]]]]]. vm_compute in A. inversion A; subst dir. vm_compute in B. inversion B; subst c. vm_compute in C. inversion C; subst ls.
    cbn [In] in I. decompose [or] I; try contradiction; discriminate.
Qed.
(** C18: foo installed as a dependency, then upgraded by name *)
Example C18_witness :
  let w := snd (session false mach pfx quiet rt (Add simple true None foo) w_empty) in
  automatic (w_db w) (L "foo") /\ exists w', session false mach pfx quiet rt (Add upgr false None foo2) w = (None, w') /\ automatic (w_db w') (L "foo").
Proof.
  cbv zeta. assert (A : automatic (w_db (snd (session false mach pfx quiet rt (Add simple true None foo) w_empty))) (L "foo")).
  { eexists. eexists. eexists. split; [vm_compute; reflexivity|]. split; [vm_compute; reflexivity|]. split; [vm_compute; reflexivity|]. cbn [In]. tauto. }
  split; [exact A|]. eexists. split; [vm_compute; reflexivity|].
  eexists. eexists. eexists. split; [vm_compute; reflexivity|]. split; [vm_compute; reflexivity|]. split; [vm_compute; reflexivity|]. cbn [In]. tauto.
Qed.
(** C04: the conflict of bar with foo is a refusal *)
Example C04_witness : exists w', session false mach pfx quiet rt (Add simple false None bar) w_foo = (Some (Conflict [L "usr/bin/tool"]), w') /\
  refusal simple (Conflict [L "usr/bin/tool"]).
Proof. eexists. split; [vm_compute; reflexivity|]. right. right. split; [reflexivity|]. left. eauto. Qed.
