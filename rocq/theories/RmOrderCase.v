(** C119: a case that meets the hypotheses, and the two exceptions. *)
From Verif Require Import Base BaseProofs StrModel StrSpec StrProofs RulesModel RulesSpec FsModel FsSpec FsProofs FsOps MetaModel DbModel DbSpec DbLoad DbOps DbInv DbFacts DbProps DbExamples RemoveProps DisturbProps RmOrder.
Notation ses := (session false mach pfx quiet rt).
Notation his := (history false mach pfx quiet rt).
Notation rem n := (Remove false None (L n)).
Definition parentsb (l : list str) : bool :=
  forallb (fun x => forallb (fun k => match firstn k (comps x) with [] => true | q => existsb (fun y => peqb (comps y) q) l end) (seq 0 (length (comps x)))) l.
Lemma parents_check d n l : (forall x, lists d n x <-> In x l) -> parentsb l = true -> lists_parents d n.
Proof.
  intros H B x q Lx Nq (r & Nr & E). apply H in Lx. unfold parentsb in B. rewrite forallb_forall in B. specialize (B x Lx). rewrite forallb_forall in B.
  assert (I : In (length q) (seq 0 (length (comps x)))). { apply in_seq. rewrite E, app_length. destruct r; [congruence|]. cbn [length]. lia. }
  specialize (B _ I). assert (F : firstn (length q) (comps x) = q) by (rewrite E, firstn_app, Nat.sub_diag, firstn_all, firstn_O, app_nil_r; reflexivity).
  rewrite F in B. destruct q as [|c q]; [congruence|]. apply existsb_exists in B as (y & Iy & Ey). apply peqb_eq in Ey. exists y. split; [apply H, Iy|exact Ey].
Qed.
Definition hiddenb (d : disk) (n : str) : bool := match mget n d with Some dir => forallb nondot (keys dir) | None => true end.
Lemma hidden_check d n : hiddenb d n = true -> none_hidden d n.
Proof. intros H dir x G I. unfold hiddenb in H. rewrite G, forallb_forall in H. exact (proj1 (nondot_spec x) (H x I)). Qed.
Lemma bar_spelled y : lists (w_db w_bar) (L "bar") y -> well_spelled rt (w_fs w_bar) y.
Proof.
  intro H. apply lists_bar in H. destruct H as [<-|[<-|[<-|[<-|[]]]]]; split.
  - exists [L "usr"]. change (L "usr/") with (join slash [L "usr"] ++ [slash]). constructor; [discriminate|lits].
  - intros _ _. right. apply dirb_dir. vm_compute. reflexivity.
  - exists [L "usr"; L "bar.txt"]. change (L "usr/bar.txt") with (join slash [L "usr"; L "bar.txt"]). constructor; [discriminate|lits].
  - intros y E. apply (f_equal (@rev ascii)) in E. rewrite rev_app_distr in E. discriminate.
  - exists [L "usr"; L "bin"]. change (L "usr/bin/") with (join slash [L "usr"; L "bin"] ++ [slash]). constructor; [discriminate|lits].
  - intros _ _. right. apply dirb_dir. vm_compute. reflexivity.
  - exists [L "usr"; L "bin"; L "tool"]. change (L "usr/bin/tool") with (join slash [L "usr"; L "bin"; L "tool"]). constructor; [discriminate|lits].
  - intros y E. apply (f_equal (@rev ascii)) in E. rewrite rev_app_distr in E. discriminate.
Qed.
(** foo and bar both list usr/ and usr/bin/: the one that goes last takes them along *)
Theorem C119_case : nodot (L "foo") /\ nodot (L "bar") /\ tree (w_fs w_bar) /\ no_leftover rt (w_fs w_bar) /\ none_hidden (w_db w_bar) (L "foo") /\ none_hidden (w_db w_bar) (L "bar") /\
  (forall n y, n = L "foo" \/ n = L "bar" -> lists (w_db w_bar) n y -> well_spelled rt (w_fs w_bar) y) /\ same_spelling (w_db w_bar) (L "foo") (L "bar") /\
  lists_parents (w_db w_bar) (L "foo") /\ lists_parents (w_db w_bar) (L "bar") /\
  exists w1 w2 v1, ses (rem "foo") w_bar = (None, w1) /\ ses (rem "bar") w1 = (None, w2) /\ ses (rem "bar") w_bar = (None, v1) /\ ses (rem "foo") v1 = (None, w2) /\
    fget (w_fs w1) [L "usr"; L "bin"] <> None /\ fget (w_fs v1) [L "usr"; L "bin"] <> None /\ w_fs w2 = f_empty /\ w_db w2 = [].
Proof.
  split; [intros v E; discriminate E|]. split; [intros v E; discriminate E|]. split; [apply treeb_tree; vm_compute; reflexivity|].
  split; [intros m M; unfold meta_files in M; cbn [In] in M; decompose [or] M; subst; try contradiction; vm_compute; reflexivity|].
  split; [apply hidden_check; vm_compute; reflexivity|]. split; [apply hidden_check; vm_compute; reflexivity|].
  split; [intros n y [->| ->]; [apply foo_spelled|apply bar_spelled]|].
  split.
  { intros x y X Y C. apply lists_foo in X. apply lists_bar in Y. cbn [In] in X, Y. decompose [or] X; decompose [or] Y; subst; try contradiction; try reflexivity; vm_compute in C; discriminate C. }
  split; [apply (parents_check _ _ _ lists_foo); vm_compute; reflexivity|]. split; [apply (parents_check _ _ _ lists_bar); vm_compute; reflexivity|].
  do 3 eexists. split; [vm_compute; reflexivity|]. split; [vm_compute; reflexivity|]. split; [vm_compute; reflexivity|]. split; [vm_compute; reflexivity|].
  split; [vm_compute; discriminate|]. split; [vm_compute; discriminate|]. split; vm_compute; reflexivity.
Qed.
(** A package that does not list the directory its file is in: the directory stays if its owner goes first. *)
Definition owner : archive := pkg [L "Nowner"; L "V1"; L "ax86_64"; L "r1"] [(L "usr/", dirn); (L "usr/a", reg (L "a"))].
Definition guest : archive := pkg [L "Nguest"; L "V1"; L "ax86_64"; L "r1"] [(L "usr/b", reg (L "b"))].
Theorem C119_parents_refuted : let w := his [Add simple false None owner; Add simple false None guest] w_empty in
  keys (w_db w) = [L "guest"; L "owner"] /\ ~ lists_parents (w_db w) (L "guest") /\
  exists w1 w2 v1 v2, ses (rem "owner") w = (None, w1) /\ ses (rem "guest") w1 = (None, w2) /\ ses (rem "guest") w = (None, v1) /\ ses (rem "owner") v1 = (None, v2) /\
    w_db w2 = [] /\ w_db v2 = [] /\ fget (w_fs w2) [L "usr"] <> None /\ fget (w_fs v2) [L "usr"] = None.
Proof.
  cbv zeta. split; [vm_compute; reflexivity|]. split.
  { assert (G : forall x, lists (w_db (his [Add simple false None owner; Add simple false None guest] w_empty)) (L "guest") x <-> In x [L "usr/b"]) by (intro x; apply files_of_lists; vm_compute; reflexivity).
    intro H. destruct (H (L "usr/b") [L "usr"]) as (y & Ly & Cy); [apply G; left; reflexivity|discriminate|exists [L "b"]; split; [discriminate|vm_compute; reflexivity]|].
    apply G in Ly as [<-|[]]. vm_compute in Cy. discriminate Cy. }
  do 4 eexists. split; [vm_compute; reflexivity|]. split; [vm_compute; reflexivity|]. split; [vm_compute; reflexivity|]. split; [vm_compute; reflexivity|].
  split; [vm_compute; reflexivity|]. split; [vm_compute; reflexivity|]. split; [vm_compute; discriminate|vm_compute; reflexivity].
Qed.
