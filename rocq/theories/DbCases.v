(** Concrete cases that meet the hypotheses of C02, C03, C16 and C66 (pkgadd.cxx:67-139, pkgdbh.cxx, buildpkg through CreateModel.v). *)
From Verif Require Import Base BaseProofs StrModel StrSpec StrProofs RulesModel RulesSpec RulesProofs FsModel FsSpec FsProofs FsOps FsExtract
  MetaModel MetaSpec MetaProofs DbModel DbSpec DbLoad DbOps DbRun DbInv EngineFs EngineRoot EngineWay DbFacts DbProps RemoveProps AddRun DbExamples AddProps
  UpgradeProps UpgradeExamples RemoveCmdExamples.

(** *** C02: foo, bar forced over it (bar takes usr/bin/tool from foo), foo upgraded to foo2 refused for the conflict: two packages that share
    only directories *)
Definition three_steps : list op := [Add simple false None foo; Add forced false None bar; Add upgr false None foo2].
Definition after_three : disk := w_db (his three_steps (World f_empty [])).
Theorem C02_case : Forall (fun o => Forall no_dot_name (op_archives o)) three_steps /\
  L "foo" <> L "bar" /\ lists after_three (L "foo") (L "usr/bin/") /\ lists after_three (L "bar") (L "usr/bin/") /\
  lists after_three (L "bar") tool /\ ~ lists after_three (L "foo") tool /\ lists after_three (L "foo") (L "usr/foo.txt").
Proof.
  assert (F : forall x, lists after_three (L "foo") x <-> In x [L "usr/"; L "usr/bin/"; L "usr/foo.txt"]) by (intro x; apply files_of_lists; vm_compute; reflexivity).
  assert (B : forall x, lists after_three (L "bar") x <-> In x [L "usr/"; L "usr/bar.txt"; L "usr/bin/"; tool]) by (intro x; apply files_of_lists; vm_compute; reflexivity).
  split.
  { constructor; [|constructor; [|constructor; [|constructor]]]; cbn [op_archives]; (constructor; [|constructor]); [exact foo_no_dot|exact bar_no_dot|exact foo2_no_dot]. }
  split; [discriminate|]. rewrite !F, !B. cbn [In]. split; [tauto|]. split; [tauto|]. split; [tauto|]. split; [|tauto].
  intro H. decompose [or] H; try contradiction; discriminate.
Qed.

(** *** C03: bar is refused over foo for usr/bin/tool and nothing else; bar0 is not refused *)
Theorem C03_case : no_dot_name bar /\ fst (ses (Add simple false None bar) w_foo) = Some (Conflict [tool]) /\
  (let w' := snd (ses (Add simple false None bar) w_foo) in
   forall x, conflicting pfx rt [] bar (L "bar") (w_db w') (w_fs w') x <-> x = tool) /\
  no_dot_name bar0 /\ fst (ses (Add simple false None bar0) w_foo) = None.
Proof.
  split; [exact bar_no_dot|]. split; [vm_compute; reflexivity|]. split.
  - cbv zeta. set (w' := snd (ses (Add simple false None bar) w_foo)).
    assert (E : ses (Add simple false None bar) w_foo = (Some (Conflict [tool]), w')).
    { unfold w'. assert (Q : fst (ses (Add simple false None bar) w_foo) = Some (Conflict [tool])) by (vm_compute; reflexivity).
      rewrite (surjective_pairing (ses (Add simple false None bar) w_foo)), Q. reflexivity. }
    destruct (C03_reported_exact false mach pfx quiet rt eq_refl simple false None bar w_foo [tool] w' bar_no_dot E) as (n & rules & An & Er & _ & _ & _ & C).
    assert (n = L "bar") as ->.
    { assert (O : exists r, open_archive false mach rt bar = Ok (L "bar", r)) by (vm_compute; eauto). destruct O as [r O].
      apply (proj1 (called_name bar (L "bar") r n O)) in An. rewrite An. vm_compute. reflexivity. }
    assert (rules = []) as -> by (vm_compute in Er; congruence).
    intro x. rewrite <- C. cbn [In]. split; [intros [Z|[]]; symmetry; exact Z|intros ->; left; reflexivity].
  - split; [no_dot|vm_compute; reflexivity].
Qed.

(** *** C16: bar also answers to foobar *)
Definition foobar : archive := pkg [L "Nfoobar"; L "V1"; L "ax86_64"; L "r1"] [(L "opt/", dirn); (L "opt/x", reg (L "x"))].
Lemma not_foobar_in_foo : ~ known (w_db w_foo) (L "foobar").
Proof.
  assert (E : exists m, load false (w_db w_foo) = Ok m /\ name_exists m (L "foobar") = false) by (eexists; split; vm_compute; reflexivity).
  destruct E as (m & Lo & N). intro K. apply (name_exists_known false _ m _ Lo) in K. congruence.
Qed.
Theorem C16_case : archive_name foobar (L "foobar") /\ known (w_db w_bar) (L "foobar") /\ mget (L "foobar") (w_db w_bar) = None /\
  fst (ses (Add simple false None foobar) w_bar) = Some Already /\
  ~ known (w_db w_foo) (L "foobar") /\ fst (ses (Add upgr false None foobar) w_foo) = Some NotInstalled /\
  fst (ses (Remove false None (L "foobar")) w_foo) = Some NotInstalled /\ fst (ses (Add simple false None foobar) w_foo) = None.
Proof.
  split.
  { assert (O : exists r, open_archive false mach rt foobar = Ok (L "foobar", r)) by (vm_compute; eauto). destruct O as [r O]. apply open_name in O. exact (proj1 O). }
  split.
  { exists (L "bar"). split; [intros v E; discriminate E|]. split; [vm_compute; discriminate|]. right. apply has_meta. vm_compute. reflexivity. }
  split; [vm_compute; reflexivity|]. split; [vm_compute; reflexivity|]. split; [exact not_foobar_in_foo|].
  split; [vm_compute; reflexivity|]. split; vm_compute; reflexivity.
Qed.
