(** Concrete cases that meet the hypotheses of C66 (cards create), C59 (pkginfo) and C88 (the table of contents of a page). *)
From Verif Require Import Base BaseProofs StrModel StrSpec StrProofs RulesModel RulesSpec RulesProofs FsModel FsSpec FsProofs FsOps FsExtract
  MetaModel MetaSpec MetaProofs DbModel DbSpec DbLoad DbOps DbRun DbInv EngineFs EngineRoot DbFacts DbProps DbExamples RemoveProps RemoveCmdProofs CreateModel CreateProps
  QueryModel QueryProps.
From Coq Require Import NArith.

Definition build_steps : list act := [Create true None [Put false gcc; Put true lib]; Cmd (Add simple false None doc); Create true None [Clear; Made foo]].
Definition built : disk := w_db (performs false mach pfx quiet rt build_steps (World f_empty [])).
Theorem C66_case : Forall (fun o => Forall no_dot_name (act_archives o)) build_steps /\ keys built = [L "foo"; L "gcc"] /\
  lists built (L "foo") (L "usr/bin/") /\ lists built (L "gcc") (L "usr/bin/") /\ lists built (L "foo") (L "usr/bin/tool") /\ lists built (L "gcc") (L "usr/bin/gcc").
Proof.
  assert (F : forall x, lists built (L "foo") x <-> In x [L "usr/"; L "usr/bin/"; L "usr/bin/tool"; L "usr/foo.txt"]) by (intro x; apply files_of_lists; vm_compute; reflexivity).
  assert (B : forall x, lists built (L "gcc") x <-> In x [L "usr/"; L "usr/bin/"; L "usr/bin/gcc"]) by (intro x; apply files_of_lists; vm_compute; reflexivity).
  split.
  { assert (G : no_dot_name gcc /\ no_dot_name lib /\ no_dot_name doc) by (split; [no_dot|split; no_dot]). destruct G as (G1 & G2 & G3).
    constructor; [|constructor; [|constructor; [|constructor]]]; cbn [act_archives op_archives flat_map step_archives List.app];
      repeat (constructor; [first [exact G1|exact G2|exact G3|exact foo_no_dot]|]); constructor. }
  split; [vm_compute; reflexivity|]. rewrite !F, !B. cbn [In]. split; [tauto|]. split; [tauto|]. split; tauto.
Qed.
(** C59: a stray meta file at the root goes, whatever is asked, and nothing else *)
Definition stray : world := World (fset [L ".META"] (reg (L "left over")) f_empty) q_db.
Theorem C59_case : tree (w_fs stray) /\ fget (w_fs stray) [L ".META"] <> None /\
  let w' := snd (asked (Owner (L "/usr/lib/")) stray) in fget (w_fs w') [L ".META"] = None /\ w_db w' = q_db /\ In [L ".META"] meta_comps.
Proof.
  split; [apply treeb_tree; vm_compute; reflexivity|]. split; [vm_compute; discriminate|]. cbv zeta. split; [vm_compute; reflexivity|].
  split; [reflexivity|]. vm_compute. tauto.
Qed.
