(** C120: a case that meets the hypotheses, and the exception. *)
From Verif Require Import Base BaseProofs StrModel StrSpec StrProofs RulesModel RulesSpec RulesProofs FsModel FsSpec FsProofs MetaModel MetaSpec MetaProofs DbModel DbSpec DbLoad DbOps DbRun DbInv DbFacts DbProps EngineFs EngineWay AddRun AddProps
  ManyRun ManyMeta ManyFiles DbExamples DisturbProps DbCases RemoveCmdExamples InstallExamples UpgradeExamples TransExamples ManyOrder.
From Coq Require Import Permutation.
Notation ses := (session false mach pfx quiet rt).
Notation his := (history false mach pfx quiet rt).
Notation many l := (Many false false None l []).
Lemma foo_name : archive_name foo (L "foo").
Proof. assert (O : exists r, open_archive false mach rt foo = Ok (L "foo", r)) by (vm_compute; eauto). destruct O as [r O]. apply open_name in O. exact (proj1 O). Qed.
Lemma bar0_name : archive_name bar0 (L "bar").
Proof. assert (O : exists r, open_archive false mach rt bar0 = Ok (L "bar", r)) by (vm_compute; eauto). destruct O as [r O]. apply open_name in O. exact (proj1 O). Qed.
Definition two : list (bool * archive) := [(false, foo); (true, bar0)].
Definition two' : list (bool * archive) := [(true, bar0); (false, foo)].
Definition w_two : world := snd (ses (many two) w_empty).
Definition w_two' : world := snd (ses (many two') w_empty).
Theorem C120_case : ends_slash rt = true /\ comps rt = [] /\ Permutation two two' /\ tidies two /\ distinct two /\ tidy_world w_empty /\
  ses (many two) w_empty = (None, w_two) /\ ses (many two') w_empty = (None, w_two') /\
  map fst (w_db w_two) = [L "bar"; L "foo"] /\ automatic (w_db w_two) (L "bar") /\
  fget (w_fs w_two') (comps (L "usr/foo.txt")) = fget (w_fs w_two) (comps (L "usr/foo.txt")) /\ fget (w_fs w_two) (comps (L "usr/foo.txt")) = Some (reg (L "about foo")).
Proof.
  assert (P : Permutation two two') by (apply perm_swap).
  assert (T : tidies two).
  { intros sd a [H|[H|[]]]; injection H as <- <-; eexists; [unfold foo|unfold bar0]; eapply pkg_tidy; vm_compute; reflexivity. }
  assert (D : distinct two).
  { apply unlike_distinct. split; [|split; [|exact Logic.I]].
    - intros q n [<-|[]] H H'. cbn [snd] in H, H'. pose proof (archive_name_unique _ _ _ H foo_name) as E1. pose proof (archive_name_unique _ _ _ H' bar0_name) as E2. subst n. discriminate E2.
    - intros q n []. }
  assert (R1 : ses (many two) w_empty = (None, w_two)) by (vm_compute; reflexivity).
  assert (R2 : ses (many two') w_empty = (None, w_two')) by (vm_compute; reflexivity).
  split; [reflexivity|]. split; [reflexivity|]. split; [exact P|]. split; [exact T|]. split; [exact D|]. split; [exact empty_tidy|]. split; [exact R1|]. split; [exact R2|].
  split; [vm_compute; reflexivity|]. split; [apply has_meta; vm_compute; reflexivity|].
  apply (C120_files mach pfx quiet rt eq_refl eq_refl None two two' w_empty w_two w_two' false foo (L "foo") (L "usr/foo.txt") (reg (L "about foo")) P T D empty_tidy R1 R2).
  - left. reflexivity.
  - exact foo_name.
  - vm_compute. tauto.
  - vm_compute. discriminate.
  - apply fileb_file. vm_compute. reflexivity.
  - apply tidyb_tidy. vm_compute. reflexivity.
  - apply norejb_spec. vm_compute. reflexivity.
  - eapply one_nameb_spec; [opened|vm_compute; reflexivity].
  - apply listsb_lists; [vm_compute; reflexivity|discriminate].
  - apply onceb_once. vm_compute. reflexivity.
  - intros sd' b k [H|[H|[]]] Ab Nk; injection H as <- <-; [exfalso; apply Nk, (archive_name_unique _ _ _ Ab foo_name)|]. eapply avoidsb_avoids; [opened|vm_compute; reflexivity].
  - intros rules _ Er V. vm_compute in Er. injection Er as <-. exact (no_rules _ _ V).
  - apply wayb_way. vm_compute. reflexivity.
  - intros [z [Z1 Z2]]. vm_compute in Z1. discriminate Z1.
Qed.
(** A file moves from one package to another: its old owner has to come first. *)
Definition giver : archive := pkg [L "Ngiver"; L "V1"; L "ax86_64"; L "r1"] [(L "usr/", dirn); (L "usr/moved", reg (L "old"))].
Definition giver2 : archive := pkg [L "Ngiver"; L "V2"; L "ax86_64"; L "r1"] [(L "usr/", dirn); (L "usr/other", reg (L "o"))].
Definition taker : archive := pkg [L "Ntaker"; L "V1"; L "ax86_64"; L "r1"] [(L "usr/", dirn); (L "usr/moved", reg (L "new"))].
Definition w_giver : world := his [Add simple false None giver] w_empty.
Theorem C120_moved_refuted : Permutation [(false, giver2); (false, taker)] [(false, taker); (false, giver2)] /\
  fst (ses (many [(false, giver2); (false, taker)]) w_giver) = None /\
  fget (w_fs (snd (ses (many [(false, giver2); (false, taker)]) w_giver))) [L "usr"; L "moved"] = Some (reg (L "new")) /\
  fst (ses (many [(false, taker); (false, giver2)]) w_giver) = Some (Conflict [L "usr/moved"]) /\
  mget (L "taker") (w_db (snd (ses (many [(false, taker); (false, giver2)]) w_giver))) = None.
Proof. split; [apply perm_swap|]. split; [vm_compute; reflexivity|]. split; [vm_compute; reflexivity|]. split; vm_compute; reflexivity. Qed.
