(** C118: a case that meets the hypotheses, and the reason for the last of them. *)
From Verif Require Import Base BaseProofs StrModel StrSpec StrProofs RulesModel RulesSpec RulesProofs FsModel FsSpec FsProofs MetaModel MetaSpec MetaProofs DbModel DbSpec DbLoad DbOps DbRun DbInv DbFacts DbProps AddRun AddProps
  ManyRun ManyMeta DbExamples DisturbProps DbCases RemoveCmdExamples InstallExamples ManySplit.
Notation ses := (session false mach pfx quiet rt).
Definition many (l : list (bool * archive)) : op := Many false false None l [].
Definition w_one : world := snd (ses (many [(false, foo)]) w_empty).
Definition w_alias : world := snd (ses (many [(false, bar)]) w_empty).
Lemma known_by d m n : load false d = Ok m -> (known d n <-> name_exists m n = true).
Proof. intro Lo. symmetry. exact (name_exists_known false d m n Lo). Qed.
Lemma both_unknown d m d' m' n : load false d = Ok m -> load false d' = Ok m' -> name_exists m n = false -> name_exists m' n = false -> (known d n <-> known d' n).
Proof. intros L1 L2 N1 N2. rewrite (known_by _ _ n L1), (known_by _ _ n L2), N1, N2. tauto. Qed.
Theorem C118_case : tidies [(false, foo)] /\ tidy_world w_empty /\ ses (many [(false, foo)]) w_empty = (None, w_one) /\ no_leftover rt (w_fs w_one) /\
  (exists m, load false (w_db w_one) = Ok m) /\
  (forall sd b n, In (sd, b) [(true, bar0)] -> archive_name b n ->
     (forall sd' a, In (sd', a) [(false, foo)] -> ~ archive_name a n) /\ (known (w_db w_one) n <-> known (w_db w_empty) n)) /\
  exists w2, ses (many ([(false, foo)] ++ [(true, bar0)])) w_empty = (None, w2) /\ ses (many [(true, bar0)]) w_one = (None, w2) /\
    map fst (w_db w2) = [L "bar"; L "foo"] /\ automatic (w_db w2) (L "bar").
Proof.
  assert (Nf : archive_name foo (L "foo")).
  { assert (O : exists r, open_archive false mach rt foo = Ok (L "foo", r)) by (vm_compute; eauto). destruct O as [r O]. apply open_name in O. exact (proj1 O). }
  assert (Nb : archive_name bar0 (L "bar")).
  { assert (O : exists r, open_archive false mach rt bar0 = Ok (L "bar", r)) by (vm_compute; eauto). destruct O as [r O]. apply open_name in O. exact (proj1 O). }
  split.
  { intros sd a [H|[]]. injection H as <- <-. eexists. unfold foo. eapply pkg_tidy; vm_compute; reflexivity. }
  split; [exact empty_tidy|]. split; [vm_compute; reflexivity|].
  split; [intros m M; unfold meta_files in M; cbn [In] in M; decompose [or] M; subst; try contradiction; vm_compute; reflexivity|].
  split; [eexists; vm_compute; reflexivity|].
  split.
  { intros sd b n [H|[]] An. injection H as <- <-. assert (n = L "bar") as -> by (eapply archive_name_unique; eassumption). split.
    - intros sd' a [H|[]] Aa. injection H as <- <-. pose proof (archive_name_unique _ _ _ Aa Nf) as E. discriminate E.
    - assert (E : exists m m', load false (w_db w_one) = Ok m /\ load false (w_db w_empty) = Ok m' /\ name_exists m (L "bar") = false /\ name_exists m' (L "bar") = false) by (do 2 eexists; split; [|split; [|split]]; vm_compute; reflexivity).
      destruct E as (m & m' & L1 & L2 & N1 & N2). exact (both_unknown _ _ _ _ _ L1 L2 N1 N2). }
  eexists. split; [vm_compute; reflexivity|]. split; [vm_compute; reflexivity|]. split; [vm_compute; reflexivity|]. apply has_meta. vm_compute. reflexivity.
Qed.
(** Without the last hypothesis it is false.  bar also answers to foobar: in one command the package foobar is installed next to it, in a second command it counts
    as installed already, so it is upgraded: its files are never installed and the command ends with an error. *)
Theorem C118_alias_refuted : ses (many [(false, bar)]) w_empty = (None, w_alias) /\ known (w_db w_alias) (L "foobar") /\ ~ known (w_db w_empty) (L "foobar") /\
  fst (ses (many ([(false, bar)] ++ [(false, foobar)])) w_empty) = None /\
  map fst (w_db (snd (ses (many ([(false, bar)] ++ [(false, foobar)])) w_empty))) = [L "bar"; L "foobar"] /\
  fst (ses (many [(false, foobar)]) w_alias) <> None /\ mget (L "foobar") (w_db (snd (ses (many [(false, foobar)]) w_alias))) = None.
Proof.
  split; [vm_compute; reflexivity|].
  split. { assert (E : exists m, load false (w_db w_alias) = Ok m /\ name_exists m (L "foobar") = true) by (eexists; split; vm_compute; reflexivity). destruct E as (m & Lo & N). apply (known_by _ _ _ Lo). exact N. }
  split. { assert (E : exists m, load false (w_db w_empty) = Ok m /\ name_exists m (L "foobar") = false) by (eexists; split; vm_compute; reflexivity). destruct E as (m & Lo & N). rewrite (known_by _ _ _ Lo), N. discriminate. }
  split; [vm_compute; reflexivity|]. split; [vm_compute; reflexivity|]. split; [vm_compute; discriminate|vm_compute; reflexivity].
Qed.
(** The same package twice: foo, installed as a dependency, keeps its automatic mark when two versions come in two commands; in one command the second version loses it,
    since the memory holds what the first archive said of itself. *)
Definition w_dep : world := snd (ses (Add simple true None foo) w_empty).
Definition w_dep2 : world := snd (ses (many [(false, foo2)]) w_dep).
Theorem C118_twice_refuted : automatic (w_db w_dep) (L "foo") /\ ses (many [(false, foo2)]) w_dep = (None, w_dep2) /\ (known (w_db w_dep2) (L "foo") <-> known (w_db w_dep) (L "foo")) /\
  (exists w1, ses (many ([(false, foo2)] ++ [(false, foo)])) w_dep = (None, w1) /\ ~ automatic (w_db w1) (L "foo")) /\
  (exists w2, ses (many [(false, foo)]) w_dep2 = (None, w2) /\ automatic (w_db w2) (L "foo")).
Proof.
  assert (F : forall w, meta_hasb (w_db w) (L "foo") (L "d1") = false -> ~ automatic (w_db w) (L "foo")).
  { intros w H A. apply meta_hasb_spec in A. rewrite H in A. discriminate A. }
  split; [apply has_meta; vm_compute; reflexivity|]. split; [vm_compute; reflexivity|].
  split.
  { assert (E : exists m m', load false (w_db w_dep2) = Ok m /\ load false (w_db w_dep) = Ok m' /\ name_exists m (L "foo") = true /\ name_exists m' (L "foo") = true) by (do 2 eexists; split; [|split; [|split]]; vm_compute; reflexivity).
    destruct E as (m & m' & L1 & L2 & N1 & N2). rewrite (known_by _ _ _ L1), (known_by _ _ _ L2), N1, N2. tauto. }
  split.
  - eexists. split; [vm_compute; reflexivity|]. apply F. vm_compute. reflexivity.
  - eexists. split; [vm_compute; reflexivity|]. apply has_meta. vm_compute. reflexivity.
Qed.
