(** Non-trivial cases for C19-C21, and the inputs on which the full statements fail. *)
From Verif Require Import Base BaseProofs StrModel StrSpec RulesModel RulesSpec FsModel FsSpec FsProofs MetaModel DbModel DbSpec DbInv DbFacts DbProps RemoveProps AddRun DbExamples Graph RemoveCmd RemoveCmdProofs RemoveCmdProps.

Definition mk (name : str) (lines : list str) : archive :=
  pkg ([("N"%char :: name); L "V1"; L "ax86_64"; L "r1"] ++ lines) [(L "usr/", dirn); (L "usr/" ++ name, reg name)].
Definition add1 (auto : bool) (a : archive) (w : world) : world := snd (ses (Add simple auto None a) w).
(** deciding the vocabulary on a concrete database *)
Definition meta_hasb (d : disk) (n l : str) : bool := smem l (disk_lines d n).
Lemma meta_hasb_spec d n l : meta_hasb d n l = true <-> meta_has d n l.
Proof. unfold meta_hasb. rewrite smem_In. apply disk_lines_In. Qed.
Lemma has_meta d n l : meta_hasb d n l = true -> meta_has d n l. Proof. apply meta_hasb_spec. Qed.
Lemma has_no_meta d n l : meta_hasb d n l = false -> ~ meta_has d n l. Proof. intros H K. apply meta_hasb_spec in K. congruence. Qed.
Definition installedb (d : disk) (n : str) : bool := nondot n && match mget n d with Some _ => true | None => false end.
Lemma is_installed d n : installedb d n = true -> installed d n.
Proof. intro H. apply andb_true_iff in H as [A B]. split; [refine (proj1 (nondot_spec n) A)|]. destruct (mget n d); [discriminate|discriminate B]. Qed.
Lemma needs_line d n k t : length t = 10 -> meta_hasb d n ("R"%char :: k ++ t) = true -> needs d n k.
Proof. intros T H. exists ("R"%char :: k ++ t). split; [apply meta_hasb_spec, H|]. left. exists t. auto. Qed.
Ltac dec := vm_compute; reflexivity.

(** app (manual) needs lib (automatic); old (automatic) is needed by nobody *)
Definition lib1 := mk (L "lib") [L "cmain"].
Definition app1 := mk (L "app") [L "cmain"; L "Rlib1700000000"].
Definition old1 := mk (L "old") [L "cmain"].
Definition w_app : world := add1 true old1 (add1 false app1 (add1 true lib1 w_empty)).
Notation rmc force groups := (remove_cmd false quiet rt false None force groups).
Lemma lib_wanted : wanted (w_db w_app) (L "lib").
Proof.
  exists (L "app"). split; [apply is_installed; dec|]. split; [apply has_no_meta; dec|].
  apply na_step with (L "lib"); [refine (proj1 (nondot_spec (L "app")) _); reflexivity| |constructor]. apply needs_line with (t := L "1700000000"); [reflexivity|dec].
Qed.
Example C19_case : wanted (w_db w_app) (L "lib") /\ (forall x, group_package [L "lib"; L "devel"] x (L "lib") -> installed (w_db w_app) x -> wanted (w_db w_app) x) /\
  fst (rmc false [L "lib"; L "devel"] [] w_app) = None /\ installed (w_db w_app) (L "old") /\ mget (L "old") (w_db (snd (rmc false [L "lib"; L "devel"] [] w_app))) = None /\
  mget (L "lib") (w_db (snd (rmc false [L "lib"; L "devel"] [] w_app))) = mget (L "lib") (w_db w_app).
Proof.
  split; [apply lib_wanted|]. split.
  { intros x [g [[<-|[<-|[]]] [N E]]] _; [elim N; reflexivity|]. exfalso. apply (f_equal (@rev ascii)) in E. rewrite !rev_app_distr in E. discriminate. }
  split; [dec|]. split; [apply is_installed; dec|]. split; [dec|]. dec.
Qed.
(** the manually installed package app.devel disappears with the obsolete package app *)
Definition dev1 := mk (L "old.devel") [L "cmain"; L "gdevel"].
Definition w_dev : world := add1 false dev1 (add1 true old1 w_empty).
Theorem C19_group_refuted : exists w n, wanted (w_db w) n /\ installed (w_db w) n /\ ~ automatic (w_db w) n /\
  fst (rmc false [L "devel"] [] w) = None /\ mget n (w_db (snd (rmc false [L "devel"] [] w))) = None.
Proof.
  exists w_dev, (L "old.devel"). assert (I : installed (w_db w_dev) (L "old.devel")) by (apply is_installed; dec).
  assert (A : ~ automatic (w_db w_dev) (L "old.devel")) by (apply has_no_meta; dec). split; [exists (L "old.devel"); split; [exact I|split; [exact A|constructor]]|].
  split; [exact I|]. split; [exact A|]. split; dec.
Qed.
(** a manually installed package needs the alias of an automatic one: the provider is removed *)
Definition prov1 := mk (L "provider") [L "cmain"; L "Avirtual"].
Definition user1 := mk (L "user") [L "cmain"; L "Rvirtual1700000000"].
Definition w_alias : world := add1 false user1 (add1 true prov1 w_empty).
Theorem C19_alias_refuted : exists w u v n, installed (w_db w) u /\ ~ automatic (w_db w) u /\ needs (w_db w) u v /\ meta_has (w_db w) n ("A"%char :: v) /\
  installed (w_db w) n /\ fst (rmc false [] [] w) = None /\ mget n (w_db (snd (rmc false [] [] w))) = None.
Proof.
  exists w_alias, (L "user"), (L "virtual"), (L "provider"). split; [apply is_installed; dec|]. split; [apply has_no_meta; dec|].
  split; [apply needs_line with (t := L "1700000000"); [reflexivity|dec]|]. split; [apply has_meta; dec|]. split; [apply is_installed; dec|]. split; dec.
Qed.

Example C20_case : installed (w_db w_app) (L "app") /\ needs (w_db w_app) (L "app") (L "lib") /\ fst (rmc true [] [L "lib"] w_app) = Some (InUse (L "lib")).
Proof. split; [apply is_installed; dec|]. split; [apply needs_line with (t := L "1700000000"); [reflexivity|dec]|dec]. Qed.
(** the argument is an alias of a package in use *)
Definition app2 := mk (L "app2") [L "cmain"; L "Rprovider1700000000"].
Definition w_inuse : world := add1 false app2 (add1 false prov1 w_empty).
Theorem C20_alias_refuted : exists w n p i, installed (w_db w) n /\ needs (w_db w) n p /\ installed (w_db w) p /\ meta_has (w_db w) p ("A"%char :: i) /\
  fst (rmc false [] [i] w) = None /\ mget p (w_db (snd (rmc false [] [i] w))) = None /\ mget n (w_db (snd (rmc false [] [i] w))) = mget n (w_db w).
Proof.
  exists w_inuse, (L "app2"), (L "provider"), (L "virtual"). split; [apply is_installed; dec|]. split; [apply needs_line with (t := L "1700000000"); [reflexivity|dec]|].
  split; [apply is_installed; dec|]. split; [apply has_meta; dec|]. split; [dec|]. split; dec.
Qed.
(** the argument is the collection of a package in use *)
Definition lib3 := mk (L "lib3") [L "cextra"].
Definition app3 := mk (L "app3") [L "cmain"; L "Rlib31700000000"].
Definition w_coll : world := add1 false app3 (add1 false lib3 w_empty).
Theorem C20_collection_refuted : exists w n p i, installed (w_db w) n /\ needs (w_db w) n p /\ installed (w_db w) p /\ meta_has (w_db w) p ("c"%char :: i) /\ ~ meta_has (w_db w) n ("c"%char :: i) /\
  fst (rmc false [] [i] w) = None /\ mget p (w_db (snd (rmc false [] [i] w))) = None /\ mget n (w_db (snd (rmc false [] [i] w))) = mget n (w_db w).
Proof.
  exists w_coll, (L "app3"), (L "lib3"), (L "extra"). split; [apply is_installed; dec|]. split; [apply needs_line with (t := L "1700000000"); [reflexivity|dec]|].
  split; [apply is_installed; dec|]. split; [apply has_meta; dec|]. split; [apply has_no_meta; dec|]. split; [dec|]. split; dec.
Qed.
(** an empty argument is the group of every package without group: everything is removed *)
Theorem C20_empty_argument_refuted : exists w, installed (w_db w) (L "app") /\ needs (w_db w) (L "app") (L "lib") /\ installed (w_db w) (L "lib") /\
  fst (rmc false [] [[]] w) = None /\ w_db (snd (rmc false [] [[]] w)) = [].
Proof.
  exists w_app. split; [apply is_installed; dec|]. split; [apply needs_line with (t := L "1700000000"); [reflexivity|dec]|]. split; [apply is_installed; dec|]. split; dec.
Qed.

(** C21 *)
Definition glibc1 := mk (L "glibc") [L "cbase"; L "Alibc"].
Definition w_base : world := add1 false app1 (add1 true lib1 (add1 false glibc1 w_empty)).
Lemma base_ok d n : forallb (fun s => negb (has_tag "c" s) || seqb s (L "cbase")) (disk_lines d n) = true -> meta_hasb d n (L "cbase") = true -> base_package d n.
Proof.
  intros H B. split; [apply meta_hasb_spec, B|]. intros v M. apply disk_lines_In in M. rewrite forallb_forall in H. specialize (H _ M). cbn [has_tag] in H. rewrite ceqb_refl in H. cbn [negb orb] in H.
  apply seqb_eq in H. change (L "cbase") with ("c"%char :: L "base") in H. congruence.
Qed.
Lemma no_dot_group n groups : forallb (fun c => negb (ceqb c "."%char)) n = true -> forall x, ~ group_package groups x n.
Proof.
  intros H x [g [_ [_ E]]]. rewrite forallb_forall in H. specialize (H "."%char). rewrite ceqb_refl in H. discriminate H. rewrite E. apply in_app_iff. right. left. reflexivity.
Qed.
Example C21_case : base_package (w_db w_base) (L "glibc") /\ installed (w_db w_base) (L "glibc") /\ ~ automatic (w_db w_base) (L "glibc") /\
  (forall x, ~ group_package [L "devel"] x (L "glibc")) /\ fst (rmc false [L "devel"] [L "glibc"; L "app"] w_base) <> None /\
  mget (L "glibc") (w_db (snd (rmc true [L "devel"] [L "glibc"; L "app"] w_base))) = None.
Proof.
  split; [apply base_ok; dec|]. split; [apply is_installed; dec|]. split; [apply has_no_meta; dec|]. split; [apply no_dot_group; dec|]. split; [|dec]. vm_compute. discriminate.
Qed.
(** the name given is an alias of the base package: its collection is looked up under the alias, found empty, and it is removed *)
Theorem C21_alias_refuted : exists w n i, base_package (w_db w) n /\ installed (w_db w) n /\ ~ automatic (w_db w) n /\ meta_has (w_db w) n ("A"%char :: i) /\
  fst (rmc false [] [i] w) = None /\ mget n (w_db (snd (rmc false [] [i] w))) = None.
Proof.
  exists w_base, (L "glibc"), (L "libc"). split; [apply base_ok; dec|]. split; [apply is_installed; dec|]. split; [apply has_no_meta; dec|]. split; [apply has_meta; dec|]. split; dec.
Qed.
(** an automatic base package nobody needs is removed by any call, even without argument *)
Definition w_autobase : world := add1 true glibc1 w_empty.
Theorem C21_automatic_refuted : exists w n, base_package (w_db w) n /\ installed (w_db w) n /\
  fst (rmc false [] [] w) = None /\ mget n (w_db (snd (rmc false [] [] w))) = None.
Proof. exists w_autobase, (L "glibc"). split; [apply base_ok; dec|]. split; [apply is_installed; dec|]. split; dec. Qed.
(** a base package with the name of a group package goes with the package it is named after *)
Definition bdev1 := mk (L "old.devel") [L "cbase"].
Definition w_bdev : world := add1 false bdev1 (add1 false old1 w_empty).
Theorem C21_group_refuted : exists w n i, base_package (w_db w) n /\ installed (w_db w) n /\ ~ automatic (w_db w) n /\ n <> i /\
  fst (rmc false [L "devel"] [i] w) = None /\ mget n (w_db (snd (rmc false [L "devel"] [i] w))) = None.
Proof.
  exists w_bdev, (L "old.devel"), (L "old"). split; [apply base_ok; dec|]. split; [apply is_installed; dec|]. split; [apply has_no_meta; dec|]. split; [discriminate|]. split; dec.
Qed.
(** The record re-created by pkgdbh.cxx:912 has an uninitialised "automatic" flag. When it reads true, the second phase of the command
    (remove.cxx:101-134) takes it for an obsolete package and fails on it, although the removal itself was done. *)
Example ghost_record : fst (remove_cmd true quiet rt false None false [] [L "app"] w_app) = Some (Engine NotInstalled) /\
  mget (L "app") (w_db (snd (remove_cmd true quiet rt false None false [] [L "app"] w_app))) = None /\
  fst (remove_cmd false quiet rt false None false [] [L "app"] w_app) = None.
Proof. split; [|split]; dec. Qed.
