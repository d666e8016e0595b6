(** Property C99: what pkgrm says about the package and the files it removes. *)
From Verif Require Import Base BaseProofs StrModel StrSpec StrProofs RulesModel RulesSpec RulesProofs FsModel FsSpec FsProofs FsOps FsExtract
  MetaModel MetaSpec MetaProofs DbModel DbSpec DbLoad DbOps DbRun DbInv EngineFs EngineRoot EngineWay DbFacts DbProps RemoveProps AddRun DbExamples
  AddProps UpgradeProps UpgradeExamples Graph RemoveCmd RemoveCmdProofs RmSaidModel.

Section RmSaidProps.
  Variables (junk : bool) (machine : str) (re : str -> str -> option bool) (sh : str -> fs -> fs * bool) (root : str).
  Hypothesis Rs : ends_slash root = true.
  Notation session := (session junk machine re sh root).
  Notation remove_said := (remove_said junk sh root).
  Notation R := (comps root).

  Lemma root_comps x : comps (root ++ x) = R ++ comps x.
  Proof. exact (comps_root root Rs x). Qed.
  (** a failed deletion changes nothing and is reported; a successful one leaves nothing *)
  Lemma del_one_said f x cs : plain x cs -> fits root f x ->
    (exists_file f (root ++ x) && negb (fst (rm f (root ++ x))) = true <-> fget (del_one root f x) (R ++ cs) <> None).
  Proof.
    intros P F. destruct (fget f (R ++ cs)) as [n|] eqn:G.
    - pose proof (lstat_fits root Rs f x cs n P F G) as LS. unfold del_one, exists_file. rewrite LS. cbn [andb].
      destruct (rm f (root ++ x)) as [b g] eqn:E. cbn [fst snd]. apply rm_spec in E as [[-> ->]|[-> [-> _]]]; cbn [negb].
      + rewrite G. split; [discriminate|reflexivity].
      + rewrite root_comps, (plain_comps _ _ P), fget_fdel_same. split; [discriminate|congruence].
    - assert (Z : fget (del_one root f x) (R ++ cs) = None) by (destruct (del_one_sub root Rs f x (R ++ cs)) as [H|H]; congruence).
      rewrite Z. split; [|congruence]. unfold exists_file, lstat. rewrite root_comps, (plain_comps _ _ P), G. cbn [andb]. discriminate.
  Qed.
  (** what is left after a failed deletion stays: the later names are not below it *)
  Lemma del_fold_stays xs : forall f y cs, tree f -> plain y cs -> (forall x, In x xs -> (exists cs, plain x cs) /\ fits root f x /\ slt x y) ->
    (exists q, below (R ++ cs) q /\ fget f q <> None) -> exists q, below (R ++ cs) q /\ fget (fold_left (del_one root) xs f) q <> None.
  Proof.
    intros f y cs T Py H [q [B N]]. exists q. split; [exact B|]. rewrite (del_fold_frame root Rs); [exact N|]. intros z Iz Z.
    destruct (H z Iz) as [[zs Pz] [_ Lt]]. rewrite (plain_comps _ _ Pz) in Z. rewrite Z in B. apply below_app_inv in B.
    pose proof (plain_below_slt _ _ _ _ Py Pz B) as Lt'. apply (slt_irrefl y). eapply slt_trans; eauto.
  Qed.
  Lemma del_said_fold xs : forall f, tree f -> (forall x, In x xs -> exists cs, plain x cs) -> (forall x, In x xs -> fits root f x) ->
    NoDup xs -> StronglySorted (fun a b => slt b a) xs ->
    forall x, In x (del_said root xs f) <-> In x xs /\ fget (fold_left (del_one root) xs f) (R ++ comps x) <> None.
  Proof.
    induction xs as [|y xs IH]; intros f T P F ND SS x; [cbn [del_said In]; tauto|]. cbn [del_said fold_left].
    inversion ND as [|? ? N1 N2]; subst. inversion SS as [|? ? S1 S2]; subst. rewrite in_app_iff.
    rewrite (IH (del_one root f y)); [|apply (del_one_tree root), T|intros z Iz; apply P; right; exact Iz| |exact N2|exact S1].
    2:{ intros z Iz. eapply (fits_sub root); [apply (del_one_sub root Rs)|]. apply F. right. exact Iz. }
    destruct (P y (or_introl eq_refl)) as [cs Py]. pose proof (del_one_said f y cs Py (F y (or_introl eq_refl))) as SD.
    cbn [In]. assert (X : In x (if exists_file f (root ++ y) && negb (fst (rm f (root ++ y))) then [y] else []) <->
      x = y /\ fget (fold_left (del_one root) xs (del_one root f y)) (R ++ cs) <> None).
    { destruct (exists_file f (root ++ y) && negb (fst (rm f (root ++ y)))) eqn:B; cbn [In].
      - destruct (del_one_gone root Rs f y cs Py (F y (or_introl eq_refl))) as [H|[D [C E]]]; [apply proj1 in SD; specialize (SD eq_refl); contradiction|].
        rewrite E. split; [intros [<-|[]]; split; [reflexivity|]|intros [-> _]; auto]. apply has_child_spec in C.
        destruct (del_fold_stays xs f y cs T Py) as [q [Bq Nq]].
        + intros z Iz. split; [apply P; right; exact Iz|]. split; [apply F; right; exact Iz|]. rewrite Forall_forall in S2. exact (S2 z Iz).
        + exact C.
        + destruct (tree_below _ _ q (del_fold_tree root xs f T) Nq Bq) as [o [O1 _]]. congruence.
      - split; [intros []|]. intros [_ N]. exfalso. assert (Z : fget (del_one root f y) (R ++ cs) = None).
        { destruct (fget (del_one root f y) (R ++ cs)) eqn:G; [|reflexivity]. exfalso. assert (false = true); [apply SD; discriminate|discriminate]. }
        destruct (del_fold_sub root Rs xs (del_one root f y) (R ++ cs)) as [K|K]; congruence. }
    rewrite X. split.
    - intros [[-> N]|[I N]]; [split; [auto|rewrite (plain_comps _ _ Py); exact N]|split; [auto|exact N]].
    - intros [[<-|I] N]; [left; split; [reflexivity|rewrite (plain_comps _ _ Py) in N; exact N]|right; auto].
  Qed.
  Lemma del_said_sub xs : forall f x, In x (del_said root xs f) -> In x xs.
  Proof.
    induction xs as [|y xs IH]; intros f x I; [destruct I|]. cbn [del_said] in I. apply in_app_iff in I as [I|I]; [|right; exact (IH _ _ I)].
    destruct (_ && _); [destruct I as [<-|[]]; left; reflexivity|destruct I].
  Qed.
  Lemma del_said_sorted xs : forall f, StronglySorted (fun a b => slt b a) xs -> StronglySorted (fun a b => slt b a) (del_said root xs f).
  Proof.
    induction xs as [|y xs IH]; intros f H; [constructor|]. inversion H as [|? ? S1 S2]; subst. cbn [del_said].
    destruct (_ && _); cbn [app]; [|exact (IH _ S1)]. constructor; [exact (IH _ S1)|]. rewrite Forall_forall in *. intros z Iz. apply S2. eapply del_said_sub, Iz.
  Qed.
  Lemma remove_said_run scripts conf name w w' : nodot name -> no_rm_scripts scripts (w_db w) name -> session (Remove scripts conf name) w = (None, w') ->
    exists l, ssorted l /\ (forall x, In x l <-> lists_alone (w_db w) name x) /\ w_fs w' = del_files root l (cleanup_meta (w_fs w) root) /\
      remove_said scripts conf name w = Some (Removal (disk_item (w_db w) name "c") name (disk_item (w_db w) name "V") (disk_item (w_db w) name "r") (length l)
        (del_said root (rev l) (cleanup_meta (w_fs w) root))).
  Proof.
    intros Nd NS E. destruct (rm_session_full junk machine re sh root scripts conf name w w' Nd NS E) as (l & A & B & C & _ & _ & m & Lo & Nx & [rules Er] & El).
    exists l. split; [exact A|]. split; [exact B|]. split; [exact C|]. unfold RmSaidModel.remove_said. cbn [w_db w_fs]. rewrite Lo, Er, Nx. cbn [negb].
    assert (S0 : (if scripts then match match mget name (w_db w) with Some d => mget (L "PRER") d | None => None end with
                     | Some s => let (g, b) := sh s (cleanup_meta (w_fs w) root) in if b then Some (World g (w_db w)) else None
                     | None => Some (World (cleanup_meta (w_fs w) root) (w_db w)) end else Some (World (cleanup_meta (w_fs w) root) (w_db w))) =
                 Some (World (cleanup_meta (w_fs w) root) (w_db w))).
    { destruct scripts; [|reflexivity]. destruct NS as [NS|NS]; [discriminate|]. destruct (mget name (w_db w)) as [dir|] eqn:G; [|reflexivity].
      destruct (NS dir eq_refl) as [-> _]. reflexivity. }
    rewrite S0. unfold removal_said. cbn [w_db w_fs]. rewrite <- El. reflexivity.
  Qed.
  Lemma item_only d n c v : meta_has d n (c :: v) -> (forall u, meta_has d n (c :: u) -> u = v) -> disk_item d n c = v.
  Proof.
    intros H U. assert (In (c :: v) (disk_lines d n)) as I by (apply disk_lines_In, H).
    assert (U' : forall u, In (c :: u) (disk_lines d n) -> u = v) by (intros u Iu; apply U, disk_lines_In, Iu).
    unfold disk_item, tag_or_empty. clear H U. induction (disk_lines d n) as [|s ls IH]; [destruct I|]. cbn [first_tag].
    destruct s as [|k t].
    - destruct I as [I|I]; [discriminate|]. apply IH; [exact I|]. intros u Iu. apply U'. right. exact Iu.
    - destruct (ceqb k c) eqn:E.
      + apply ceqb_eq in E. subst k. apply U'. left. reflexivity.
      + destruct I as [I|I]; [inversion I; subst; rewrite ceqb_refl in E; discriminate|]. apply IH; [exact I|]. intros u Iu. apply U'. right. exact Iu.
  Qed.

  (** C99: the line names the package, its version, release and collection as recorded, and how many files only it lists *)
  Theorem C99_announced scripts conf name w w' : nodot name -> no_rm_scripts scripts (w_db w) name -> session (Remove scripts conf name) w = (None, w') ->
    exists r, remove_said scripts conf name w = Some r /\ h_name r = name /\
      (exists l, NoDup l /\ (forall x, In x l <-> lists_alone (w_db w) name x) /\ h_count r = length l) /\
      (forall v, meta_has (w_db w) name ("V"%char :: v) -> (forall u, meta_has (w_db w) name ("V"%char :: u) -> u = v) -> h_version r = v) /\
      (forall v, meta_has (w_db w) name ("r"%char :: v) -> (forall u, meta_has (w_db w) name ("r"%char :: u) -> u = v) -> h_release r = v) /\
      (forall v, meta_has (w_db w) name ("c"%char :: v) -> (forall u, meta_has (w_db w) name ("c"%char :: u) -> u = v) -> h_collection r = v).
  Proof.
    intros Nd NS E. destruct (remove_said_run scripts conf name w w' Nd NS E) as (l & A & B & _ & ->). eexists. split; [reflexivity|]. cbn [h_name h_count h_version h_release h_collection].
    split; [reflexivity|]. split; [exists l; split; [apply ssorted_NoDup, A|split; [exact B|reflexivity]]|].
    split; [|split]; intros v H U; apply item_only; auto.
  Qed.
  (** C99: 'could not remove' is said for exactly those names listed by this package alone that are still there afterwards *)
  Theorem C99_left scripts conf name w w' r : nodot name -> no_rm_scripts scripts (w_db w) name -> tree (w_fs w) ->
    session (Remove scripts conf name) w = (None, w') -> (forall y, lists (w_db w) name y -> well_spelled root (w_fs w) y) ->
    remove_said scripts conf name w = Some r ->
    (forall x, In x (h_stuck r) <-> lists_alone (w_db w) name x /\ fget (w_fs w') (R ++ comps x) <> None) /\
    StronglySorted (fun a b => slt b a) (h_stuck r).
  Proof.
    intros Nd NS T E W Er. destruct (remove_said_run scripts conf name w w' Nd NS E) as (l & A & B & C & D). rewrite D in Er. inversion Er; subst r. clear Er.
    cbn [h_stuck]. destruct (cleanup_spec (w_fs w) root T) as [T1 _]. split; [|apply del_said_sorted, rev_desc, A].
    intro x. rewrite del_said_fold; auto.
    - rewrite <- in_rev, B, C. unfold del_files. tauto.
    - intros y I. apply in_rev, B in I as [I _]. apply (W y I).
    - intros y I. apply in_rev, B in I as [I _]. apply spelled_fits; auto.
    - apply NoDup_rev, ssorted_NoDup, A.
    - apply rev_desc, A.
  Qed.
  (** C99: ... and those are directories in which something is left *)
  Theorem C99_left_directories scripts conf name w w' r x : nodot name -> no_rm_scripts scripts (w_db w) name -> tree (w_fs w) ->
    session (Remove scripts conf name) w = (None, w') -> (forall y, lists (w_db w) name y -> well_spelled root (w_fs w) y) ->
    remove_said scripts conf name w = Some r -> In x (h_stuck r) ->
    dir_at (w_fs w') (R ++ comps x) /\ exists q, below (R ++ comps x) q /\ fget (w_fs w') q <> None.
  Proof.
    intros Nd NS T E W Er I. destruct (C99_left scripts conf name w w' r Nd NS T E W Er) as [H _]. apply H in I as [La N].
    destruct (C05_gone junk machine re sh root Rs scripts conf name w w' x Nd NS T E W La) as [G|G]; [contradiction|exact G].
  Qed.
  (** C99: the deletions of an upgrade say nothing when the names are plain *)
  Theorem C99_upgrade_silent xs f : (forall x, In x xs -> exists cs, plain x cs) -> del_said_upgrade root xs f = [].
  Proof.
    revert f. induction xs as [|x xs IH]; intros f P; [reflexivity|]. cbn [del_said_upgrade]. destruct (P x (or_introl eq_refl)) as [cs Px].
    rewrite (last_dot_plain root Rs x cs Px), root_comps, (plain_comps _ _ Px). destruct (plain_comp _ _ Px) as [_ N].
    destruct (R ++ cs) as [|c t] eqn:Z; [apply app_eq_nil in Z as [_ Z]; congruence|]. rewrite orb_false_r, andb_false_r. cbn [app]. apply IH.
    intros y I. apply P. right. exact I.
  Qed.
End RmSaidProps.
(** C99: the percentages: no division by zero, never more than 100, never decreasing, 100 for the last *)
Theorem C99_percent n j : 1 <= j <= n -> n <> 0 /\ percent n j <= 100 /\ (forall i, i <= j -> percent n i <= percent n j) /\ percent n n = 100.
Proof.
  intros H. assert (N : n <> 0) by lia. unfold percent. split; [exact N|]. split; [|split].
  - apply Nat.div_le_upper_bound; nia.
  - intros i Hi. apply Nat.div_le_mono; [exact N|]. nia.
  - rewrite Nat.mul_comm. apply Nat.div_mul, N.
Qed.

(** *** a concrete case: someone put a file into the directory of the only package *)
Definition w_extra : world := World (fset [L "usr"; L "bin"; L "mine"] (reg (L "mine")) (w_fs w_foo)) (w_db w_foo).
Example C99_witness : nodot (L "foo") /\ no_rm_scripts false (w_db w_extra) (L "foo") /\ tree (w_fs w_extra) /\
  (exists w', ses (Remove false None (L "foo")) w_extra = (None, w') /\ fget (w_fs w') [L "usr"; L "bin"; L "mine"] = Some (reg (L "mine"))) /\
  (forall y, lists (w_db w_extra) (L "foo") y -> well_spelled rt (w_fs w_extra) y) /\
  remove_said false quiet rt false None (L "foo") w_extra = Some (Removal [] (L "foo") (L "1") (L "1") 4 [L "usr/bin/"; L "usr/"]).
Proof.
  split; [intros v; discriminate|]. split; [left; reflexivity|]. split; [apply treeb_tree; vm_compute; reflexivity|].
  split; [eexists; split; vm_compute; reflexivity|]. split; [|vm_compute; reflexivity].
  intros y H. pose proof (foo_well_spelled y H) as [Py _]. split; [exact Py|]. apply foo_lists in H.
  destruct H as [<-|[<-|[<-|[<-|[]]]]].
  - intros _ _. right. apply dirb_dir. vm_compute. reflexivity.
  - intros _ _. right. apply dirb_dir. vm_compute. reflexivity.
  - intros y E. apply (f_equal (@rev ascii)) in E. rewrite rev_app_distr in E. discriminate.
  - intros y E. apply (f_equal (@rev ascii)) in E. rewrite rev_app_distr in E. discriminate.
Qed.
Print Assumptions C99_announced.
Print Assumptions C99_left.
Print Assumptions C99_left_directories.
Print Assumptions C99_upgrade_silent.
Print Assumptions C99_percent.
