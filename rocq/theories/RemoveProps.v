(** Properties C05 and C06: removing a package. *)
From Verif Require Import Base BaseProofs StrModel StrSpec StrProofs RulesModel RulesSpec RulesProofs FsModel FsSpec FsProofs FsOps FsExtract
  MetaModel MetaSpec MetaProofs DbModel DbSpec DbLoad DbOps DbRun DbInv EngineFs EngineRoot DbFacts DbProps DbExamples.

Definition nodot (n : str) : Prop := forall v, n <> "."%char :: v.
(** no removal script is run *)
Definition no_rm_scripts (scripts : bool) (d : disk) (name : str) : Prop :=
  scripts = false \/ forall dir, mget name d = Some dir -> mget (L "PRER") dir = None /\ mget (L "POSTR") dir = None.
(** listed by that package and by no other *)
Definition lists_alone (d : disk) (name x : str) : Prop := lists d name x /\ forall n, nodot n -> n <> name -> ~ lists d n x.

Lemma load_files_sorted junk d m n r : load junk d = Ok m -> mget n (m_pkgs m) = Some r -> ssorted (r_files r).
Proof.
  intros E G. apply load_spec in E as [_ [P _]]. apply P in G as [_ [dir [_ H]]].
  apply load_pkg_ok in H as [ls [c [r0 [_ [_ [_ ->]]]]]]. apply set_of_sorted.
Qed.

Section Removal.
  Variables (junk : bool) (machine : str) (re : str -> str -> option bool) (sh : str -> fs -> fs * bool) (root : str).
  Notation session := (session junk machine re sh root).

  Lemma remove_refs_shape name w m w' m' : remove_refs junk name (w, m) = Some (w', m') ->
    w_fs w' = w_fs w /\ mget name (w_db w) <> None /\ (forall n, n <> name -> mget n (w_db w') = mget n (w_db w)) /\ (forall x, ~ lists (w_db w') name x).
  Proof.
    unfold remove_refs. destruct (mget name (w_db w)) as [dir|] eqn:G; [|discriminate]. intro E. inversion E; subst. clear E.
    split; [reflexivity|]. split; [discriminate|]. cbn [w_db]. set (left := filter (fun e => negb (nondot (fst e))) dir).
    assert (F : mget (L "files") left = None).
    { apply mget_None. intro I. apply in_map_iff in I as [[k v] [K I]]. unfold left in I. apply filter_In in I as [_ I].
      cbn [fst] in *. subst k. discriminate. }
    split.
    - intros n N. destruct left; [rewrite mget_mdel|rewrite mget_mset]; rewrite (proj2 (seqb_neq n name)) by auto; reflexivity.
    - intros x [dr [c [G1 [G2 _]]]]. destruct left as [|e l] eqn:El; [rewrite mget_mdel, seqb_refl in G1; discriminate|].
      rewrite mget_mset, seqb_refl in G1. inversion G1; subst. congruence.
  Qed.
  Lemma rm_session_full scripts conf name w w' : nodot name -> no_rm_scripts scripts (w_db w) name ->
    session (Remove scripts conf name) w = (None, w') ->
    exists l, ssorted l /\ (forall x, In x l <-> lists_alone (w_db w) name x) /\
      w_fs w' = del_files root l (cleanup_meta (w_fs w) root) /\
      (forall n, n <> name -> mget n (w_db w') = mget n (w_db w)) /\ (forall x, ~ lists (w_db w') name x) /\
      exists m, load junk (w_db w) = Ok m /\ name_exists m name = true /\ (exists rules, read_rules_file conf = inl rules) /\
        l = fold_left (fun a p => sminus a (r_files (snd p))) (mdel name (m_pkgs m)) (match mget name (m_pkgs m) with Some r => r_files r | None => [] end).
  Proof.
    intros Nd NS E. unfold DbModel.session in E. cbn [w_db w_fs] in E.
    destruct (load junk (w_db w)) as [m| |] eqn:Lo; [|discriminate|discriminate].
    unfold rm_run in E. destruct (read_rules_file conf) as [rules|] eqn:Err; [|discriminate].
    destruct (negb (name_exists m name)) eqn:Nx; [discriminate|]. apply negb_false_iff in Nx. cbn [w_db w_fs] in E.
    set (w0 := World (cleanup_meta (w_fs w) root) (w_db w)) in *.
    assert (S0 : scripts = true -> match mget name (w_db w) with Some d => mget (L "PRER") d | None => None end = None /\
                   match mget name (w_db w) with Some d => mget (L "POSTR") d | None => None end = None).
    { intro St. destruct NS as [NS|NS]; [congruence|]. destruct (mget name (w_db w)) as [dir|]; auto. }
    assert (E1 : (if scripts then match match mget name (w_db w) with Some d => mget (L "PRER") d | None => None end with
                     | Some s => let (g, b) := sh s (cleanup_meta (w_fs w) root) in if b then inr (World g (w_db w)) else inl (World g (w_db w))
                     | None => inr w0 end else inr w0) = inr (A:=world) w0).
    { destruct scripts; auto. destruct (S0 eq_refl) as [-> _]. reflexivity. }
    rewrite E1 in E. cbn [remove_files] in E.
    match type of E with context [del_files root ?x _] => set (l := x) in E end.
    match type of E with context [remove_refs junk name (?x, ?y)] => set (w3 := x) in E; set (m2 := y) in E end.
    assert (W3 : w3 = World (del_files root l (cleanup_meta (w_fs w) root)) (w_db w)).
    { unfold w3. destruct scripts; auto. destruct (S0 eq_refl) as [_ ->]. reflexivity. }
    destruct (remove_refs junk name (w3, m2)) as [[w4 m4]|] eqn:Rr; [|discriminate]. cbn [finish] in E. inversion E; subst w4. clear E.
    apply remove_refs_shape in Rr as [R1 [R2 [R3 R4]]]. rewrite W3 in R1, R3, R2. cbn [w_fs w_db] in R1, R3, R2.
    exists l. split.
    { unfold l. apply minus_refs_sorted. cbn [sminus fold_left]. destruct (mget name (m_pkgs m)) as [r|] eqn:Gr; [|constructor].
      eapply load_files_sorted; eauto. }
    split; [|split; [exact R1|split; [exact R3|split; [exact R4|exists m; split; [reflexivity|split; [exact Nx|split; [exists rules; reflexivity|reflexivity]]]]]]].
    intro x. unfold l, lists_alone. rewrite minus_refs_In. cbn [sminus fold_left].
    destruct (load_record junk (w_db w) m name Lo) as [r Gr]; [apply nondot_spec, Nd|exact R2|]. rewrite Gr.
    rewrite (load_lists junk (w_db w) m name r x Lo Gr). assert (SS := load_keys _ _ _ Lo). split.
    - intros [A B]. split; auto. intros n Nn Nm Ln. destruct (load_record junk (w_db w) m n Lo) as [r' G'].
      { apply nondot_spec, Nn. }
      { destruct Ln as [dir [c [G _]]]. congruence. }
      apply (B n r'); [apply In_mdel; split; auto; apply mget_In, G'|]. eapply load_lists; eauto.
    - intros [A B]. split; auto. intros n r' I Ir. apply In_mdel in I as [I Nm].
      apply (In_mget n r' _ (ssorted_NoDup _ SS)) in I. apply (B n); auto.
      + refine (proj1 (nondot_spec n) _). apply load_spec in Lo as [_ [P _]]. apply P in I as [I _]. exact I.
      + eapply load_lists; eauto.
  Qed.
  Lemma rm_session scripts conf name w w' : nodot name -> no_rm_scripts scripts (w_db w) name ->
    session (Remove scripts conf name) w = (None, w') ->
    exists l, ssorted l /\ (forall x, In x l <-> lists_alone (w_db w) name x) /\
      w_fs w' = del_files root l (cleanup_meta (w_fs w) root) /\
      (forall n, n <> name -> mget n (w_db w') = mget n (w_db w)) /\ (forall x, ~ lists (w_db w') name x).
  Proof.
    intros Nd NS E. destruct (rm_session_full scripts conf name w w' Nd NS E) as (l & A & B & C & D & F & _). exists l. tauto.
  Qed.

  Hypothesis Rs : ends_slash root = true.
  (** a path is where the engine finds the listed name [x] *)
  Definition at_path (x : str) (q : path) : Prop := q = comps root ++ comps x.
  Definition where_meta (q : path) : Prop := exists m, In m [L ".INFO"; L ".META"; L ".PRE"; L ".POST"; L ".MTREE"; L ".README"] /\ q = [m].
  Lemma meta_where q : In q meta_comps -> where_meta q.
  Proof.
    unfold meta_comps. cbn [In map]. intro I. unfold where_meta.
    destruct I as [I|[I|[I|[I|[I|[I|[]]]]]]]; subst q;
    match goal with |- exists m, _ /\ [?x] = [m] => exists x; split; [cbn [In]; clear; tauto|reflexivity] end.
  Qed.

  (** C05: every path that the removed package does not list alone is untouched *)
  Theorem C05_untouched scripts conf name w w' q : nodot name -> no_rm_scripts scripts (w_db w) name -> tree (w_fs w) ->
    session (Remove scripts conf name) w = (None, w') ->
    (forall x, lists_alone (w_db w) name x -> ~ at_path x q) -> ~ where_meta q ->
    fget (w_fs w') q = fget (w_fs w) q.
  Proof.
    intros Nd NS T E H M. apply rm_session in E as [l [S [I [-> _]]]]; auto.
    destruct (cleanup_spec (w_fs w) root T) as [T1 F1]. rewrite del_files_frame; auto.
    - apply F1. intro J. apply M, meta_where, J.
    - intros x Ix Z. apply I in Ix. exact (H x Ix Z).
  Qed.
  (** in particular the files of the other packages, when both packages spell a common path in the same way *)
  Theorem C05_others_kept scripts conf name w w' n x : nodot name -> no_rm_scripts scripts (w_db w) name -> tree (w_fs w) ->
    session (Remove scripts conf name) w = (None, w') ->
    nodot n -> n <> name -> lists (w_db w) n x -> (forall y, lists (w_db w) name y -> comps y = comps x -> y = x) ->
    ~ where_meta (comps root ++ comps x) ->
    fget (w_fs w') (comps root ++ comps x) = fget (w_fs w) (comps root ++ comps x).
  Proof.
    intros Nd NS T E Nn Nm Ln Sp M. apply (C05_untouched scripts conf name w w' _ Nd NS T E); [|exact M]. intros y [Ly Al] Z. unfold at_path in Z. apply app_inv_head in Z.
    assert (y = x) by (apply Sp; auto). subst y. exact (Al n Nn Nm Ln).
  Qed.
  (** the database: the package is gone, the other records are unchanged *)
  Theorem C05_database scripts conf name w w' : nodot name -> no_rm_scripts scripts (w_db w) name ->
    session (Remove scripts conf name) w = (None, w') ->
    (forall x, ~ lists (w_db w') name x) /\ (forall n, n <> name -> mget n (w_db w') = mget n (w_db w)).
  Proof. intros Nd NS E. apply rm_session in E as [l [_ [_ [_ [A B]]]]]; auto. Qed.

  (** the names are spelled plainly, and a name with a final slash is a directory or absent *)
  Definition well_spelled (f : fs) (x : str) : Prop :=
    (exists cs, plain x cs) /\ (forall y, x = y ++ [slash] -> fget f (comps root ++ comps x) = None \/ dir_at f (comps root ++ comps x)).
  Lemma cleanup_sub f : tree f -> forall q, fget (cleanup_meta f root) q = fget f q \/ fget (cleanup_meta f root) q = None.
  Proof.
    intros T. unfold cleanup_meta.
    assert (G : forall ms f, tree f -> let g := fold_left (fun f m => if exists_file f (root ++ m) then removeFile f root m else f) ms f in
       forall q, fget g q = fget f q \/ fget g q = None).
    { clear f T. induction ms as [|m ms IH]; intros f T; cbn [fold_left]; [auto|]. intro q.
      assert (X : let f1 := (if exists_file f (root ++ m) then removeFile f root m else f) in tree f1 /\ (fget f1 q = fget f q \/ fget f1 q = None)).
      { cbv zeta. destruct (exists_file f (root ++ m)); auto. destruct (removeFile_gen f root m T) as [T1 RF]. split; auto.
        destruct (RF q) as [Z|[Z _]]; auto. }
      destruct X as [T1 X]. destruct (IH _ T1 q) as [Y|Y]; rewrite Y; auto. }
    exact (G meta_files f T).
  Qed.
  Lemma spelled_fits f x : tree f -> well_spelled f x -> fits root (cleanup_meta f root) x.
  Proof.
    intros T [_ W]. eapply fits_sub; [apply cleanup_sub, T|]. intro E. apply ends_slash_iff in E as [y ->]. apply (W y eq_refl).
  Qed.
  (** what only the removed package lists is gone, unless it is a directory in which something is left *)
  Theorem C05_gone scripts conf name w w' x : nodot name -> no_rm_scripts scripts (w_db w) name -> tree (w_fs w) ->
    session (Remove scripts conf name) w = (None, w') ->
    (forall y, lists (w_db w) name y -> well_spelled (w_fs w) y) ->
    lists_alone (w_db w) name x ->
    fget (w_fs w') (comps root ++ comps x) = None \/
    (dir_at (w_fs w') (comps root ++ comps x) /\ exists q, below (comps root ++ comps x) q /\ fget (w_fs w') q <> None).
  Proof.
    intros Nd NS T E W Lx. apply rm_session in E as [l [S [I [-> _]]]]; auto. destruct (cleanup_spec (w_fs w) root T) as [T1 _].
    apply (del_files_gone root Rs l _ x T1 S).
    - intros y Iy. apply I in Iy as [Iy _]. apply (W y Iy).
    - intros y Iy. apply I in Iy as [Iy _]. apply spelled_fits; auto.
    - apply I, Lx.
  Qed.
  (** C06: a directory listed alone whose whole content is listed alone is deleted too *)
  Theorem C06_directory_emptied scripts conf name w w' x : nodot name -> no_rm_scripts scripts (w_db w) name -> tree (w_fs w) ->
    session (Remove scripts conf name) w = (None, w') ->
    (forall y, lists (w_db w) name y -> well_spelled (w_fs w) y) ->
    lists_alone (w_db w) name x ->
    (forall q, below (comps root ++ comps x) q -> fget (w_fs w) q <> None -> exists y, lists_alone (w_db w) name y /\ at_path y q) ->
    fget (w_fs w') (comps root ++ comps x) = None.
  Proof.
    intros Nd NS T E W Lx H. apply rm_session in E as [l [S [I [-> _]]]]; auto. destruct (cleanup_spec (w_fs w) root T) as [T1 _].
    apply (del_files_deep root Rs l _ x T1 S).
    - intros y Iy. apply I in Iy as [Iy _]. apply (W y Iy).
    - intros y Iy. apply I in Iy as [Iy _]. apply spelled_fits; auto.
    - apply I, Lx.
    - intros q B N. destruct (H q B) as [y [Ly Py]].
      + destruct (cleanup_sub (w_fs w) T q) as [Z|Z]; congruence.
      + exists y. split; [apply I, Ly|exact Py].
  Qed.
End Removal.

(** *** a concrete case: foo and bar installed, foo removed *)
Lemma files_of_lists d n fl x : files_of d n = Some fl -> (lists d n x <-> In x fl).
Proof.
  unfold files_of, lists. destruct (mget n d) as [dir|]; [|discriminate]. destruct (mget (L "files") dir) as [c|] eqn:F; [|discriminate].
  cbn [option_map]. intro H. inversion H; subst. rewrite read_files_In. split.
  - intros [dr [c' [A [B C]]]]. inversion A; subst. rewrite F in B. inversion B; subst. exact C.
  - intro C. exists dir, c. auto.
Qed.
Lemma lists_foo x : lists (w_db w_bar) (L "foo") x <-> In x [L "usr/"; L "usr/bin/"; L "usr/foo.txt"].
Proof. apply files_of_lists. vm_compute. reflexivity. Qed.
Lemma lists_bar x : lists (w_db w_bar) (L "bar") x <-> In x [L "usr/"; L "usr/bar.txt"; L "usr/bin/"; L "usr/bin/tool"].
Proof. apply files_of_lists. vm_compute. reflexivity. Qed.
Ltac lits := repeat (apply Forall_cons; [lit|]); apply Forall_nil.
Lemma foo_spelled y : lists (w_db w_bar) (L "foo") y -> well_spelled rt (w_fs w_bar) y.
Proof.
  intro H. apply lists_foo in H. destruct H as [<-|[<-|[<-|[]]]]; split.
  - exists [L "usr"]. change (L "usr/") with (join slash [L "usr"] ++ [slash]). constructor; [discriminate|lits].
  - intros _ _. right. apply dirb_dir. vm_compute. reflexivity.
  - exists [L "usr"; L "bin"]. change (L "usr/bin/") with (join slash [L "usr"; L "bin"] ++ [slash]). constructor; [discriminate|lits].
  - intros _ _. right. apply dirb_dir. vm_compute. reflexivity.
  - exists [L "usr"; L "foo.txt"]. change (L "usr/foo.txt") with (join slash [L "usr"; L "foo.txt"]). constructor; [discriminate|lits].
  - intros y E. apply (f_equal (@rev ascii)) in E. rewrite rev_app_distr in E. discriminate.
Qed.
Example C05_witness : nodot (L "foo") /\ no_rm_scripts false (w_db w_bar) (L "foo") /\ tree (w_fs w_bar) /\
  (exists w', session false mach pfx quiet rt (Remove false None (L "foo")) w_bar = (None, w')) /\
  (forall y, lists (w_db w_bar) (L "foo") y -> well_spelled rt (w_fs w_bar) y) /\
  lists (w_db w_bar) (L "bar") (L "usr/bin/tool").
Proof.
  split; [intros v; discriminate|]. split; [left; reflexivity|]. split; [exact tree_w_bar|].
  split; [eexists; vm_compute; reflexivity|]. split; [exact foo_spelled|]. apply lists_bar. cbn [In]. tauto.
Qed.
Lemma only_foo n x : lists (w_db w_foo) n x -> n = L "foo".
Proof.
  intros [dir [c [G _]]]. apply mget_In in G. apply (in_map fst) in G. change (map fst (w_db w_foo)) with (keys (w_db w_foo)) in G.
  assert (K : keys (w_db w_foo) = [L "foo"]) by (vm_compute; reflexivity). rewrite K in G. destruct G as [G|[]]. auto.
Qed.
(** removing foo alone empties the directories it created *)
Example C06_witness : lists_alone (w_db w_foo) (L "foo") (L "usr/") /\
  fget (w_fs (snd (session false mach pfx quiet rt (Remove false None (L "foo")) w_foo))) [L "usr"] = None.
Proof.
  split; [|vm_compute; reflexivity]. split; [|intros n _ N H; apply only_foo in H; contradiction].
  apply (files_of_lists _ _ [L "usr/"; L "usr/bin/"; L "usr/bin/tool"; L "usr/foo.txt"]); [vm_compute; reflexivity|cbn [In]; tauto].
Qed.
(** C05 fails when two packages spell the same path differently: one ships the file lib, the other the directory lib/.
    Removing the first deletes the (empty) directory that only the second still owns. *)
Definition p_file : archive := pkg [L "Na"; L "V1"; L "ax86_64"] [(L "lib", reg (L "x"))].
Definition p_dir : archive := pkg [L "Nb"; L "V1"; L "ax86_64"] [(L "lib/", dirn)].
Theorem C05_spelling_refuted :
  let w := history false mach pfx quiet rt [Add simple false None p_file; Add simple false None p_dir] w_empty in
  let w' := snd (session false mach pfx quiet rt (Remove false None (L "a")) w) in
  lists (w_db w) (L "b") (L "lib/") /\ lists (w_db w') (L "b") (L "lib/") /\
  dir_at (w_fs w) [L "lib"] /\ fget (w_fs w') [L "lib"] = None.
Proof.
  split; [apply (files_of_lists _ _ [L "lib/"]); [vm_compute; reflexivity|left; reflexivity]|].
  split; [apply (files_of_lists _ _ [L "lib/"]); [vm_compute; reflexivity|left; reflexivity]|].
  split; [apply dirb_dir; vm_compute; reflexivity|vm_compute; reflexivity].
Qed.
