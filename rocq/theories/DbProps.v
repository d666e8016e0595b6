(** Properties C01, C02, C03, C16: what adding and removing packages does to the database. *)
From Verif Require Import Base BaseProofs StrModel StrSpec StrProofs RulesModel RulesSpec RulesProofs FsModel FsSpec FsProofs FsOps FsExtract
  MetaModel MetaSpec MetaProofs DbModel DbSpec DbLoad DbOps DbRun DbInv EngineFs EngineRoot DbFacts.

(** *** C02 *)
Theorem C02_no_shared_file junk machine re sh root f0 xs n1 n2 x :
  Forall (fun o => Forall no_dot_name (op_archives o)) xs ->
  let d := w_db (history junk machine re sh root xs (World f0 [])) in
  n1 <> n2 -> lists d n1 x -> lists d n2 x -> exists y, x = y ++ [slash].
Proof.
  intros F d N L1 L2. apply ends_slash_iff.
  assert (I : inv d).
  { apply history_inv; [|apply inv_empty]. rewrite Forall_forall in *. intros o Io. apply op_no_dot, F, Io. }
  apply (proj2 I n1 n2 x); auto.
Qed.
(** the same from any database that has the property, after every single operation, whatever its outcome *)
Theorem C02_preserved junk machine re sh root w o : Forall no_dot_name (op_archives o) -> inv (w_db w) ->
  inv (w_db (snd (session junk machine re sh root o w))).
Proof. intros F I. apply session_inv; auto. apply op_no_dot, F. Qed.

(** *** Sessions *)
Section Sessions.
  Variables (junk : bool) (machine : str) (re : str -> str -> option bool) (sh : str -> fs -> fs * bool) (root : str).
  Notation session := (session junk machine re sh root).

  Lemma session_add_none o sd conf a w w' : session (Add o sd conf a) w = (None, w') ->
    exists m name m', load junk (w_db w) = Ok m /\
      add_run junk machine re sh root o conf a (World (cleanup_meta (w_fs w) root) (w_db w)) (set_dep sd m) = Ret name w' m'.
  Proof.
    unfold DbModel.session. cbn [w_db w_fs]. destruct (load junk (w_db w)) as [m| |] eqn:E; [|discriminate|discriminate].
    destruct (add_run _ _ _ _ _ _ _ _ _ _) as [nm w1 m1|e w1] eqn:A; cbn [finish]; intro H; inversion H; subst. eauto 6.
  Qed.
  Lemma session_add_some o sd conf a w e w' : session (Add o sd conf a) w = (Some e, w') ->
    (w' = World (cleanup_meta (w_fs w) root) (w_db w) /\ (e = Undefined \/ e = Exception)) \/
    exists m, load junk (w_db w) = Ok m /\
      add_run junk machine re sh root o conf a (World (cleanup_meta (w_fs w) root) (w_db w)) (set_dep sd m) = Stop e w'.
  Proof.
    unfold DbModel.session. cbn [w_db w_fs]. destruct (load junk (w_db w)) as [m| |] eqn:E; [|intro H; inversion H; auto|intro H; inversion H; auto].
    destruct (add_run _ _ _ _ _ _ _ _ _ _) as [nm w1 m1|e1 w1] eqn:A; cbn [finish]; intro H; inversion H; subst. right. eauto.
  Qed.
  Lemma set_dep_pkgs sd m : m_pkgs (set_dep sd m) = m_pkgs m. Proof. destruct sd; reflexivity. Qed.
  Lemma set_dep_alias sd m : m_alias (set_dep sd m) = m_alias m. Proof. destruct sd; reflexivity. Qed.

  Lemma phase_upgrade_db o rules name ins w2 m2 kl w3 m3 n : phase_upgrade junk re root o rules name ins w2 m2 kl w3 m3 -> n <> name ->
    mget n (w_db w3) = mget n (w_db w2).
  Proof.
    intros [[_ [_ [-> _]]]|[_ [_ E]]] N; [reflexivity|]. cbn [remove_files] in E. unfold remove_refs in E. cbn [w_db] in E.
    destruct (mget name (w_db w2)) as [dir|]; [|discriminate]. inversion E; subst. cbn [w_db].
    destruct (filter _ dir); [rewrite mget_mdel|rewrite mget_mset]; rewrite (proj2 (seqb_neq n name)) by auto; reflexivity.
  Qed.
  (** the database after a successful run without force *)
  Lemma add_run_db o conf a w m name w' m' : o_force o = false ->
    add_run junk machine re sh root o conf a w m = Ret name w' m' ->
    exists info rules ins non post, open_archive junk machine root a = Ok (name, info) /\ read_rules_file conf = inl rules /\
      apply_install_rules re rules (r_files info) = Some (ins, non, post) /\
      (forall n, n <> name -> mget n (w_db w') = mget n (w_db w)) /\ (forall x, lists (w_db w') name x <-> In x ins).
  Proof.
    intros NF E. apply add_run_ret in E as (info & rules & ins & non & post & w1 & w2 & m2 & kl & w3 & m3 & w5 & m5 & E1 & E2 & _ & E4 & E5 & E6 & E7 & E8 & -> & _).
    exists info, rules, ins, non, post. split; auto. split; auto. split; auto.
    assert (D1 : w_db w1 = w_db w).
    { destruct (o_scripts o); [eapply pre_run_db; eauto|]. inversion E5; auto. }
    assert (D2 : w_db w2 = w_db w).
    { destruct E6 as [[_ [-> _]]|[_ [F _]]]; [exact D1|congruence]. }
    assert (FO : files_ok ins) by (eapply ins_files_ok; eauto; eapply archive_files_ok; eauto).
    assert (O5 : forall k, k <> name -> mget k (w_db w5) = mget k (w_db w3)) by (intros k Nk; apply (move_meta_db root name _ _ _ _ k E8 Nk)).
    cbn [add_files_refs fst]. rewrite post_run_db. cbn [w_db r_files with_files]. split.
    - intros n N. unfold put_file. rewrite mget_mset, (proj2 (seqb_neq n name)) by auto. rewrite O5, <- D2 by auto.
      eapply phase_upgrade_db; eauto.
    - intro x. rewrite (final_lists name ins w5 (w_db w3) [] name x O5 FO). split; [intros [[_ H]|[H _]]; [auto|congruence]|auto].
  Qed.

  (** *** C01 *)
  Theorem C01_add_records o sd conf a w w' : o_force o = false -> session (Add o sd conf a) w = (None, w') ->
    exists name rules, archive_name a name /\ read_rules_file conf = inl rules /\
      (forall x, lists (w_db w') name x <-> ships a x /\ verdict re INSTALL rules x true) /\
      (forall n, n <> name -> mget n (w_db w') = mget n (w_db w)).
  Proof.
    intros NF E. apply session_add_none in E as [m [name [m' [_ E]]]].
    apply add_run_db in E as [info [rules [ins [non [post [E1 [E2 [E3 [E4 E5]]]]]]]]]; auto. apply open_name in E1 as [A B].
    exists name, rules. split; auto. split; auto. split; auto. intro x. rewrite E5, <- B. apply install_rules_spec in E3 as [H _]. apply H.
  Qed.

  (** *** C03 *)
  Definition present (f : fs) (x : str) : Prop := fget f (comps root ++ comps x) <> None.
  Definition conflicting (rules : list rule) (a : archive) (name : str) (d : disk) (f : fs) (x : str) : Prop :=
    ships a x /\ verdict re INSTALL rules x true /\ ~ (exists y, x = y ++ [slash]) /\
    ((exists n, n <> name /\ (forall v, n <> "."%char :: v) /\ lists d n x) \/ present f x) /\ ~ lists d name x.
  Hypothesis Rs : ends_slash root = true.
  Lemma exists_present f x : ends_slash x = false -> x <> [] -> (exists_file f (root ++ x) = true <-> present f x).
  Proof.
    intros E N. unfold exists_file, lstat, present. rewrite ends_slash_app by auto. rewrite E. cbn [andb].
    rewrite (comps_root root Rs x). unfold R. destruct (fget f (comps root ++ comps x)); split; try congruence; discriminate.
  Qed.
  Lemma conflicts_spec rules a info name m w1 ins non post x :
    load junk (w_db w1) = Ok m -> open_archive junk machine root a = Ok (name, info) -> no_dot_name a ->
    apply_install_rules re rules (r_files info) = Some (ins, non, post) ->
    (In x (conflicts root name ins (w_fs w1) (m_pkgs m)) <-> conflicting rules a name (w_db w1) (w_fs w1) x).
  Proof.
    intros Lo Op ND Ap. rewrite conflicts_In. unfold conflicting.
    pose proof (archive_files_ok _ _ _ _ _ _ Op) as [_ FO]. rewrite Forall_forall in FO.
    apply open_name in Op as [An Sh]. apply install_rules_spec in Ap as [Ai _]. rewrite <- Sh, Ai, <- ends_slash_iff, not_true_iff_false.
    assert (Nn : nondot name = true) by (apply nondot_spec; intros v ->; apply (ND v An)).
    assert (SS : ssorted (keys (m_pkgs m))) by (eapply load_keys; eauto).
    assert (Q1 : (exists n r, In (n, r) (m_pkgs m) /\ n <> name /\ In x (r_files r)) <-> (exists n, n <> name /\ (forall v, n <> "."%char :: v) /\ lists (w_db w1) n x)).
    { split.
      - intros [n [r [I [N Ir]]]]. apply (In_mget n r (m_pkgs m) (ssorted_NoDup _ SS)) in I. exists n. split; auto.
        split; [|eapply load_lists; eauto]. pose proof (load_spec _ _ _ Lo) as [_ [P _]]. apply P in I as [I _]. apply nondot_spec, I.
      - intros [n [N [Dn Ln]]]. destruct (load_record junk (w_db w1) m n Lo) as [r G].
        + apply nondot_spec, Dn.
        + destruct Ln as [dir [c [G _]]]. congruence.
        + exists n, r. split; [apply mget_In, G|]. split; auto. eapply load_lists; eauto. }
    assert (Q2 : (forall r, mget name (m_pkgs m) = Some r -> ~ In x (r_files r)) <-> ~ lists (w_db w1) name x).
    { split.
      - intros H Ln. destruct (load_record junk (w_db w1) m name Lo Nn) as [r G].
        + destruct Ln as [dir [c [G _]]]. congruence.
        + apply (H r G). eapply load_lists; eauto.
      - intros H r G Ir. apply H. eapply load_lists; eauto. }
    rewrite Q1, Q2. split.
    - intros [[A B] [C [D E]]]. split; auto. split; auto. split; auto. split; auto. destruct D as [D|D]; auto. right. apply exists_present; auto. apply FO, A.
    - intros [A [B [C [D E]]]]. split; auto. split; auto. split; auto. destruct D as [D|D]; auto. right. apply exists_present; auto. apply FO, A.
  Qed.
  (** the conflicts reported when an add is refused; [w'] is the state when they are computed *)
  Theorem C03_reported_exact o sd conf a w cf w' : no_dot_name a ->
    session (Add o sd conf a) w = (Some (Conflict cf), w') ->
    exists name rules, archive_name a name /\ read_rules_file conf = inl rules /\ w_db w' = w_db w /\ o_force o = false /\ cf <> [] /\
      forall x, In x cf <-> conflicting rules a name (w_db w') (w_fs w') x.
  Proof.
    intros ND E. apply session_add_some in E as [[_ [E|E]]|[m [Lo E]]]; [discriminate|discriminate|].
    unfold add_run in E.
    destruct (open_archive junk machine root a) as [[name info]| |] eqn:Eo; [|discriminate|discriminate].
    destruct (read_rules_file conf) as [rules|] eqn:Err; [|discriminate].
    destruct (name_exists (set_dep sd m) name && negb (o_upgrade o)); [discriminate|].
    destruct (negb (name_exists (set_dep sd m) name) && o_upgrade o); [discriminate|].
    destruct (apply_install_rules re rules (r_files info)) as [[[ins non] post]|] eqn:Ei; [|discriminate].
    set (w0 := World (cleanup_meta (w_fs w) root) (w_db w)) in *.
    destruct (if o_scripts o then pre_run sh root a w0 else inr w0) as [w1|w1] eqn:Ep; [discriminate|].
    assert (D1 : w_db w1 = w_db w).
    { change (w_db w) with (w_db w0). destruct (o_scripts o); [eapply pre_run_db; eauto|]. inversion Ep; auto. }
    rewrite set_dep_pkgs in E. set (cf0 := conflicts root name ins (w_fs w1) (m_pkgs m)) in *.
    exists name, rules. split; [apply open_name in Eo; tauto|]. split; auto.
    assert (X : cf0 = cf /\ w' = w1 /\ o_force o = false /\ cf <> []).
    { match type of E with (match ?x with _ => _ end) = _ => destruct x as [e|[w2 m2]] eqn:Ec end.
      - inversion E; subst e w'. destruct cf0 as [|c cf1]; [discriminate|]. destruct (o_force o).
        + destruct (if o_upgrade o then get_keep_list re rules (c :: cf1) else Some []); discriminate.
        + inversion Ec. split; auto. split; auto. split; auto. discriminate.
      - match type of E with (match ?x with _ => _ end) = _ => destruct x as [[e w3]|[[w3 m3] kl]] eqn:Eu end.
        + inversion E; subst e. destruct (o_upgrade o); [|discriminate]. destruct (get_keep_list re rules ins); [|discriminate].
          destruct (remove_refs _ _ _); discriminate.
        + destruct (move_meta _ _ _) as [[w5 m5]| |]; [|discriminate|discriminate]. discriminate. }
    destruct X as [X1 [X2 [X3 X4]]]. subst w'. split; auto. split; auto. split; auto.
    intro x. rewrite <- X1. unfold cf0. eapply conflicts_spec; eauto. rewrite D1. exact Lo.
  Qed.
  (** an add that succeeds without force had no conflict: with the database, and, without scripts, with the file system *)
  Theorem C03_success_no_conflict o sd conf a w w' : no_dot_name a -> o_force o = false -> o_scripts o = false ->
    session (Add o sd conf a) w = (None, w') ->
    exists name rules, archive_name a name /\ read_rules_file conf = inl rules /\
      forall x, ~ conflicting rules a name (w_db w) (cleanup_meta (w_fs w) root) x.
  Proof.
    intros ND NF NS E. apply session_add_none in E as [m [name [m' [Lo E]]]].
    apply add_run_ret in E as (info & rules & ins & non & post & w1 & w2 & m2 & kl & w3 & m3 & w5 & m5 & E1 & E2 & _ & E4 & E5 & E6 & _).
    exists name, rules. split; [apply open_name in E1; tauto|]. split; auto. intros x C. rewrite NS in E5. inversion E5; subst w1.
    destruct E6 as [[E6 _]|[_ [F _]]]; [|congruence]. rewrite set_dep_pkgs in E6.
    pose proof (conflicts_spec rules a info name m (World (cleanup_meta (w_fs w) root) (w_db w)) ins non post x Lo E1 ND E4) as S.
    rewrite E6 in S. apply S in C. destruct C.
  Qed.

  (** *** C16 *)
  (** the META line [l] of package [n] *)
  Definition meta_has (d : disk) (n l : str) : Prop :=
    exists dir c ls, mget n d = Some dir /\ mget (L "META") dir = Some c /\ parse_lines c = Some ls /\ In l ls.
  Lemma load_alias (d : disk) m n r al : load junk d = Ok m -> mget n (m_pkgs m) = Some r -> (In al (r_alias r) <-> meta_has d n ("A"%char :: al)).
  Proof.
    intros E G. apply load_spec in E as [_ [P _]]. apply P in G as [_ [dir [G Lp]]].
    apply load_pkg_ok in Lp as [ls [c [r0 [M [_ [Em ->]]]]]]. cbn [r_alias with_files].
    rewrite (meta_fold _ _ n (step_alias n) _ _ _ Em), ins_field_fold. cbn [start_rec with_auto with_release empty_rec r_alias]. unfold meta_has. split.
    - intros [[]|I]. destruct (mget (L "META") dir) as [t|] eqn:Mt; [|subst ls; destruct I]. unfold parse_set in M.
      destruct (parse_lines t) as [l|] eqn:Pt; [|discriminate]. inversion M; subst. rewrite set_of_In in I. exists dir, t, l. split; [exact G|]. split; [exact Mt|]. split; [exact Pt|exact I].
    - intros [dir' [c' [l [G' [Mt [Pt I]]]]]]. rewrite G in G'. inversion G'; subst dir'. rewrite Mt in M. unfold parse_set in M. rewrite Pt in M.
      inversion M; subst. right. apply set_of_In, I.
  Qed.
  (** a name is known when it is an installed package or the alias of one *)
  Definition known (d : disk) (name : str) : Prop :=
    exists n, (forall v, n <> "."%char :: v) /\ mget n d <> None /\ (name = n \/ meta_has d n ("A"%char :: name)).
  Lemma name_exists_known d m name : load junk d = Ok m -> (name_exists m name = true <-> known d name).
  Proof.
    intro E. unfold name_exists, known. pose proof (load_spec _ _ _ E) as [_ [P [A1 A2]]]. split.
    - destruct (mget name (m_alias m)) as [i|] eqn:G; [|discriminate]. intros _. destruct (A1 _ _ G) as [r [Gr Hr]].
      exists i. pose proof (proj1 (P i r) Gr) as [Nd [dir [Gd _]]]. split; [apply nondot_spec, Nd|]. split; [congruence|].
      destruct Hr as [Hr|Hr]; [left; exact Hr|]. right. apply (load_alias d m i r name E Gr). exact Hr.
    - intros [n [Nd [G H]]]. destruct (load_record junk d m n E) as [r Gr]; auto. { apply nondot_spec, Nd. }
      specialize (A2 n r Gr name). destruct (mget name (m_alias m)); auto. exfalso. apply A2; auto.
      destruct H as [H|H]; [left; exact H|]. right. apply (load_alias d m n r name E Gr). exact H.
  Qed.
  Theorem C16_already_installed o sd conf a w name : archive_name a name -> o_upgrade o = false -> known (w_db w) name ->
    exists e, session (Add o sd conf a) w = (Some e, World (cleanup_meta (w_fs w) root) (w_db w)).
  Proof.
    intros An U K. unfold DbModel.session. cbn [w_db w_fs]. destruct (load junk (w_db w)) as [m| |] eqn:E; [|eauto|eauto].
    unfold add_run. destruct (open_archive junk machine root a) as [[nm info]| |] eqn:Eo; [|cbn; eauto|cbn; eauto].
    assert (nm = name) by (apply open_name in Eo as [Eo _]; eapply archive_name_unique; eauto). subst nm.
    destruct (read_rules_file conf) as [rules|]; [|cbn; eauto].
    assert (X : name_exists (set_dep sd m) name = true).
    { unfold name_exists. rewrite set_dep_alias. apply (name_exists_known _ m name E) in K. exact K. }
    rewrite X, U. cbn. eauto.
  Qed.
  Theorem C16_not_installed o sd conf a w name : archive_name a name -> o_upgrade o = true -> ~ known (w_db w) name ->
    exists e, session (Add o sd conf a) w = (Some e, World (cleanup_meta (w_fs w) root) (w_db w)).
  Proof.
    intros An U K. unfold DbModel.session. cbn [w_db w_fs]. destruct (load junk (w_db w)) as [m| |] eqn:E; [|eauto|eauto].
    unfold add_run. destruct (open_archive junk machine root a) as [[nm info]| |] eqn:Eo; [|cbn; eauto|cbn; eauto].
    assert (nm = name) by (apply open_name in Eo as [Eo _]; eapply archive_name_unique; eauto). subst nm.
    destruct (read_rules_file conf) as [rules|]; [|cbn; eauto].
    assert (X : name_exists (set_dep sd m) name = false).
    { apply not_true_iff_false. intro H. apply K. unfold name_exists in H. rewrite set_dep_alias in H. apply (name_exists_known _ m name E), H. }
    rewrite X, U. cbn. eauto.
  Qed.
  (** and the reason given is that one *)
  Theorem C16_reason o sd conf a w name e m info rules :
    load junk (w_db w) = Ok m -> open_archive junk machine root a = Ok (name, info) -> read_rules_file conf = inl rules ->
    (e = Already /\ o_upgrade o = false /\ known (w_db w) name) \/ (e = NotInstalled /\ o_upgrade o = true /\ ~ known (w_db w) name) ->
    fst (session (Add o sd conf a) w) = Some e.
  Proof.
    intros E Eo Er H. unfold DbModel.session. cbn [w_db w_fs]. rewrite E. unfold add_run. rewrite Eo, Er.
    assert (X : name_exists (set_dep sd m) name = true <-> known (w_db w) name).
    { unfold name_exists. rewrite set_dep_alias. apply (name_exists_known _ m name E). }
    destruct H as [[-> [U K]]|[-> [U K]]].
    - apply X in K. rewrite K, U. reflexivity.
    - assert (Y : name_exists (set_dep sd m) name = false) by (apply not_true_iff_false; intro H; apply K, X, H). rewrite Y, U. reflexivity.
  Qed.
  (** removing an unknown package is refused and changes nothing *)
  Theorem C16_remove_unknown scripts conf w name : ~ known (w_db w) name ->
    exists e, session (Remove scripts conf name) w = (Some e, World (cleanup_meta (w_fs w) root) (w_db w)).
  Proof.
    intro K. unfold DbModel.session. cbn [w_db w_fs]. destruct (load junk (w_db w)) as [m| |] eqn:E; [|eauto|eauto].
    unfold rm_run. destruct (read_rules_file conf) as [rules|]; [|cbn; eauto].
    assert (X : name_exists m name = false) by (apply not_true_iff_false; intro H; apply K, (name_exists_known _ m name E), H).
    rewrite X. cbn. eauto.
  Qed.
End Sessions.
