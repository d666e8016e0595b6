(** The META files and the automatic marks left by a process that adds several archives. *)
From Verif Require Import Base BaseProofs StrModel StrSpec StrProofs RulesModel RulesSpec RulesProofs FsModel FsSpec FsProofs FsOps FsExtract
  MetaModel MetaSpec MetaProofs DbModel DbSpec DbLoad DbOps DbRun DbInv EngineFs EngineRoot EngineWay DbFacts DbProps RemoveProps AddRun AddProps RootProps ManyRun.

Section ManyMeta.
  Variables (junk : bool) (machine : str) (re : str -> str -> option bool) (sh : str -> fs -> fs * bool) (root : str).
  Hypothesis Rs : ends_slash root = true.
  Hypothesis R0 : comps root = [].
  Notation add_run := (add_run junk machine re sh root).
  Notation run_all := (run_all junk machine re sh root).

  Lemma conflicts_mem o rules name ins w1 m w2 m2 : agree (w_db w1) m -> phase_conflicts re root o rules name ins w1 m w2 m2 ->
    m_dep m2 = m_dep m /\ m_alias m2 = m_alias m /\ (forall n, mget n (m_pkgs m2) = match mget n (m_pkgs m) with Some r => Some (with_files (match mget n (m_pkgs m2) with Some r2 => r_files r2 | None => [] end) r) | None => None end) /\
    exists l1, w_fs w2 = del_files root l1 (w_fs w1) /\ forall x, In x l1 -> In x ins.
  Proof.
    intros AG [[_ [-> ->]]|[_ [Fo [kl [_ St]]]]].
    - split; [reflexivity|]. split; [reflexivity|]. split; [intro n; destruct (mget n (m_pkgs m)) as [r|]; [rewrite with_files_id|]; reflexivity|]. exists []. split; [reflexivity|intros x []].
    - apply strip_refs_parts in St as [S1 [_ ->]]. split; [apply strip_fold_alias|]. split; [apply strip_fold_alias|]. split.
      + intro n. rewrite strip_fold_mem by (apply ssorted_NoDup, AG). cbn [snd]. destruct (mget n (m_pkgs m)) as [r|] eqn:G; [|reflexivity].
        destruct (length (sminus (r_files r) (conflicts root name ins (w_fs w1) (m_pkgs m))) =? length (r_files r)); [rewrite with_files_id; reflexivity|].
        unfold strip_rec. reflexivity.
      + eexists. split; [exact S1|]. intros x J. apply sminus_In in J as [J _]. apply conflicts_In in J. tauto.
  Qed.
  Definition flag (m : mem) (name : str) : bool := match mget name (m_pkgs m) with Some r => r_auto r | None => false end.
  Lemma mark_flag name m : mget name (m_pkgs m) <> None -> m_dep (mark_auto junk name m) = m_dep m || flag m name /\ m_pkgs (mark_auto junk name m) = m_pkgs m.
  Proof.
    intro G. unfold mark_auto, flag. destruct (mget name (m_pkgs m)) as [r|]; [|congruence]. destruct (r_auto r); cbn [m_dep m_pkgs]; (split; [|reflexivity]); destruct (m_dep m); reflexivity.
  Qed.
  Lemma mark_alias name m : m_alias (mark_auto junk name m) = m_alias m.
  Proof. unfold mark_auto. destruct (mget name (m_pkgs m)) as [r|]; [destruct (r_auto r)|]; reflexivity. Qed.
  Lemma move_meta_dep name w m w' m' : move_meta root name (w, m) = Ok (w', m') -> m_dep m' = false.
  Proof.
    unfold move_meta. intros E. destruct (fget _ (comps (root ++ L ".META"))) as [nd|]; [|discriminate].
    destruct (is_dir nd); [discriminate|]. destruct (parse_set (n_data nd)) as [ls|]; [|discriminate].
    cbv zeta in E. match type of E with context [fold_left ?g ?l ?w0] => set (wf := fold_left g l w0) in E end. clearbody wf.
    destruct (m_dep m) eqn:D; inversion E; subst; auto.
  Qed.

  (** what is asked of an archive: the META member is a regular entry, once; usual spelling of the names; no META directory *)
  Record tidy_archive (a : archive) (n : node) : Prop := Tidy { t_dot : no_dot_name a; t_meta : meta_once a n; t_root : rooted a; t_plain : plain_names a; t_nodirs : no_meta_dirs_in a }.
  (** what is asked of the system *)
  Record tidy_world (w : world) : Prop := TidyW { w_tree : tree (w_fs w); w_nodirs : no_meta_dirs (w_fs w) []; w_inv : inv (w_db w);
    w_plain : forall n x, lists (w_db w) n x -> exists cs, plain x cs }.

  Lemma add_meta o conf a nd w m name w' m' : tidy_archive a nd -> tidy_world w -> agree (w_db w) m -> o_scripts o = false ->
    add_run o conf a w m = Ret name w' m' ->
    tidy_world w' /\ agree (w_db w') m' /\ archive_name a name /\ m_dep m' = false /\
    (forall n r', n <> name -> mget n (m_pkgs m') = Some r' -> exists r, mget n (m_pkgs m) = Some r /\ r_auto r' = r_auto r) /\
    (forall n, n <> name -> name_exists m' n = name_exists m n) /\
    exists ls, parse_lines (n_data nd) = Some ls /\
      dbfile (w_db w') name (L "META") = Some (if m_dep m || (o_upgrade o && flag m name) then text_of (sins (L "d1") (set_of ls)) else n_data nd).
  Proof.
    intros [ND [M1 [M2 M3]] Ro PN NM] [T NoD IV PL] AG NS E. pose proof (no_dot_named junk machine root a ND) as Na.
    destruct (add_next junk machine re sh root _ _ _ _ _ _ _ _ IV AG Na E) as [IV' AG'].
    destruct (add_step junk machine re sh root _ _ _ _ _ _ _ _ IV AG E) as (An & _ & Sm & rules0 & _ & Ls0).
    assert (W' : tidy_world w').
    { assert (Mp : forall m0, In m0 meta_comps -> ~ prefix_of m0 (comps root)).
      { intros m0 J. rewrite R0. intros [r Hr]. unfold meta_comps in J. cbn [In] in J. destruct J as [<-|[<-|[<-|[<-|[<-|[<-|[]]]]]]]; discriminate Hr. }
      pose proof (step_add junk machine re sh root Rs Mp false ltac:(discriminate) o conf a w m NS PN NM) as St. rewrite E in St. cbn [world_at] in St.
      destruct St as [[T' [_ N']] _].
      { split; [exact T|]. split; [|rewrite R0; exact NoD]. intros q B. rewrite R0 in B. destruct B as [s [Ns Es]]. destruct q; [destruct s; [congruence|discriminate]|discriminate]. }
      rewrite R0 in N'. split; [exact T'|exact N'|exact IV'|]. intros n x H. destruct (str_eq_dec n name) as [->|Nn].
      - apply Ls0 in H as [H _]. exact (PN x H).
      - apply (PL n). apply (Sm n Nn). exact H. }
    apply add_run_ret in E as (info & rules & ins & non & post & w1 & w2 & m2 & kl & w3 & m3 & w5 & m5 & E1 & E2 & E3 & E4 & E5 & E6 & E7 & E8 & Ew & Em).
    rewrite NS in E5. inversion E5; subst w1. clear E5. pose proof (open_name _ _ _ _ _ _ E1) as [_ Sh]. pose proof (install_rules_spec _ _ _ _ _ _ E4) as [Ai [Ni _]].
    destruct (conflicts_mem _ _ _ _ _ _ _ _ AG E6) as (Dp2 & Al2 & Mp2 & l1 & F2 & I1).
    assert (Pins : forall x, In x ins -> exists cs, plain x cs) by (intros x J; apply Ai in J as [J _]; apply PN, Sh, J).
    assert (P3 : exists l2, w_fs w3 = del_files root l2 (w_fs w2) /\ (forall x, In x l2 -> exists cs, plain x cs) /\ (forall x, In x kl -> In x ins) /\
      m_dep m3 = m_dep m || (o_upgrade o && flag m name) /\ (forall n r', n <> name -> mget n (m_pkgs m3) = Some r' -> mget n (m_pkgs m2) = Some r') /\
      (forall n, n <> name -> name_exists m3 n = name_exists m2 n)).
    { destruct E7 as [[U [-> [-> ->]]]|[U [K Rr]]].
      - exists []. split; [reflexivity|]. split; [intros x []|]. split; [intros x []|]. split; [rewrite Dp2, U, orb_false_r; reflexivity|]. split; auto.
      - assert (G2 : mget name (m_pkgs m2) <> None).
        { intro G. assert (X : mget name (m_pkgs m) = None) by (rewrite Mp2 in G; destruct (mget name (m_pkgs m)); [discriminate|reflexivity]).
          pose proof AG as AG0. destruct AG as [_ AG]. specialize (AG name). rewrite X in AG. assert (Y : mget name (w_db w2) = None).
          { destruct (conflicts_same machine re sh root o rules name ins w m w2 m2 name) as [[Y _] _]; [exact AG0|apply IV|exact E6|apply Y, AG]. }
          cbn [remove_files] in Rr. unfold remove_refs in Rr. cbn [w_db] in Rr. rewrite Y in Rr. discriminate Rr. }
        destruct (mark_flag name m2 G2) as [MD MP]. cbn [remove_files] in Rr. rewrite MP, MD in Rr.
        match type of Rr with context [del_files root ?x _] => set (l2 := x) in Rr end. unfold remove_refs in Rr. cbn [w_db w_fs m_pkgs m_alias m_dep] in Rr.
        destruct (mget name (w_db w2)) as [dir|] eqn:Gd; [|discriminate Rr]. inversion Rr; subst w3 m3. clear Rr. cbn [w_fs m_dep m_pkgs]. exists l2. split; [reflexivity|]. split; [|split; [|split; [|split]]].
        + intros x J. unfold l2 in J. apply minus_refs_In in J as [J _]. apply sminus_In in J as [J _]. rewrite Mp2 in J.
          destruct (mget name (m_pkgs m)) as [r|] eqn:G; [|destruct J]. cbn [with_files r_files] in J.
          destruct (mget name (m_pkgs m2)) as [r2|] eqn:Gm2; [|congruence].
          assert (Lx : lists (w_db w2) name x).
          { assert (AG2 : agree (w_db w2) m2).
            { destruct E6 as [[_ [-> ->]]|[_ [_ [kl0 [_ St]]]]]; [exact AG|]. apply strip_refs_parts in St as [_ [-> ->]]. apply (strip_agree machine re sh); [exact AG|apply IV]. }
            destruct AG2 as [_ A2]. specialize (A2 name). rewrite Gm2 in A2. destruct A2 as [Fr [dir' [Gd' Gf]]]. apply (lists_text _ name dir' _ x Gd' Gf Fr), J. }
          apply (PL name). destruct (conflicts_same machine re sh root o rules name ins w m w2 m2 name AG (proj1 IV) E6) as [(_ & _ & Y) _]. apply Y, Lx.
        + intros x J. apply keep_list_spec in K as [K _]. apply K in J. tauto.
        + rewrite Dp2, U. cbn [andb]. f_equal. unfold flag. rewrite Mp2. destruct (mget name (m_pkgs m)); reflexivity.
        + intros n r' Nn. rewrite (mget_mdel name name), seqb_refl, mget_mset, mget_mdel, (proj2 (seqb_neq n name)) by auto. auto.
        + intros n Nn. unfold name_exists. cbn [m_alias]. rewrite mget_mdel, (proj2 (seqb_neq n name)) by auto. rewrite mark_alias. reflexivity. }
    destruct P3 as (l2 & F3 & Pl2 & Pkl & D3 & Mp3 & Al3).
    assert (Dr : dir_at (w_fs w) (comps root)) by (rewrite R0; apply T).
    assert (T3 : tree (w_fs w3)) by (rewrite F3, F2; apply del_files_tree; auto; apply del_files_tree; auto).
    assert (Dr3 : dir_at (w_fs w3) (comps root)) by (rewrite F3, F2; apply (del_root re sh root Rs); auto; apply (del_root re sh root Rs); auto).
    assert (NK : ~ In (L ".META") kl).
    { intro J. apply Pkl, Ai in J as [J _]. apply Sh in J. apply (meta_dot_not_shipped a (L ".META") (L "META") J). reflexivity. }
    assert (NN : ~ In (L ".META") non).
    { intro J. apply Ni in J as [J _]. apply Sh in J. apply (meta_dot_not_shipped a (L ".META") (L "META") J). reflexivity. }
    assert (Cm : comp (L ".META")) by lit.
    pose proof (install_once root (L ".META") Cm ltac:(discriminate) a kl non nd M1 M3 M2 NK NN (fun x J => Pins x (Pkl x J)) Ro (w_fs w3) T3 Dr3) as IO.
    set (f4 := install_archive root a kl non (w_fs w3)) in *. assert (T4 : tree f4) by (apply install_tree, T3). clearbody f4.
    pose proof (move_meta_dep _ _ _ _ _ E8) as D5. pose proof (move_meta_mem _ _ _ _ _ _ E8) as [P5 A5].
    apply move_meta_file in E8 as [nd' [ls [G [Gd [P Db]]]]]. cbn [w_fs] in G. rewrite (comps_meta root Rs) in G.
    rewrite (removeFile_single f4 root (L ".MTREE") T4 ltac:(lit)) in G.
    2:{ intro Z. destruct (comps root) as [|c [|c' t]]; discriminate Z. }
    assert (nd' = nd).
    { destruct IO as [IO|[o' [IO K]]]; [congruence|]. exfalso. rewrite IO in G. inversion G; subst o'. apply is_dir_kind in K. congruence. }
    subst nd'. split; [exact W'|]. split; [exact AG'|]. split; [exact An|]. rewrite Em. cbn [add_files_refs snd m_dep m_pkgs]. split; [exact D5|]. split.
    - intros n r' Nn. rewrite mget_mset, (proj2 (seqb_neq n name)), P5 by auto. intro H. apply (Mp3 n r' Nn) in H. rewrite Mp2 in H.
      destruct (mget n (m_pkgs m)) as [r|]; [|discriminate H]. exists r. split; [reflexivity|]. inversion H. reflexivity.
    - split; [|exists ls; split; [exact P|]].
      + intros n Nn. unfold name_exists. cbn [m_alias]. rewrite A5, <- Al2. exact (Al3 n Nn).
      + rewrite Ew. cbn [add_files_refs fst r_files with_files]. rewrite final_meta, Db, D3. reflexivity.
  Qed.

  Definition tidies (l : list (bool * archive)) : Prop := forall sd a, In (sd, a) l -> exists nd, tidy_archive a nd.
  Lemma tidies_named l : tidies l -> nameds junk machine root l.
  Proof. intro T. apply Forall_forall. intros [sd a] J. destruct (T sd a J) as [nd Ta]. apply no_dot_named, (t_dot _ _ Ta). Qed.
  Lemma run_keeps force conf l : tidies l -> forall w m w' m', tidy_world w -> agree (w_db w) m -> run_all force false conf l w m = Ret tt w' m' ->
    tidy_world w' /\ agree (w_db w') m' /\ (l <> [] -> m_dep m' = false) /\
    forall n, (forall sd a, In (sd, a) l -> ~ archive_name a n) ->
      name_exists m' n = name_exists m n /\ forall r', mget n (m_pkgs m') = Some r' -> exists r, mget n (m_pkgs m) = Some r /\ r_auto r' = r_auto r.
  Proof.
    induction l as [|[sd a] l IH]; intros Ti w m w' m' W AG E; cbn [DbModel.run_all] in E.
    - inversion E; subst. split; [exact W|]. split; [exact AG|]. split; [congruence|]. intros n _. split; [reflexivity|]. intros r' H. exists r'. auto.
    - destruct (add_run (Opts force (upgrade_flag junk machine root a m) false) conf a w (set_dep sd m)) as [nm w1 m1|e w1] eqn:Ea; [|discriminate].
      destruct (Ti sd a (or_introl eq_refl)) as [nd Ta].
      destruct (add_meta (Opts force (upgrade_flag junk machine root a m) false) _ _ nd _ _ _ _ _ Ta W (set_dep_agree _ sd m AG) eq_refl Ea) as (W1 & AG1 & An & D1 & R1 & N1 & _).
      destruct (IH (fun sd' a' J => Ti sd' a' (or_intror J)) w1 m1 w' m' W1 AG1 E) as (W2 & AG2 & D2 & K2).
      split; [exact W2|]. split; [exact AG2|]. split.
      + intros _. destruct l as [|p l']; [cbn in E; inversion E; subst; exact D1|apply D2; discriminate].
      + intros n F. assert (Nn : n <> nm) by (intros ->; apply (F sd a (or_introl eq_refl)), An).
        destruct (K2 n (fun sd' a' J => F sd' a' (or_intror J))) as [K3 K4]. split.
        * rewrite K3, (N1 n Nn). unfold name_exists. rewrite set_dep_alias. reflexivity.
        * intros r' H. destruct (K4 r' H) as [r1 [H1 H2]]. destruct (R1 n r1 Nn H1) as [r [H3 H4]]. rewrite set_dep_pkgs in H3. exists r. split; [exact H3|congruence].
  Qed.
  (** The META file of every archive of the list. The mark: asked for as a dependency, or automatic before; the first archive of
      the list also gets it when the uninitialised member is true. *)
  Lemma run_meta force conf u sd a v nd w m w' m' : tidies (u ++ (sd, a) :: v) -> distinct (u ++ (sd, a) :: v) -> tidy_archive a nd -> tidy_world w -> load junk (w_db w) = Ok m ->
    run_all force false conf (u ++ (sd, a) :: v) w m = Ret tt w' m' ->
    exists name ls b, archive_name a name /\ parse_lines (n_data nd) = Some ls /\
      dbfile (w_db w') name (L "META") = Some (if b : bool then text_of (sins (L "d1") (set_of ls)) else n_data nd) /\
      (b = true <-> sd = true \/ (u = [] /\ junk = true) \/ automatic (w_db w) name).
  Proof.
    intros Ti Di Ta W Lo E. pose proof (load_agree junk _ _ (proj1 (w_inv _ W)) Lo) as AG. apply run_split in E as (w1 & m1 & name & w2 & m2 & E1 & E2 & E3).
    assert (Tu : tidies u) by (intros s b J; apply (Ti s b); apply in_or_app; left; exact J).
    assert (Tv : tidies v) by (intros s b J; apply (Ti s b); apply in_or_app; right; right; exact J).
    destruct (run_keeps _ _ _ Tu _ _ _ _ W AG E1) as (W1 & AG1 & D1 & K1).
    destruct (add_meta (Opts force (upgrade_flag junk machine root a m1) false) _ _ nd _ _ _ _ _ Ta W1 (set_dep_agree _ sd m1 AG1) eq_refl E2) as (W2 & AG2 & An & _ & _ & _ & ls & Pl & Db).
    destruct (run_frame junk machine re sh root _ _ _ _ (tidies_named _ Tv) _ _ _ _ (w_inv _ W2) AG2 E3 name) as [(_ & Sf & _) _].
    { exact (distinct_after _ u (sd, a) v name Di eq_refl An). }
    exists name, ls. eexists. split; [exact An|]. split; [exact Pl|]. split; [rewrite Sf by discriminate; exact Db|].
    assert (Jm : m_dep m = junk) by (apply load_spec in Lo; tauto).
    assert (Bf : forall s b, In (s, b) u -> ~ archive_name b name) by exact (distinct_before _ u (sd, a) v name Di eq_refl An).
    destruct (K1 name Bf) as [Kn Kr].
    assert (Eu : o_upgrade (Opts force (upgrade_flag junk machine root a m1) false) = name_exists m name).
    { apply add_run_ret in E2 as (? & ? & ? & ? & ? & ? & ? & ? & ? & ? & ? & ? & ? & _ & _ & E2 & _). rewrite <- E2. unfold name_exists at 1. rewrite set_dep_alias. exact Kn. }
    rewrite Eu. rewrite orb_true_iff, andb_true_iff.
    assert (Dm : m_dep (set_dep sd m1) = true <-> sd = true \/ (u = [] /\ junk = true)).
    { destruct sd; [cbn; tauto|]. cbn [set_dep]. destruct u as [|p u'].
      - cbn in E1. inversion E1; subst m1. rewrite Jm. intuition discriminate.
      - rewrite D1 by discriminate. split; [discriminate|]. intros [H|[H _]]; discriminate H. }
    rewrite Dm. assert (Au : name_exists m name = true /\ flag (set_dep sd m1) name = true <-> automatic (w_db w) name).
    { unfold flag. rewrite set_dep_pkgs. split.
      - intros [_ F]. destruct (mget name (m_pkgs m1)) as [r'|] eqn:G; [|discriminate F]. destruct (Kr r' eq_refl) as [r [H1 H2]].
        apply (load_auto junk _ _ name r Lo H1). congruence.
      - intro A. pose proof (load_spec _ _ _ Lo) as [_ [P [_ A2]]].
        assert (Gr : exists r, mget name (m_pkgs m) = Some r).
        { apply (load_record junk (w_db w) m name Lo); [apply nondot_spec; intros z ->; exact (t_dot _ _ Ta z An)|]. destruct A as [dir [c [l [G _]]]]. congruence. }
        destruct Gr as [r Gr]. split.
        + unfold name_exists. specialize (A2 name r Gr name). destruct (mget name (m_alias m)); [reflexivity|]. exfalso. apply A2; auto.
        + pose proof (proj2 (load_auto junk _ _ name r Lo Gr) A) as Ar.
          assert (Dn : mget name (w_db w1) <> None).
          { destruct (run_frame junk machine re sh root _ _ _ _ (tidies_named _ Tu) _ _ _ _ (w_inv _ W) AG E1 name Bf) as [(Z & _) _]. rewrite Z. destruct A as [dir [c [l [G _]]]]. congruence. }
          destruct AG1 as [_ AG1]. specialize (AG1 name). destruct (mget name (m_pkgs m1)) as [r'|] eqn:G; [|congruence].
          destruct (Kr r' eq_refl) as [r0 [H1 H2]]. congruence. }
    rewrite Au. tauto.
  Qed.
End ManyMeta.
