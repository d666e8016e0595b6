(** What a process that adds several archives one after the other leaves in the file system (install.cxx:73-98, upgrade.cxx:136-152). *)
From Verif Require Import Base BaseProofs StrModel StrSpec StrProofs RulesModel RulesSpec RulesProofs FsModel FsSpec FsProofs FsOps FsExtract
  MetaModel MetaSpec MetaProofs DbModel DbSpec DbLoad DbOps DbRun DbInv EngineFs EngineRoot EngineWay DbFacts DbProps RemoveProps AddRun AddProps UpgradeProps RootProps ManyRun ManyMeta.
Import DbInv.

Section Many.
  Variables (junk : bool) (machine : str) (re : str -> str -> option bool) (sh : str -> fs -> fs * bool) (root : str).
  Hypothesis Rs : ends_slash root = true.
  Hypothesis R0 : comps root = [].
  Notation add_run := (add_run junk machine re sh root).
  Notation run_all := (run_all junk machine re sh root).
  Notation R := (comps root).
  Notation where_own := (where_own root).

  (** one archive, seen from the file system *)
  Lemma agree_lists (d : disk) m n x : agree d m -> (lists d n x <-> exists r, mget n (m_pkgs m) = Some r /\ In x (r_files r)).
  Proof.
    intros [_ A]. specialize (A n). destruct (mget n (m_pkgs m)) as [r|].
    - destruct A as [Fo (dir & G & H)]. rewrite (lists_text d n dir _ x G H Fo). split; [intro J; exists r; auto|intros (r' & E & J); injection E as <-; exact J].
    - split; [intros (dir & c & G & _); congruence|intros (r & E & _); discriminate E].
  Qed.
  Lemma add_fs o conf a w m name w' m' : inv (w_db w) -> agree (w_db w) m -> o_scripts o = false -> tree (w_fs w) -> add_run o conf a w m = Ret name w' m' ->
    exists rules ins non kl l1 l2, archive_name a name /\ read_rules_file conf = inl rules /\
      (forall x, In x ins <-> ships a x /\ verdict re INSTALL rules x true) /\ (forall x, In x non <-> ships a x /\ verdict re INSTALL rules x false) /\
      (forall x, ships a x -> In x ins \/ In x non) /\
      (forall x, In x kl <-> In x ins /\ kept re o rules x) /\ (forall x, In x l1 -> In x ins /\ ~ kept re o rules x) /\
      (forall x, In x l2 -> o_upgrade o = true /\ lists (w_db w) name x /\ ~ In x kl /\ forall n, n <> name -> ~ lists (w_db w') n x) /\
      (forall x, lists (w_db w') name x <-> In x ins) /\
      tree (del_files root l2 (del_files root l1 (w_fs w))) /\
      (forall q, ~ where_own q -> fget (w_fs w') q = fget (install_archive root a kl non (del_files root l2 (del_files root l1 (w_fs w)))) q) /\
      (forall x, o_upgrade o = true -> lists (w_db w) name x -> ~ In x ins -> (forall n, n <> name -> ~ lists (w_db w') n x) -> In x l2).
  Proof.
    intros [OK _] AG NS T E. apply add_run_ret in E as (info & rules & ins & non & post & w1 & w2 & m2 & kl & w3 & m3 & w5 & m5 & E1 & E2 & _ & E4 & E5 & E6 & E7 & E8 & -> & _).
    rewrite NS in E5. injection E5 as <-.
    assert (O5 : forall k, k <> name -> mget k (w_db w5) = mget k (w_db w3)) by (intros k Nk; apply (move_meta_db root name _ _ _ _ k E8 Nk)).
    assert (FO : files_ok ins) by (eapply ins_files_ok; eauto; eapply archive_files_ok; eauto).
    pose proof (open_name _ _ _ _ _ _ E1) as [An Sh]. pose proof (install_rules_spec _ _ _ _ _ _ E4) as [Ai [Ni _]].
    cbn [add_files_refs fst]. rewrite post_run_db. cbn [w_db r_files with_files]. rewrite NS.
    assert (Fl : forall n x, lists (put_file name (L "files") (text_of ins) (w_db w5)) n x <-> (n = name /\ In x ins) \/ (n <> name /\ lists (w_db w3) n x)) by (intros n x; apply (final_lists name ins w5 (w_db w3) [] n x O5 FO)).
    (* the files that change hands *)
    assert (P : exists l1, (forall x, In x l1 -> In x ins /\ ~ kept re o rules x) /\ w_fs w2 = del_files root l1 (w_fs w) /\ agree (w_db w2) m2 /\ (forall x, lists (w_db w2) name x -> lists (w_db w) name x) /\ forall x, lists (w_db w) name x -> ~ In x ins -> lists (w_db w2) name x).
    { destruct E6 as [[_ [-> ->]]|[_ [Fo [kl0 [K St]]]]]; [exists []; split; [intros x []|]; split; [reflexivity|]; auto|].
      apply strip_refs_parts in St as (S1 & S2 & ->). set (cf := conflicts root name ins (w_fs w) (m_pkgs m)) in *. exists (sminus cf kl0). split; [|split; [exact S1|split]].
      - intros x J. apply sminus_In in J as [J1 J2]. split; [apply conflicts_In in J1; apply J1|]. intros [U V]. apply J2. rewrite U in K. apply (proj1 (keep_list_spec re rules cf kl0 K)). split; [exact J1|exact V].
      - rewrite S2. apply strip_agree; assumption.
      - split; [intro x; rewrite S2, strip_lists by assumption; tauto|]. intros x Lx Nx. rewrite S2, strip_lists by assumption. split; [exact Lx|]. intro J. apply Nx. apply conflicts_In in J. apply J. }
    destruct P as (l1 & L1 & F2 & AG2 & Sub & Sup). clear E6.
    assert (Q : exists l2, (forall x, In x kl <-> In x ins /\ kept re o rules x) /\ w_fs w3 = del_files root l2 (w_fs w2) /\
      (forall x, In x l2 -> o_upgrade o = true /\ lists (w_db w) name x /\ ~ In x kl /\ forall n, n <> name -> ~ lists (w_db w2) n x) /\
      (forall x, o_upgrade o = true -> lists (w_db w2) name x -> ~ In x ins -> (forall n, n <> name -> ~ lists (w_db w2) n x) -> In x l2)).
    { destruct E7 as [(U & -> & -> & ->)|(U & K & Rr)].
      - exists []. split; [|split; [reflexivity|split; [intros x []|]]]; [|intros x U'; congruence]. intro x. split; [intros []|]. intros [_ [U' _]]. congruence.
      - apply remove_refs_shape in Rr as (F3 & _). unfold remove_files in F3. cbn [w_fs] in F3. eexists. split; [|split; [exact F3|split]].
        + intro x. rewrite (proj1 (keep_list_spec re rules ins kl K) x). unfold kept. tauto.
        + intros x J. apply minus_refs_In in J as [J1 J2]. split; [exact U|]. apply sminus_In in J1 as [J1 J3].
          assert (Mk : forall n r, n <> name -> mget n (m_pkgs m2) = Some r -> mget n (m_pkgs (mark_auto junk name m2)) = Some r).
          { intros n r N G. unfold mark_auto. destruct (mget name (m_pkgs m2)) as [r0|]; [destruct (r_auto r0); exact G|]. cbn [m_pkgs]. rewrite mget_mset, (proj2 (seqb_neq n name) N). exact G. }
          split; [|split; [exact J3|]].
          * apply Sub, (agree_lists _ m2 name x AG2). destruct (mget name (m_pkgs (mark_auto junk name m2))) as [r|] eqn:G; [|destruct J1]. unfold mark_auto in G.
            destruct (mget name (m_pkgs m2)) as [r0|] eqn:G0.
            -- destruct (r_auto r0); cbn [m_pkgs] in G; rewrite G0 in G; injection G as <-; exists r0; auto.
            -- cbn [m_pkgs] in G. rewrite mget_mset, seqb_refl in G. injection G as <-. destruct J1.
          * intros n N Ln. apply (agree_lists _ m2 n x AG2) in Ln as (r & G & J). apply (J2 n r); [|exact J]. apply In_mdel. split; [|exact N]. apply mget_In, Mk; assumption.
        + intros x _ Lx Nx Ox. apply minus_refs_In. split.
          * apply sminus_In. split; [|intro Kx; apply Nx; apply (proj1 (keep_list_spec re rules ins kl K)) in Kx; apply Kx]. apply (agree_lists _ m2 name x AG2) in Lx as (r & G & J). unfold mark_auto. rewrite G. destruct (r_auto r); cbn [m_pkgs]; rewrite G; exact J.
          * intros n r Jn Jr. apply In_mdel in Jn as [Jn N]. apply (Ox n N), (agree_lists _ m2 n x AG2). exists r. split; [|exact Jr]. apply (In_mget n r); [apply ssorted_NoDup, AG2|]. unfold mark_auto in Jn. destruct (mget name (m_pkgs m2)) as [r0|]; [destruct (r_auto r0); exact Jn|].
            cbn [m_pkgs] in Jn. apply (In_mget n r) in Jn; [|apply ssorted_NoDup, mset_keys_sorted, AG2]. rewrite mget_mset, (proj2 (seqb_neq n name) N) in Jn. apply mget_In, Jn. }
    destruct Q as (l2 & KL & F3 & L2 & L3). exists rules, ins, non, kl, l1, l2. rewrite <- F2, <- F3.
    assert (T3 : tree (w_fs w3)) by (rewrite F3; apply del_files_tree; rewrite F2; apply del_files_tree; exact T).
    split; [exact An|]. split; [exact E2|]. split; [intro x; rewrite <- Sh; apply Ai|]. split; [intro x; rewrite <- Sh; apply Ni|].
    split; [intros x J; apply Sh in J; destruct (proj1 (install_rules_partition _ _ _ _ _ _ E4 x) J) as [[H _]|[H _]]; auto|].
    split; [exact KL|]. split; [exact L1|]. split; [|split; [|split; [|split]]].
    - intros x J. destruct (L2 x J) as (A & B & C & D). split; [exact A|]. split; [exact B|]. split; [exact C|]. intros n N Ln. apply Fl in Ln as [[Z _]|[_ Ln]]; [contradiction|].
      apply (D n N). apply (lists_ext (w_db w3) (w_db w2) n x); [|exact Ln]. eapply phase_upgrade_db; eauto.
    - intro x. rewrite Fl. split; [intros [[_ H]|[H _]]; [exact H|congruence]|auto].
    - exact T3.
    - intros q Nq. exact (final_fs sh root Rs name (World (install_archive root a kl non (w_fs w3)) (w_db w3)) m3 w5 m5 _ q (install_tree root a kl non _ T3) E8 Nq).
    - intros x U Lx Nx Ox. apply (L3 x U (Sup x Lx Nx) Nx). intros n N Ln. apply (Ox n N), Fl. right. split; [exact N|]. apply (lists_ext (w_db w3) (w_db w2) n x); [|exact Ln]. eapply phase_upgrade_db; eauto.
  Qed.

  (** ** specification *)
  (** one name for the path of [x] in the file lists of the database *)
  Definition once (d : disk) (x : str) : Prop := forall n y, lists d n y -> comps y = comps x -> y = x.
  (** archive [b] ships nothing below [x], and [x] under its own name if at all, as its file list says *)
  Definition spares (b : archive) (x : str) : Prop :=
    (forall y k, In (y, k) b -> (comps y = comps x -> y = x /\ ships b x) /\ ~ below (comps x) (comps y)) /\ (forall y, ships b y -> comps y = comps x -> y = x).
  (** archive [b] ships nothing at or below [x], and nothing but directories above it *)
  Definition avoids (b : archive) (x : str) : Prop :=
    (forall y k, In (y, k) b -> ~ prefix_of (comps x) (comps y) /\ (n_kind k <> KDir -> ~ below (comps y) (comps x))) /\ (forall y, ships b y -> comps y <> comps x).
  (** the name of a file outside the area of rejected files and not one of the tool's own files *)
  Definition file_name (x : str) : Prop := nodot x /\ (exists cs, plain x cs) /\ ends_slash x = false /\ apart (comps x) reject_comps.
  Lemma avoids_spares b x : avoids b x -> spares b x.
  Proof.
    intros [A B]. split; [intros y k J; destruct (A y k J) as [C D]; split; [intro Z; exfalso; apply C; exists []; rewrite app_nil_r; exact Z|intros [r [_ Z]]; apply C; exists r; exact Z]|].
    intros y J Z. destruct (B y J Z).
  Qed.

  (** ** one archive *)
  Lemma add_once o conf a w m name w' m' x : inv (w_db w) -> agree (w_db w) m -> add_run o conf a w m = Ret name w' m' -> (forall y, ships a y -> comps y = comps x -> y = x) -> once (w_db w) x -> once (w_db w') x.
  Proof.
    intros I AG E Sh O n y Ln C. destruct (add_step junk machine re sh root _ _ _ _ _ _ _ _ I AG E) as (An & _ & Fr & rules & _ & Li).
    destruct (str_eq_dec n name) as [->|N]; [apply Sh; [apply Li, Ln|exact C]|]. apply (O n y); [|exact C]. apply (proj1 (Fr n N)), Ln.
  Qed.
  Lemma add_spared o conf a w m name w' m' n x nd : inv (w_db w) -> agree (w_db w) m -> o_scripts o = false -> tree (w_fs w) -> add_run o conf a w m = Ret name w' m' -> inv (w_db w') ->
    file_name x -> spares a x -> once (w_db w) x -> n <> name -> lists (w_db w') n x ->
    fget (w_fs w) (R ++ comps x) = Some nd -> n_kind nd <> KDir -> fget (w_fs w') (R ++ comps x) = Some nd.
  Proof.
    intros I AG NS T E [_ NSh] (Nd & [cs Px] & Es & [Ra Rb]) [Sp1 Sp2] On N Ln G K.
    destruct (add_fs o conf a w m name w' m' I AG NS T E) as (rules & ins & non & kl & l1 & l2 & An & _ & Ins & _ & Pt & _ & L1 & L2 & Li & T2 & F & _).
    assert (Nx : ~ In x ins). { intro J. apply Li in J. pose proof (NSh n name x N Ln J) as Z. congruence. }
    rewrite F by (rewrite (plain_comps _ _ Px); exact (own_plain root x cs Nd Px)). apply install_spared; [exact T2| |exact K|].
    - rewrite (del_files_frame root Rs).
      + rewrite (del_files_frame root Rs); [exact G|]. intros y J Z. apply app_inv_head in Z. destruct (L1 y J) as [J1 _]. apply Nx. rewrite <- (Sp2 y (proj1 (proj1 (Ins y) J1)) (eq_sym Z)). exact J1.
      + intros y J Z. apply app_inv_head in Z. destruct (L2 y J) as (_ & J1 & _ & J2). rewrite (On name y J1 (eq_sym Z)) in J2. exact (J2 n N Ln).
    - intros y k J. destruct (Sp1 y k J) as [A B]. destruct (path_eq_dec (comps y) (comps x)) as [Ey|Ny].
      + left. destruct (A Ey) as [-> Sx]. destruct (Pt x Sx) as [H|H]; [contradiction|exact H].
      + right. rewrite !prefix_app. split; [rewrite prefix_below; intros [Z|Z]; [congruence|exact (B Z)]|]. intro P. apply prefix_comparable in P as [P|P]; auto.
  Qed.
  Lemma add_content o conf a w m name w' m' x nd : inv (w_db w) -> agree (w_db w) m -> o_scripts o = false -> tree (w_fs w) -> add_run o conf a w m = Ret name w' m' ->
    file_name x -> tidy a -> no_reject_area a -> In (x, nd) a -> n_kind nd <> KDir -> lists (w_db w') name x ->
    (forall rules, read_rules_file conf = inl rules -> ~ kept re o rules x) -> way_clear (w_fs w) (R ++ comps x) -> ~ dir_at (w_fs w) (R ++ comps x) ->
    fget (w_fs w') (R ++ comps x) = Some nd.
  Proof.
    intros I AG NS T E (Nd & [cs Px] & Es & _) Ti NR J K Ln NK W D.
    destruct (add_fs o conf a w m name w' m' I AG NS T E) as (rules & ins & non & kl & l1 & l2 & An & Er & Ins & Non & _ & KL & _ & _ & Li & T2 & F & _).
    assert (Sf : forall q, fget (del_files root l2 (del_files root l1 (w_fs w))) q = fget (w_fs w) q \/ fget (del_files root l2 (del_files root l1 (w_fs w))) q = None).
    { intro q. destruct (del_files_sub root Rs l2 (del_files root l1 (w_fs w)) q) as [-> | ->]; auto. apply del_files_sub, Rs. }
    rewrite F by (rewrite (plain_comps _ _ Px); exact (own_plain root x cs Nd Px)).
    apply (install_content root a kl non x nd Ti NR J K); auto.
    - rewrite (plain_comps _ _ Px). apply (plain_comp _ _ Px).
    - intro Z. apply KL in Z as [_ Z]. exact (NK rules Er Z).
    - intro Z. apply Non in Z as [_ Z]. apply Li, Ins in Ln as [_ Ln]. pose proof (verdict_det _ _ _ _ _ _ Z Ln) as X. discriminate X.
    - eapply way_sub; [exact Sf|exact W].
    - intros [z [Z1 Z2]]. apply D. exists z. split; [|exact Z2]. destruct (Sf (R ++ comps x)); congruence.
  Qed.
  Lemma own_above x cs q : nodot x -> plain x cs -> below q (R ++ cs) -> ~ where_own q.
  Proof.
    intros Nd P [r [Nr E]] H. rewrite R0 in E. cbn [app] in E.
    assert (X : exists v, q = ["."%char :: v]).
    { destruct H as [[m [I Eq]]|[m [I Eq]]]; [|rewrite R0 in Eq; cbn [app] in Eq]; rewrite Eq; cbn [In] in I; decompose [or] I; subst; try contradiction; eexists; reflexivity. }
    destruct X as [v ->]. cbn [app] in E. destruct r as [|c r]; [congruence|]. subst cs. apply (Nd (v ++ match x with [] => [] | _ :: t => skipn (length v) t end)).
    inversion P as [cs A B Ec|cs A B Ec]; subst cs; cbn [join app]; rewrite <- ?app_assoc, skipn_app, skipn_all, Nat.sub_diag; reflexivity.
  Qed.
  Lemma add_way o conf a w m name w' m' x : inv (w_db w) -> agree (w_db w) m -> o_scripts o = false -> tree (w_fs w) -> add_run o conf a w m = Ret name w' m' ->
    file_name x -> avoids a x -> way_clear (w_fs w) (R ++ comps x) -> ~ dir_at (w_fs w) (R ++ comps x) ->
    way_clear (w_fs w') (R ++ comps x) /\ ~ dir_at (w_fs w') (R ++ comps x).
  Proof.
    intros I AG NS T E (Nd & [cs Px] & Es & [Ra Rb]) [Av _] W D.
    destruct (add_fs o conf a w m name w' m' I AG NS T E) as (rules & ins & non & kl & l1 & l2 & An & Er & _ & _ & _ & _ & _ & _ & _ & T2 & F & _).
    set (f := del_files root l2 (del_files root l1 (w_fs w))) in *.
    assert (Sf : forall q, fget f q = fget (w_fs w) q \/ fget f q = None).
    { intro q. unfold f. destruct (del_files_sub root Rs l2 (del_files root l1 (w_fs w)) q) as [-> | ->]; auto. apply del_files_sub, Rs. }
    assert (O : forall y k, In (y, k) a -> off root (R ++ comps x) y k).
    { intros y k J. destruct (Av y k J) as [A B]. unfold off. rewrite !prefix_app, !below_app. split; [exact A|]. split; [intro P; apply prefix_comparable in P as [P|P]; auto|].
      intro K. split; [exact (B K)|]. intros [r [_ Z]]. apply Rb. exists (comps y ++ r). rewrite app_assoc. exact Z. }
    destruct (list_way root kl non (R ++ comps x) a O f T2 (way_sub _ _ _ Sf W)) as [G1 G2]. split.
    - intros q B. assert (Nq : ~ where_own q) by (rewrite (plain_comps _ _ Px) in B; exact (own_above x cs q Nd Px B)). rewrite (F q Nq). destruct (G2 q B) as [Z|Z]; [left; exact Z|right]. eapply dir_at_ext; [symmetry; apply (F q Nq)|exact Z].
    - intros [z [Z1 Z2]]. rewrite F, G1 in Z1 by (rewrite (plain_comps _ _ Px); exact (own_plain root x cs Nd Px)). apply D. exists z. split; [|exact Z2]. destruct (Sf (R ++ comps x)); congruence.
  Qed.

  (** ** all of them *)
  Lemma tidies_tl p l : tidies (p :: l) -> tidies l.
  Proof. intros Ti sd a J. apply (Ti sd a). right. exact J. Qed.
  Lemma add_keeps force conf sd a nd w m nm w1 m1 : tidy_archive a nd -> tidy_world w -> agree (w_db w) m ->
    add_run (Opts force (upgrade_flag junk machine root a m) false) conf a w (set_dep sd m) = Ret nm w1 m1 -> tidy_world w1 /\ agree (w_db w1) m1.
  Proof.
    intros Ta W AG E. destruct (add_meta junk machine re sh root Rs R0 (Opts force (upgrade_flag junk machine root a m) false) conf a nd w (set_dep sd m) nm w1 m1 Ta W (set_dep_agree _ sd m AG) eq_refl E) as (A & B & _). auto.
  Qed.
  (** a file of a package that is not added, still listed at the end *)
  Lemma run_spared force conf l x n nd : tidies l -> file_name x -> (forall sd a, In (sd, a) l -> ~ archive_name a n /\ spares a x) -> n_kind nd <> KDir ->
    forall w m w' m', tidy_world w -> agree (w_db w) m -> run_all force false conf l w m = Ret tt w' m' -> once (w_db w) x -> lists (w_db w') n x ->
    fget (w_fs w) (R ++ comps x) = Some nd -> fget (w_fs w') (R ++ comps x) = Some nd.
  Proof.
    intros Ti Fx. revert Ti. induction l as [|[sd a] l IH]; intros Ti Sp K w m w' m' W AG E O Ln G; cbn [DbModel.run_all] in E; [injection E as <- _; exact G|].
    destruct (add_run (Opts force (upgrade_flag junk machine root a m) false) conf a w (set_dep sd m)) as [nm w1 m1|e w1] eqn:Ea; [|discriminate E].
    destruct (Ti sd a (or_introl eq_refl)) as [nd' Ta]. destruct (add_keeps _ _ _ _ _ _ _ _ _ _ Ta W AG Ea) as [W1 AG1]. pose proof (set_dep_agree _ sd m AG) as AG0.
    destruct (Sp sd a (or_introl eq_refl)) as [Na Sa]. destruct (add_step junk machine re sh root _ _ _ _ _ _ _ _ (w_inv _ W) AG0 Ea) as (An & _ & _ & _).
    assert (Nn : n <> nm) by (intros ->; exact (Na An)).
    refine (IH (tidies_tl _ _ Ti) (fun sd' a' J => Sp sd' a' (or_intror J)) K w1 m1 w' m' W1 AG1 E _ Ln _).
    - exact (add_once _ _ _ _ _ _ _ _ x (w_inv _ W) AG0 Ea (proj2 Sa) O).
    - assert (L1 : lists (w_db w1) n x).
      { apply (run_frame junk machine re sh root force false conf l (tidies_named junk machine root l (tidies_tl _ _ Ti)) w1 m1 w' m' (w_inv _ W1) AG1 E n); [|exact Ln]. intros sd' a' J. apply (Sp sd' a'). right. exact J. }
      exact (add_spared (Opts force (upgrade_flag junk machine root a m) false) conf _ _ _ _ _ _ n x nd (w_inv _ W) AG0 eq_refl (w_tree _ W) Ea (w_inv _ W1) Fx Sa O Nn L1 G K).
  Qed.
  Lemma run_way force conf l x : tidies l -> file_name x -> (forall sd a, In (sd, a) l -> avoids a x) ->
    forall w m w' m', tidy_world w -> agree (w_db w) m -> run_all force false conf l w m = Ret tt w' m' -> once (w_db w) x ->
    way_clear (w_fs w) (R ++ comps x) -> ~ dir_at (w_fs w) (R ++ comps x) ->
    way_clear (w_fs w') (R ++ comps x) /\ ~ dir_at (w_fs w') (R ++ comps x) /\ once (w_db w') x.
  Proof.
    intros Ti Fx. revert Ti. induction l as [|[sd a] l IH]; intros Ti Av w m w' m' W AG E O Wy D; cbn [DbModel.run_all] in E; [injection E as <- _; auto|].
    destruct (add_run (Opts force (upgrade_flag junk machine root a m) false) conf a w (set_dep sd m)) as [nm w1 m1|e w1] eqn:Ea; [|discriminate E].
    destruct (Ti sd a (or_introl eq_refl)) as [nd' Ta]. destruct (add_keeps _ _ _ _ _ _ _ _ _ _ Ta W AG Ea) as [W1 AG1]. pose proof (set_dep_agree _ sd m AG) as AG0.
    pose proof (Av sd a (or_introl eq_refl)) as Aa.
    destruct (add_way (Opts force (upgrade_flag junk machine root a m) false) conf _ _ _ _ _ _ x (w_inv _ W) AG0 eq_refl (w_tree _ W) Ea Fx Aa Wy D) as [Wy1 D1].
    refine (IH (tidies_tl _ _ Ti) (fun sd' a' J => Av sd' a' (or_intror J)) w1 m1 w' m' W1 AG1 E _ Wy1 D1).
    exact (add_once _ _ _ _ _ _ _ _ x (w_inv _ W) AG0 Ea (proj2 (avoids_spares _ _ Aa)) O).
  Qed.
  (** a file of one of the archives, listed at the end by its package *)
  Lemma run_content force conf u sd a v x nd name w m w' m' : tidies (u ++ (sd, a) :: v) -> distinct (u ++ (sd, a) :: v) -> file_name x ->
    (forall sd b, In (sd, b) u -> avoids b x) -> (forall sd b, In (sd, b) v -> spares b x) -> (forall y, ships a y -> comps y = comps x -> y = x) ->
    tidy_world w -> load junk (w_db w) = Ok m -> run_all force false conf (u ++ (sd, a) :: v) (World (cleanup_meta (w_fs w) root) (w_db w)) m = Ret tt w' m' -> once (w_db w) x ->
    tidy a -> no_reject_area a -> In (x, nd) a -> n_kind nd <> KDir -> archive_name a name -> lists (w_db w') name x ->
    (forall rules, known (w_db w) name -> read_rules_file conf = inl rules -> ~ verdict re UPGRADE rules x false) ->
    way_clear (w_fs w) (R ++ comps x) -> ~ dir_at (w_fs w) (R ++ comps x) -> fget (w_fs w') (R ++ comps x) = Some nd.
  Proof.
    intros Ti D Fx Au Av Sh W El E O Ta NR J K An Ln Vd Wy Dr. set (w0 := World (cleanup_meta (w_fs w) root) (w_db w)) in *.
    assert (W0 : tidy_world w0).
    { destruct W as [T1 T2 T3 T4]. destruct (cleanup_spec (w_fs w) root T1) as [K1 K2]. constructor; [exact K1| |exact T3|exact T4]. intros c q Jc B. cbn [w0 w_fs]. rewrite K2; [exact (T2 c q Jc B)|].
      destruct B as [y [Nx ->]]. cbn [app]. assert (L2 : forall y, In y meta_comps -> exists z, y = [z]) by (intros z Jy; cbn [meta_comps In] in Jy; repeat (destruct Jy as [<-|Jy]; [eexists; reflexivity|]); destruct Jy).
      intro Jq. destruct (L2 _ Jq) as [z Hz]. injection Hz as _ Hz. exact (Nx Hz). }
    pose proof (load_agree junk _ m (proj1 (w_inv _ W)) El) as AG. pose proof (cleanup_sub root (w_fs w) (w_tree _ W)) as Sc.
    assert (Wy0 : way_clear (w_fs w0) (R ++ comps x)) by (eapply way_sub; [exact Sc|exact Wy]).
    assert (Dr0 : ~ dir_at (w_fs w0) (R ++ comps x)) by (intros [z [Z1 Z2]]; apply Dr; exists z; split; [destruct (Sc (R ++ comps x)) as [Z|Z]; cbn [w0 w_fs] in Z1; congruence|exact Z2]).
    assert (Tu : tidies u) by (intros sd' a' J'; apply (Ti sd' a'), in_app_iff; left; exact J').
    assert (Tv : tidies v) by (intros sd' a' J'; apply (Ti sd' a'), in_app_iff; right; right; exact J').
    apply run_split in E as (w1 & m1 & nm & w2 & m2 & E1 & E2 & E3).
    destruct (run_keeps junk machine re sh root Rs R0 force conf u Tu w0 m w1 m1 W0 AG E1) as (W1 & AG1 & _ & Ne).
    destruct (run_way force conf u x Tu Fx Au w0 m w1 m1 W0 AG E1 O Wy0 Dr0) as (Wy1 & Dr1 & O1).
    destruct (Ti sd a (in_elt _ _ _)) as [nd' Tn]. destruct (add_keeps _ _ _ _ _ _ _ _ _ _ Tn W1 AG1 E2) as [W2 AG2]. pose proof (set_dep_agree _ sd m1 AG1) as AG0.
    destruct (add_step junk machine re sh root _ _ _ _ _ _ _ _ (w_inv _ W1) AG0 E2) as (An' & _ & _ & _). rewrite (archive_name_unique _ _ _ An' An) in E2. clear An' nm.
    assert (Nv : forall sd' b, In (sd', b) v -> ~ archive_name b name /\ spares b x).
    { intros sd' b J'. split; [exact (distinct_after _ u (sd, a) v name D eq_refl An sd' b J')|exact (Av sd' b J')]. }
    assert (L2 : lists (w_db w2) name x).
    { apply (run_frame junk machine re sh root force false conf v (tidies_named junk machine root v Tv) w2 m2 w' m' (w_inv _ W2) AG2 E3 name); [|exact Ln]. intros sd' b J'. apply (Nv sd' b J'). }
    refine (run_spared force conf v x name nd Tv Fx Nv K w2 m2 w' m' W2 AG2 E3 _ Ln _).
    - exact (add_once _ _ _ _ _ _ _ _ x (w_inv _ W1) AG0 E2 Sh O1).
    - refine (add_content (Opts force (upgrade_flag junk machine root a m1) false) conf _ _ _ _ _ _ x nd (w_inv _ W1) AG0 eq_refl (w_tree _ W1) E2 Fx Ta NR J K L2 _ Wy1 Dr1).
      intros rules Er [U V]. cbn [o_upgrade] in U. unfold upgrade_flag in U. destruct (open_archive junk machine root a) as [[nm info]| |] eqn:Eo; [|discriminate U|discriminate U].
      apply open_name in Eo as [An' _]. rewrite (archive_name_unique _ _ _ An' An) in U. assert (U0 : name_exists m name = true).
      { rewrite <- U. symmetry. apply (Ne name). intros sd' b J' Ab. exact (distinct_before _ u (sd, a) v name D eq_refl An sd' b J' Ab). }
      apply (Vd rules); [|exact Er|exact V]. apply (name_exists_known junk (w_db w) m name El), U0.
  Qed.
End Many.
