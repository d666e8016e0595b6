(** What a process that adds several archives one after the other leaves behind (install.cxx:73-98, upgrade.cxx:136-152). *)
From Verif Require Import Base BaseProofs StrModel StrSpec StrProofs RulesModel RulesSpec RulesProofs FsModel FsSpec FsProofs FsOps FsExtract
  MetaModel MetaSpec MetaProofs DbModel DbSpec DbLoad DbOps DbRun DbInv EngineFs EngineRoot DbFacts DbProps RemoveProps AddRun AddProps.

Section ManyRun.
  Variables (junk : bool) (machine : str) (re : str -> str -> option bool) (sh : str -> fs -> fs * bool) (root : str).
  Notation add_run := (add_run junk machine re sh root).
  Notation run_all := (run_all junk machine re sh root).

  (** the directory of package [n] is there in both, with the same files apart from the file list *)
  Definition same_but_files (d d' : disk) (n : str) : Prop :=
    (mget n d' = None <-> mget n d = None) /\ (forall k, k <> L "files" -> dbfile d' n k = dbfile d n k) /\ (forall x, lists d' n x -> lists d n x).
  Lemma same_refl d n : same_but_files d d n.
  Proof. clear. split; [tauto|]. split; [intros k _; reflexivity|intros x H; exact H]. Qed.
  Lemma same_ext d d' n : mget n d' = mget n d -> same_but_files d d' n.
  Proof. intro E. split; [rewrite E; tauto|]. split; [intros k _; unfold dbfile; rewrite E; reflexivity|]. intros x H. apply (lists_ext d' d n x E), H. Qed.
  Lemma same_trans a b c n : same_but_files a b n -> same_but_files b c n -> same_but_files a c n.
  Proof.
    intros (A1 & A2 & A3) (B1 & B2 & B3). split; [rewrite B1; exact A1|]. split; [intros k N; rewrite B2, A2; auto|]. intros x H. auto.
  Qed.
  Lemma strip_same files (w : world) m n : agree (w_db w) m -> db_ok (w_db w) ->
    same_but_files (w_db w) (w_db (fst (fold_left (strip_one files) (m_pkgs m) (w, m)))) n.
  Proof.
    intros AG OK. split; [|split].
    - pose proof (strip_disk files w m n AG OK) as SD. cbv zeta in SD. destruct (mget n (w_db w)) as [dir|]; [|rewrite SD; tauto].
      destruct SD as (F & _ & _ & _ & dir2 & -> & _). split; discriminate.
    - intros k Nk. pose proof (strip_disk files w m n AG OK) as SD. cbv zeta in SD. unfold dbfile. destruct (mget n (w_db w)) as [dir|]; [|rewrite SD; reflexivity].
      destruct SD as (F & _ & _ & _ & dir2 & -> & _ & Z & _). apply Z, Nk.
    - intros x H. apply strip_lists in H; tauto.
  Qed.
  Lemma conflicts_same o rules name ins w1 m w2 m2 n : agree (w_db w1) m -> db_ok (w_db w1) -> phase_conflicts re root o rules name ins w1 m w2 m2 ->
    same_but_files (w_db w1) (w_db w2) n /\ (o_force o = false -> w2 = w1).
  Proof.
    intros AG OK [[_ [-> _]]|[_ [Fo [kl [_ St]]]]]; [split; [apply same_refl|reflexivity]|]. split; [|congruence].
    apply strip_refs_parts in St as [_ [-> _]]. apply strip_same; auto.
  Qed.
  (** one archive *)
  Lemma add_step o conf a w m name w' m' : inv (w_db w) -> agree (w_db w) m -> add_run o conf a w m = Ret name w' m' ->
    archive_name a name /\ mget name (w_db w') <> None /\
    (forall n, n <> name -> same_but_files (w_db w) (w_db w') n /\ (o_force o = false -> mget n (w_db w') = mget n (w_db w))) /\
    (exists rules, read_rules_file conf = inl rules /\ forall x, lists (w_db w') name x <-> ships a x /\ verdict re INSTALL rules x true).
  Proof.
    intros [OK _] AG E. apply add_run_ret in E as (info & rules & ins & non & post & w1 & w2 & m2 & kl & w3 & m3 & w5 & m5 & E1 & E2 & _ & E4 & E5 & E6 & E7 & E8 & -> & _).
    assert (D1 : w_db w1 = w_db w).
    { destruct (o_scripts o); [eapply pre_run_db; eauto|]. inversion E5; auto. }
    assert (O5 : forall k, k <> name -> mget k (w_db w5) = mget k (w_db w3)) by (intros k Nk; apply (move_meta_db root name _ _ _ _ k E8 Nk)).
    assert (FO : files_ok ins) by (eapply ins_files_ok; eauto; eapply archive_files_ok; eauto).
    pose proof (open_name _ _ _ _ _ _ E1) as [An Sh]. cbn [add_files_refs fst]. rewrite post_run_db. cbn [w_db r_files with_files].
    split; [exact An|]. split; [|split].
    - unfold put_file. rewrite mget_mset, seqb_refl. discriminate.
    - intros n N. assert (Z : mget n (put_file name (L "files") (text_of ins) (w_db w5)) = mget n (w_db w2)).
      { unfold put_file. rewrite mget_mset, (proj2 (seqb_neq n name)) by auto. rewrite O5 by auto. eapply phase_upgrade_db; eauto. }
      rewrite <- D1 in *. destruct (conflicts_same o rules name ins w1 m w2 m2 n AG OK E6) as [S F]. split.
      + apply (same_trans _ (w_db w2)); [exact S|apply same_ext, Z].
      + intro Fo. rewrite Z, (F Fo). reflexivity.
    - exists rules. split; [exact E2|]. intro x. rewrite (final_lists name ins w5 (w_db w3) [] name x O5 FO).
      apply install_rules_spec in E4 as [A _]. rewrite <- Sh, <- A. split; [intros [[_ H]|[H _]]; [exact H|congruence]|intro H; left; split; [reflexivity|exact H]].
  Qed.
  (** an add that stops part way: the package itself may be gone, nothing new is there *)
  Lemma add_stop o conf a w m e w' : inv (w_db w) -> agree (w_db w) m -> add_run o conf a w m = Stop e w' ->
    (forall n, ~ archive_name a n -> same_but_files (w_db w) (w_db w') n) /\ (forall n, mget n (w_db w) = None -> mget n (w_db w') = None).
  Proof.
    intros [OK _] AG E. unfold DbModel.add_run in E.
    assert (Z : forall u, w_db u = w_db w -> (forall n, ~ archive_name a n -> same_but_files (w_db w) (w_db u) n) /\ (forall n, mget n (w_db w) = None -> mget n (w_db u) = None)).
    { intros u ->. split; [intros n _; apply same_refl|auto]. }
    destruct (open_archive junk machine root a) as [[name info]| |] eqn:Eo; [|injection E as _ <-; apply Z; reflexivity|injection E as _ <-; apply Z; reflexivity].
    destruct (read_rules_file conf) as [rules|] eqn:Err; [|injection E as _ <-; apply Z; reflexivity].
    destruct (name_exists m name && negb (o_upgrade o)); [injection E as _ <-; apply Z; reflexivity|].
    destruct (negb (name_exists m name) && o_upgrade o); [injection E as _ <-; apply Z; reflexivity|].
    destruct (apply_install_rules re rules (r_files info)) as [[[ins non] post]|] eqn:Ei; [|injection E as _ <-; apply Z; reflexivity].
    assert (P1 : forall w1, (if o_scripts o then pre_run sh root a w else inr w) = inr w1 \/ (if o_scripts o then pre_run sh root a w else inr w) = inl w1 -> w_db w1 = w_db w).
    { intros w1 H. destruct (o_scripts o); [eapply pre_run_db; eauto|]. destruct H as [H|H]; inversion H; auto. }
    destruct (if o_scripts o then pre_run sh root a w else inr w) as [w1|w1] eqn:Ep; [injection E as _ <-; apply Z, P1; auto|].
    assert (D1 : w_db w1 = w_db w) by (apply P1; auto). clear P1.
    set (cf := conflicts root name ins (w_fs w1) (m_pkgs m)) in *.
    match type of E with (match ?x with _ => _ end) = _ => destruct x as [e1|[w2 m2]] eqn:Ec; [injection E as _ <-; apply Z, D1|] end.
    assert (P2 : forall n, same_but_files (w_db w) (w_db w2) n).
    { intro n. rewrite <- D1. destruct cf as [|c cf'] eqn:Ecf; [inversion Ec; subst; apply same_refl|]. destruct (o_force o); [|discriminate].
      destruct (if o_upgrade o then get_keep_list re rules (c :: cf') else Some []) as [kl0|]; [|discriminate].
      assert (St : strip_refs root (c :: cf') kl0 (w1, m) = (w2, m2)) by congruence. apply strip_refs_parts in St as [_ [-> _]].
      apply strip_same; rewrite D1; auto. }
    assert (Y : forall u, (forall n, n <> name -> mget n (w_db u) = mget n (w_db w2)) -> (mget name (w_db w2) = None -> mget name (w_db u) = None) ->
      (forall n, ~ archive_name a n -> same_but_files (w_db w) (w_db u) n) /\ (forall n, mget n (w_db w) = None -> mget n (w_db u) = None)).
    { intros u H1 H2. pose proof (open_name _ _ _ _ _ _ Eo) as [An _]. split.
      - intros n Nn. assert (N : n <> name) by congruence. apply (same_trans _ (w_db w2)); [apply P2|apply same_ext, H1, N].
      - intros n G. apply (proj1 (P2 n)) in G. destruct (str_eq_dec n name) as [->|N]; [apply H2, G|rewrite H1; auto]. }
    match type of E with (match ?x with _ => _ end) = _ => destruct x as [[e1 w3]|[[w3 m3] kl]] eqn:Eu end.
    - assert (E3 : w_db w3 = w_db w2).
      { destruct (o_upgrade o); [|discriminate]. destruct (get_keep_list re rules ins) as [kl|]; [|inversion Eu; reflexivity].
        destruct (remove_refs _ _ _); inversion Eu; reflexivity. }
      inversion E; subst. apply Y; [intros n _; rewrite E3; reflexivity|rewrite E3; auto].
    - assert (E3 : (forall n, n <> name -> mget n (w_db w3) = mget n (w_db w2)) /\ (mget name (w_db w2) = None -> mget name (w_db w3) = None)).
      { destruct (o_upgrade o) eqn:U; [|inversion Eu; subst; auto]. destruct (get_keep_list re rules ins) as [k|] eqn:K; [|discriminate].
        destruct (remove_refs junk name (remove_files root name k (w2, mark_auto junk name m2))) as [wm|] eqn:Rr; [|discriminate]. inversion Eu; subst. split.
        - intros n N. refine (phase_upgrade_db junk re root o rules name ins w2 m2 kl w3 m3 n _ N). right. auto.
        - intro G. cbn [remove_files] in Rr. unfold remove_refs in Rr. cbn [w_db] in Rr. rewrite G in Rr. discriminate. }
      destruct E3 as [E3 E4].
      destruct (move_meta root name (World (install_archive root a kl non (w_fs w3)) (w_db w3), m3)) as [[w5 m5]| |]; [discriminate| |];
        inversion E; subst; cbn [w_db]; apply Y; auto.
  Qed.

  Lemma run_all_app force scripts conf u v w m : run_all force scripts conf (u ++ v) w m =
    match run_all force scripts conf u w m with Ret _ w1 m1 => run_all force scripts conf v w1 m1 | Stop e w1 => Stop e w1 end.
  Proof.
    revert w m. induction u as [|[sd a] u IH]; intros w m; [reflexivity|]. cbn [app DbModel.run_all].
    destruct (add_run (Opts force (upgrade_flag junk machine root a m) scripts) conf a w (set_dep sd m)) as [n w' m'|e w']; [apply IH|reflexivity].
  Qed.
  Definition nameds (l : list (bool * archive)) : Prop := Forall (fun p => named junk machine root (snd p)) l.
  Lemma set_dep_agree d sd m : agree d m -> agree d (set_dep sd m).
  Proof. destruct sd; auto. Qed.
  Lemma add_next o conf a w m name w' m' : inv (w_db w) -> agree (w_db w) m -> named junk machine root a -> add_run o conf a w m = Ret name w' m' ->
    inv (w_db w') /\ agree (w_db w') m'.
  Proof. intros I AG N E. pose proof (add_fine junk machine re sh root o conf a w m I AG N) as [H1 H2]. rewrite E in H1, H2. cbn in H1, H2. auto. Qed.
  Lemma run_next force scripts conf l w m w' m' : nameds l -> inv (w_db w) -> agree (w_db w) m -> run_all force scripts conf l w m = Ret tt w' m' ->
    inv (w_db w') /\ agree (w_db w') m'.
  Proof. intros N I AG E. pose proof (run_all_fine junk machine re sh root force scripts conf l N w m I AG) as [H1 H2]. rewrite E in H1, H2. cbn in H1, H2. auto. Qed.
  (** packages that are not in the list *)
  Lemma run_frame force scripts conf l : nameds l -> forall w m w' m', inv (w_db w) -> agree (w_db w) m -> run_all force scripts conf l w m = Ret tt w' m' ->
    forall n, (forall sd a, In (sd, a) l -> ~ archive_name a n) -> same_but_files (w_db w) (w_db w') n /\ (force = false -> mget n (w_db w') = mget n (w_db w)).
  Proof.
    induction l as [|[sd a] l IH]; intros N w m w' m' I AG E n F; cbn [DbModel.run_all] in E; [inversion E; subst; split; [apply same_refl|reflexivity]|].
    inversion N as [|? ? N1 N2]; subst. cbn [snd] in N1.
    destruct (add_run (Opts force (upgrade_flag junk machine root a m) scripts) conf a w (set_dep sd m)) as [nm w1 m1|e w1] eqn:Ea; [|discriminate].
    pose proof (set_dep_agree _ sd m AG) as AG0. destruct (add_next _ _ _ _ _ _ _ _ I AG0 N1 Ea) as [I1 AG1].
    destruct (add_step _ _ _ _ _ _ _ _ I AG0 Ea) as (An & _ & S1 & _).
    assert (Nn : n <> nm) by (intros ->; apply (F sd a (or_introl eq_refl)), An).
    destruct (S1 n Nn) as [S2 S3]. destruct (IH N2 w1 m1 w' m' I1 AG1 E n) as [S4 S5]; [intros sd' a' J; apply (F sd' a' (or_intror J))|].
    split; [exact (same_trans _ _ _ _ S2 S4)|]. intro Fo. rewrite (S5 Fo). apply S3. exact Fo.
  Qed.
  (** an archive of the list *)
  Lemma run_split force scripts conf u sd a v w m w' m' : run_all force scripts conf (u ++ (sd, a) :: v) w m = Ret tt w' m' ->
    exists w1 m1 name w2 m2, run_all force scripts conf u w m = Ret tt w1 m1 /\
      add_run (Opts force (upgrade_flag junk machine root a m1) scripts) conf a w1 (set_dep sd m1) = Ret name w2 m2 /\ run_all force scripts conf v w2 m2 = Ret tt w' m'.
  Proof.
    rewrite run_all_app. destruct (run_all force scripts conf u w m) as [[] w1 m1|e w1]; [|discriminate]. cbn [DbModel.run_all].
    destruct (add_run (Opts force (upgrade_flag junk machine root a m1) scripts) conf a w1 (set_dep sd m1)) as [name w2 m2|e w2] eqn:Ea; [|discriminate].
    intro E. exists w1, m1, name, w2, m2. auto.
  Qed.
  (** distinct names *)
  Definition distinct (l : list (bool * archive)) : Prop := forall u p v q w n, l = u ++ p :: v ++ q :: w -> archive_name (snd p) n -> ~ archive_name (snd q) n.
  Lemma distinct_after l u p v n : distinct l -> l = u ++ p :: v -> archive_name (snd p) n -> forall sd a, In (sd, a) v -> ~ archive_name a n.
  Proof. intros D -> A sd a J. apply in_split in J as (v1 & v2 & ->). exact (D u p v1 (sd, a) v2 n eq_refl A). Qed.
  Lemma distinct_before l u p v n : distinct l -> l = u ++ p :: v -> archive_name (snd p) n -> forall sd a, In (sd, a) u -> ~ archive_name a n.
  Proof. intros D E A sd a J B. apply in_split in J as (u1 & u2 & ->). rewrite <- app_assoc in E. cbn [app] in E. exact (D u1 (sd, a) u2 p v n E B A). Qed.
  Lemma run_listed force scripts conf l w m w' m' sd a : nameds l -> distinct l -> inv (w_db w) -> agree (w_db w) m -> run_all force scripts conf l w m = Ret tt w' m' -> In (sd, a) l ->
    exists name rules, archive_name a name /\ mget name (w_db w') <> None /\ read_rules_file conf = inl rules /\
      (forall x, lists (w_db w') name x -> ships a x /\ verdict re INSTALL rules x true) /\
      (force = false -> forall x, ships a x -> verdict re INSTALL rules x true -> lists (w_db w') name x).
  Proof.
    intros N D I AG E J. apply in_split in J as (u & v & ->). pose proof E as E0. apply run_split in E as (w1 & m1 & name & w2 & m2 & E1 & E2 & E3).
    apply Forall_app in N as [Nu N]. inversion N as [|? ? Na Nv]; subst. cbn [snd] in Na.
    destruct (run_next _ _ _ _ _ _ _ _ Nu I AG E1) as [I1 AG1]. pose proof (set_dep_agree _ sd m1 AG1) as AG2.
    destruct (add_next _ _ _ _ _ _ _ _ I1 AG2 Na E2) as [I2 AG3]. destruct (add_step _ _ _ _ _ _ _ _ I1 AG2 E2) as (An & G & _ & rules & Rr & Ls).
    destruct (run_frame _ _ _ _ Nv _ _ _ _ I2 AG3 E3 name) as [(S1 & S2 & S3) S4].
    { exact (distinct_after _ u (sd, a) v name D eq_refl An). }
    exists name, rules. split; [exact An|]. split; [rewrite S1; exact G|]. split; [exact Rr|]. split.
    - intros x H. apply Ls, S3, H.
    - intros Fo x H1 H2. apply (lists_ext (w_db w2) (w_db w') name x); [symmetry; apply S4, Fo|]. apply Ls. auto.
  Qed.
  (** whatever the outcome: the archives up to some point have been added, that one may have lost its package, the rest is untouched *)
  Lemma run_stop force scripts conf l : nameds l -> forall w m e w', inv (w_db w) -> agree (w_db w) m -> run_all force scripts conf l w m = Stop e w' ->
    exists u sd a v w1 m1, l = u ++ (sd, a) :: v /\ run_all force scripts conf u w m = Ret tt w1 m1 /\ inv (w_db w1) /\ agree (w_db w1) m1 /\
      (forall n, ~ archive_name a n -> same_but_files (w_db w1) (w_db w') n) /\ (forall n, mget n (w_db w1) = None -> mget n (w_db w') = None).
  Proof.
    induction l as [|[sd a] l IH]; intros N w m e w' I AG E; cbn [DbModel.run_all] in E; [discriminate|].
    inversion N as [|? ? N1 N2]; subst. cbn [snd] in N1. pose proof (set_dep_agree _ sd m AG) as AG0.
    destruct (add_run (Opts force (upgrade_flag junk machine root a m) scripts) conf a w (set_dep sd m)) as [nm w1 m1|e1 w1] eqn:Ea.
    - destruct (add_next _ _ _ _ _ _ _ _ I AG0 N1 Ea) as [I1 AG1]. destruct (IH N2 w1 m1 e w' I1 AG1 E) as (u & sd' & a' & v & w2 & m2 & -> & H1 & H2).
      exists ((sd, a) :: u), sd', a', v, w2, m2. split; [reflexivity|]. split; [cbn [DbModel.run_all]; rewrite Ea; exact H1|exact H2].
    - injection E as <- <-. exists [], sd, a, l, w, m. split; [reflexivity|]. split; [reflexivity|]. split; [exact I|]. split; [exact AG|].
      exact (add_stop _ _ _ _ _ _ _ I AG0 Ea).
  Qed.
End ManyRun.
