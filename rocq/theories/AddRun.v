(** Decomposition of a successful add at the level of the whole session, scripts off. *)
From Verif Require Import Base BaseProofs StrModel StrSpec StrProofs RulesModel RulesSpec RulesProofs FsModel FsSpec FsProofs FsOps FsExtract
  MetaModel MetaSpec MetaProofs DbModel DbSpec DbLoad DbOps DbRun DbInv EngineFs EngineRoot DbFacts DbProps RemoveProps.

(** the package is marked as installed automatically *)
Definition automatic (d : disk) (n : str) : Prop := meta_has d n (L "d1").

(** lines read by the line reader are lines it can read again *)
Lemma chunks_good n s : forall cur k, 0 < k -> length cur + k = n -> ~ In nl cur ->
  Forall (fun c => length c <= n /\ forall u v, c = u ++ nl :: v -> v = []) (chunks n k cur s).
Proof.
  induction s as [|c s IH]; intros cur k K Le N; cbn [chunks].
  - destruct cur as [|x cur]; constructor; [|constructor]. rewrite rev_length. split; [lia|]. intros u v E. exfalso. apply N. apply in_rev. rewrite E. apply in_app_iff. right. left. reflexivity.
  - destruct (ceqb c nl) eqn:B.
    + apply ceqb_eq in B. subst c. constructor; [|apply IH; [lia|cbn; lia|intros []]].
      cbn [rev]. rewrite app_length, rev_length. cbn [List.length]. split; [lia|]. intros u v E.
      destruct v as [|y v] using rev_ind; auto. exfalso. change (u ++ nl :: v ++ [y]) with (u ++ (nl :: v) ++ [y]) in E. rewrite app_assoc in E.
      apply app_inj_tail in E as [E _]. apply N. apply in_rev. rewrite E. apply in_app_iff. right. left. reflexivity.
    + assert (Nc : c <> nl) by (intros ->; rewrite ceqb_refl in B; discriminate).
      assert (N' : ~ In nl (c :: cur)) by (intros [E|E]; auto).
      assert (H : Forall (fun c => length c <= n /\ forall u v, c = u ++ nl :: v -> v = []) (rev (c :: cur) :: chunks n n [] s)).
      { constructor; [|apply IH; [lia|cbn; lia|intros []]]. rewrite rev_length. cbn [List.length]. split; [lia|]. intros u v E.
        exfalso. apply N'. apply in_rev. rewrite E. apply in_app_iff. right. left. reflexivity. }
      destruct k as [|[|k]]; [lia|exact H|]. apply IH; [lia|cbn [List.length]; lia|exact N'].
Qed.
Lemma cstr_prefix s : exists r, s = cstr s ++ r.
Proof. induction s as [|c s [r IH]]; [exists []; reflexivity|]. cbn. destruct (ceqb c zero); [exists (c :: s); reflexivity|]. exists r. cbn. congruence. Qed.
Lemma cstr_no_zero s : ~ In zero (cstr s).
Proof. apply (proj1 (proj2 (until_nul_cstr s (cstr s)) eq_refl)). Qed.
Lemma parse_lines_good c ls : parse_lines c = Some ls -> good_lines ls.
Proof.
  unfold parse_lines. pose proof BUFSIZ_big as BB. remember (BUFSIZ - 1) as n eqn:En. intro E.
  pose proof (chunks_good n c [] n ltac:(lia) ltac:(cbn; lia) ltac:(intros [])) as G.
  unfold good_lines. rewrite <- En. revert ls E. induction G as [|x l [G1 G2] _ IH]; intros ls E; cbn [map_opt] in E; [inversion E; constructor|].
  destruct (store_line x) as [y|] eqn:Ex; [|discriminate]. destruct (map_opt store_line l) as [ys|]; [|discriminate].
  inversion E; subst ls. constructor; [|apply IH; reflexivity]. unfold store_line in Ex.
  destruct (cstr x) as [|d t] eqn:C; [discriminate|]. assert (Hy : y = removelast (d :: t)) by (inversion Ex; reflexivity). subst y. clear Ex.
  assert (Z : exists z, cstr x = removelast (d :: t) ++ [z]) by (exists (last (d :: t) zero); rewrite C; apply app_removelast_last; discriminate).
  destruct Z as [z Z]. set (u := removelast (d :: t)) in *. clearbody u. destruct (cstr_prefix x) as [r Er]. rewrite Z in Er.
  split; [|split].
  - intro I. apply in_split in I as [p [q ->]]. assert (V : q ++ [z] ++ r = []) by (apply (G2 p); rewrite Er, <- !app_assoc; reflexivity).
    destruct q; discriminate.
  - intro I. apply (cstr_no_zero x). rewrite Z. apply in_app_iff. auto.
  - rewrite Er in G1. rewrite !app_length in G1. cbn [List.length] in G1. unfold str in *. lia.
Qed.

Section AddRun.
  Variables (junk : bool) (machine : str) (re : str -> str -> option bool) (sh : str -> fs -> fs * bool) (root : str).
  Hypothesis Rs : ends_slash root = true.
  Notation session := (session junk machine re sh root).

  Lemma load_auto (d : disk) m n r : load junk d = Ok m -> mget n (m_pkgs m) = Some r -> (r_auto r = true <-> automatic d n).
  Proof.
    intros E G. apply load_spec in E as [_ [P _]]. apply P in G as [_ [dir [G Lp]]].
    apply load_pkg_ok in Lp as [ls [c [r0 [M [_ [Em ->]]]]]]. cbn [r_auto with_files].
    rewrite (meta_fold _ _ n (step_auto n) _ _ _ Em), auto_fold. unfold automatic, meta_has. split.
    - intros [H|I]; [discriminate|]. destruct (mget (L "META") dir) as [t|] eqn:Mt; [|subst ls; destruct I]. unfold parse_set in M.
      destruct (parse_lines t) as [l|] eqn:Pt; [|discriminate]. inversion M; subst. rewrite set_of_In in I.
      exists dir, t, l. split; [exact G|]. split; [exact Mt|]. split; [exact Pt|exact I].
    - intros [dir' [c' [l [G' [Mt [Pt I]]]]]]. rewrite G in G'. inversion G'; subst dir'. rewrite Mt in M. unfold parse_set in M. rewrite Pt in M.
      inversion M; subst. right. apply set_of_In, I.
  Qed.

  (** the flag handed to moveMetaFilesPackage *)
  Definition flag_spec (o : opts) (sd : bool) (d : disk) (name : str) (b : bool) : Prop :=
    b = true <-> (sd = true \/ junk = true \/ (o_upgrade o = true /\ automatic d name)).
  Definition kept (o : opts) rules (x : str) : Prop := o_upgrade o = true /\ verdict re UPGRADE rules x false.

  Lemma add_session_full o sd conf a w w' : no_dot_name a -> session (Add o sd conf a) w = (None, w') ->
    exists w1 name info rules ins non post l1 l2 kl d3 m3 w5 m5,
      w_db w1 = w_db w /\ (if o_scripts o then pre_run sh root a (World (cleanup_meta (w_fs w) root) (w_db w)) else inr (World (cleanup_meta (w_fs w) root) (w_db w))) = inr w1 /\
      open_archive junk machine root a = Ok (name, info) /\ read_rules_file conf = inl rules /\
      apply_install_rules re rules (r_files info) = Some (ins, non, post) /\
      (o_upgrade o = true <-> known (w_db w) name) /\
      (o_force o = false -> l1 = []) /\
      (forall x, In x l1 <-> conflicting re root rules a name (w_db w) (w_fs w1) x /\ ~ kept o rules x) /\
      (forall x, In x kl <-> In x ins /\ kept o rules x) /\
      ssorted l1 /\ ssorted l2 /\
      (forall x, In x l2 <-> o_upgrade o = true /\ lists_alone (w_db w) name x /\ ~ In x kl) /\
      (o_upgrade o = true -> mget name (w_db w) <> None) /\
      flag_spec o sd (w_db w) name (m_dep m3) /\
      (o_force o = false -> forall n, n <> name -> mget n d3 = mget n (w_db w)) /\
      move_meta root name (World (install_archive root a kl non (del_files root l2 (del_files root l1 (w_fs w1)))) d3, m3) = Ok (w5, m5) /\
      w' = post_run sh root (o_scripts o) (World (w_fs w5) (put_file name (L "files") (text_of ins) (w_db w5))) /\
      (exists m w2 m2 w3, load junk (w_db w) = Ok m /\ name_exists (set_dep sd m) name = o_upgrade o /\
        phase_conflicts re root o rules name ins w1 (set_dep sd m) w2 m2 /\ phase_upgrade junk re root o rules name ins w2 m2 kl w3 m3 /\
        w_fs w3 = del_files root l2 (del_files root l1 (w_fs w1))).
  Proof.
    intros ND E. apply session_add_none in E as [m [name [m' [Lo E]]]].
    apply add_run_ret in E as (info & rules & ins & non & post & w1 & w2 & m2 & kl & w3 & m3 & w5 & m5 & E1 & E2 & E3 & E4 & E5 & E6 & E7 & E8 & E9 & _).
    assert (Dw : w_db w1 = w_db w).
    { change (w_db w) with (w_db (World (cleanup_meta (w_fs w) root) (w_db w))). destruct (o_scripts o); [eapply pre_run_db; eauto|]. inversion E5; auto. }
    pose proof E6 as E6'. pose proof E7 as E7'. unfold phase_conflicts in E6. rewrite set_dep_pkgs in E6. cbv zeta in E6.
    set (cf := conflicts root name ins (w_fs w1) (m_pkgs m)) in *.
    assert (CS : forall x, In x cf <-> conflicting re root rules a name (w_db w) (w_fs w1) x).
    { intro x. rewrite <- Dw in Lo |- *. apply (conflicts_spec junk machine re root Rs rules a info name m w1 ins non post x Lo E1 ND E4). }
    assert (SS := load_keys _ _ _ Lo). assert (SC : ssorted cf) by apply conflicts_sorted.
    pose proof (open_name _ _ _ _ _ _ E1) as [An Sh].
    assert (Nn : nodot name) by (intros v ->; exact (ND v An)).
    assert (EX : o_upgrade o = true <-> known (w_db w) name).
    { rewrite <- (name_exists_known junk (w_db w) m name Lo). unfold name_exists in *. rewrite set_dep_alias in E3. rewrite E3. tauto. }
    pose proof (ins_files_ok _ _ _ _ _ _ E4 (archive_files_ok _ _ _ _ _ _ E1)) as [SI _].
    assert (ICF : forall x, In x cf -> In x ins) by (intros x I; apply conflicts_In in I; tauto).
    (* first deletion *)
    assert (P2 : exists l1, (o_force o = false -> l1 = [] /\ w2 = w1 /\ m2 = set_dep sd m) /\ ssorted l1 /\
      (forall x, In x l1 <-> In x cf /\ ~ kept o rules x) /\ w_fs w2 = del_files root l1 (w_fs w1) /\
      m_dep m2 = m_dep (set_dep sd m) /\
      (forall n, mget n (m_pkgs m2) = match mget n (m_pkgs m) with Some r => Some (strip_rec cf r) | None => None end) /\
      (ssorted (keys (m_pkgs m2))) /\ (forall n, mget n (w_db w2) = None <-> mget n (w_db w) = None)).
    { destruct E6 as [[C [-> ->]]|[C [Fo [kl0 [K St]]]]].
      - exists []. split; [auto|]. split; [constructor|]. split; [intro x; rewrite C; cbn; tauto|]. split; [reflexivity|]. split; [reflexivity|].
        rewrite set_dep_pkgs. split; [|split; [exact SS|intro n; rewrite Dw; tauto]]. intro n. destruct (mget n (m_pkgs m)) as [r|]; auto.
        rewrite C. unfold strip_rec. cbn [sminus fold_left]. rewrite with_files_id. reflexivity.
      - exists (sminus cf kl0). split; [congruence|]. apply strip_refs_parts in St as [S1 [S2 S3]]. rewrite set_dep_pkgs in S2, S3.
        split; [apply sminus_sorted, SC|]. split; [|split; [exact S1|]].
        + intro x. rewrite sminus_In. unfold kept. destruct (o_upgrade o) eqn:U.
          * apply keep_list_spec in K as [K _]. rewrite K. split; (intros [A B]; split; [exact A|]); intros [_ V]; apply B; auto.
          * inversion K; subst kl0. split; (intros [A B]; split; [exact A|]); [intros [V _]; discriminate|intros []].
        + split; [|split; [|split]].
          * rewrite S3. apply strip_fold_alias.
          * intro n. rewrite S3, strip_fold_mem by (apply ssorted_NoDup, SS). destruct (mget n (m_pkgs m)) as [r|] eqn:G.
            -- destruct (length (sminus (r_files r) cf) =? length (r_files r)) eqn:B; auto. cbn [snd]. rewrite set_dep_pkgs, G.
               apply Nat.eqb_eq in B. apply sminus_same in B. unfold strip_rec. rewrite B, with_files_id. reflexivity.
            -- cbn [snd]. rewrite set_dep_pkgs. exact G.
          * rewrite S3. apply strip_sorted. cbn [snd]. rewrite set_dep_pkgs. exact SS.
          * intro n. rewrite S2, strip_fold_disk by (apply ssorted_NoDup, SS). cbn [fst]. rewrite Dw. destruct (mget n (m_pkgs m)) as [r|] eqn:G; [|tauto].
            destruct (length (sminus (r_files r) cf) =? length (r_files r)); [tauto|].
            pose proof (load_spec _ _ _ Lo) as [_ [P _]]. apply P in G as [_ [dir [G _]]]. rewrite G. split; discriminate. }
    destruct P2 as [l1 [F1 [SL1 [I1 [Fs2 [Dp2 [Mp2 [Sk2 Db2]]]]]]]].
    assert (KL : forall x, In x kl <-> In x ins /\ kept o rules x).
    { intro x. unfold kept. destruct E7 as [[U [-> _]]|[U [K _]]].
      - rewrite U. split; [intros []|intros [_ [V _]]; discriminate].
      - apply keep_list_spec in K as [K _]. rewrite K, U. tauto. }
    assert (P3 : exists l2, ssorted l2 /\ (forall x, In x l2 <-> o_upgrade o = true /\ lists_alone (w_db w) name x /\ ~ In x kl) /\
       w_fs w3 = del_files root l2 (w_fs w2) /\ (o_upgrade o = true -> mget name (w_db w) <> None) /\
       (forall n, n <> name -> mget n (w_db w3) = mget n (w_db w2)) /\ flag_spec o sd (w_db w) name (m_dep m3)).
    { assert (JD : m_dep m = junk) by (apply load_spec in Lo; tauto).
      assert (JS : m_dep (set_dep sd m) = true <-> sd = true \/ junk = true).
      { rewrite <- JD. destruct sd; cbn; intuition discriminate. }
      destruct E7 as [[U [-> [-> ->]]]|[U [K Rr]]].
      - exists []. split; [constructor|]. split; [intro x; rewrite U; split; [intros []|intros [V _]; discriminate]|].
        split; [reflexivity|]. split; [congruence|]. split; [reflexivity|]. unfold flag_spec. rewrite Dp2, JS, U. intuition discriminate.
      - cbn [remove_files] in Rr. match type of Rr with context [del_files root ?x _] => set (l2 := x) in Rr end.
        match type of Rr with remove_refs junk name (?x, ?y) = _ => set (w2' := x) in Rr; set (m2' := y) in Rr end.
        assert (D3 : m_dep m3 = m_dep m2').
        { unfold remove_refs in Rr. destruct (mget name (w_db w2')); [|discriminate]. inversion Rr; reflexivity. }
        apply remove_refs_shape in Rr as [R1 [R2 [R3 _]]]. unfold w2' in R1, R2, R3. cbn [w_db w_fs] in R1, R2, R3.
        assert (G0 : mget name (w_db w) <> None) by (intro Z; apply R2, Db2; exact Z).
        destruct (load_record junk (w_db w) m name Lo) as [r Gr]; [apply nondot_spec, Nn|exact G0|].
        assert (Gm : mget name (m_pkgs m2) = Some (strip_rec cf r)) by (rewrite Mp2, Gr; reflexivity).
        assert (MA : m_pkgs (mark_auto junk name m2) = m_pkgs m2).
        { unfold mark_auto. rewrite Gm. destruct (r_auto (strip_rec cf r)); reflexivity. }
        assert (MD : m_dep (mark_auto junk name m2) = r_auto r || m_dep m2).
        { unfold mark_auto. rewrite Gm. change (r_auto (strip_rec cf r)) with (r_auto r). destruct (r_auto r); reflexivity. }
        exists l2. split; [|split; [|split; [exact R1|split; [auto|split; [exact R3|]]]]].
        + unfold l2. apply minus_refs_sorted, sminus_sorted. rewrite MA, Gm. cbn [strip_rec with_files r_files]. apply sminus_sorted.
          eapply load_files_sorted; eauto.
        + intro x. unfold l2. rewrite minus_refs_In, MA, Gm, sminus_In. cbn [strip_rec with_files r_files]. rewrite sminus_In.
          rewrite (load_lists junk (w_db w) m name r x Lo Gr). unfold lists_alone.
          assert (OwnC : lists (w_db w) name x -> ~ In x cf).
          { intros Ln I. apply CS in I. destruct I as [_ [_ [_ [_ I]]]]. auto. }
          split.
          * intros [[[A B] C] D]. split; [exact U|]. split; [|exact C]. split; auto. intros n N1 N2 Ln.
            destruct (load_record junk (w_db w) m n Lo) as [r' G'].
            { apply nondot_spec, N1. }
            { destruct Ln as [dir [c [G _]]]. congruence. }
            apply (D n (strip_rec cf r')); [apply In_mdel; split; auto; apply mget_In; rewrite Mp2, G'; reflexivity|].
            cbn [strip_rec with_files r_files]. apply sminus_In. split; auto. eapply load_lists; eauto.
          * intros [_ [[A B] C]]. split; [split; [split; auto|auto]|]. intros n r2 I Ir. apply In_mdel in I as [I Nm].
            apply (In_mget n r2 _ (ssorted_NoDup _ Sk2)) in I. rewrite Mp2 in I. destruct (mget n (m_pkgs m)) as [r'|] eqn:G'; [|discriminate].
            inversion I; subst r2. cbn [strip_rec with_files r_files] in Ir. apply sminus_In in Ir as [Ir _]. apply (B n); auto.
            -- refine (proj1 (nondot_spec n) _). pose proof (load_spec _ _ _ Lo) as [_ [P _]]. apply P in G' as [G' _]. exact G'.
            -- eapply load_lists; eauto.
        + unfold flag_spec. rewrite D3. unfold m2'. cbn [m_dep]. rewrite MD, Dp2, orb_true_iff, JS, U.
          rewrite (load_auto (w_db w) m name r Lo Gr). tauto. }
    destruct P3 as [l2 [SL2 [I2 [Fs3 [G3 [D3 FS]]]]]].
    exists w1, name, info, rules, ins, non, post, l1, l2, kl, (w_db w3), m3, w5, m5.
    split; [exact Dw|]. split; [exact E5|]. split; [exact E1|]. split; [exact E2|]. split; [exact E4|]. split; [exact EX|]. split; [intro Z; apply (F1 Z)|].
    split; [intro x; rewrite I1, CS; tauto|]. split; [exact KL|]. split; [exact SL1|]. split; [exact SL2|]. split; [exact I2|].
    split; [exact G3|]. split; [exact FS|]. split.
    - intros Z n N. rewrite D3 by auto. destruct (F1 Z) as [_ [-> _]]. rewrite Dw. reflexivity.
    - split; [rewrite Fs3, Fs2 in E8; exact E8|]. split; [exact E9|]. exists m, w2, m2, w3. split; [exact Lo|]. split; [exact E3|].
      split; [exact E6'|]. split; [exact E7'|]. rewrite Fs3, Fs2. reflexivity.
  Qed.
  Lemma add_session o sd conf a w w' : no_dot_name a -> session (Add o sd conf a) w = (None, w') ->
    exists w1 name info rules ins non post l1 l2 kl d3 m3 w5 m5,
      w_db w1 = w_db w /\ (if o_scripts o then pre_run sh root a (World (cleanup_meta (w_fs w) root) (w_db w)) else inr (World (cleanup_meta (w_fs w) root) (w_db w))) = inr w1 /\
      open_archive junk machine root a = Ok (name, info) /\ read_rules_file conf = inl rules /\
      apply_install_rules re rules (r_files info) = Some (ins, non, post) /\
      (o_upgrade o = true <-> known (w_db w) name) /\
      (o_force o = false -> l1 = []) /\
      (forall x, In x l1 <-> conflicting re root rules a name (w_db w) (w_fs w1) x /\ ~ kept o rules x) /\
      (forall x, In x kl <-> In x ins /\ kept o rules x) /\
      ssorted l1 /\ ssorted l2 /\
      (forall x, In x l2 <-> o_upgrade o = true /\ lists_alone (w_db w) name x /\ ~ In x kl) /\
      (o_upgrade o = true -> mget name (w_db w) <> None) /\
      flag_spec o sd (w_db w) name (m_dep m3) /\
      (o_force o = false -> forall n, n <> name -> mget n d3 = mget n (w_db w)) /\
      move_meta root name (World (install_archive root a kl non (del_files root l2 (del_files root l1 (w_fs w1)))) d3, m3) = Ok (w5, m5) /\
      w' = post_run sh root (o_scripts o) (World (w_fs w5) (put_file name (L "files") (text_of ins) (w_db w5))).
  Proof.
    intros ND E. destruct (add_session_full o sd conf a w w' ND E) as (w1 & name & info & rules & ins & non & post & l1 & l2 & kl & d3 & m3 & w5 & m5 & H1 & H2 & H3 & H4 & H5 & H6 & H7 & H8 & H9 & H10 & H11 & H12 & H13 & H14 & H15 & H16 & H17 & _).
    exists w1, name, info, rules, ins, non, post, l1, l2, kl, d3, m3, w5, m5. tauto.
  Qed.
End AddRun.
