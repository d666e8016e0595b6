(** C19, C20, C21: 'cards remove'. *)
From Verif Require Import Base BaseProofs StrModel StrSpec StrProofs RulesModel FsModel FsSpec FsProofs MetaModel MetaSpec MetaProofs DbModel DbSpec DbLoad DbOps DbRun DbInv DbFacts DbProps RemoveProps AddRun Graph RemoveCmd RemoveCmdProofs DbExamples.

(** a manually installed package is [n] or needs it directly or indirectly *)
Definition wanted (d : disk) (n : str) : Prop := exists r, installed d r /\ ~ automatic d r /\ needs_all d r n.
(** [n] is the name of a group package (devel, doc, ...) of [x]; lib is not such a group *)
Definition group_package (groups : list str) (x n : str) : Prop := exists g, In g groups /\ g <> L "lib" /\ n = x ++ L "." ++ g.
(** [n] belongs to the base collection, and to no other *)
Definition base_package (d : disk) (n : str) : Prop := meta_has d n (L "cbase") /\ forall v, meta_has d n ("c"%char :: v) -> v = L "base".

Lemma real_groups_In groups g : In g (real_groups groups) <-> In g groups /\ g <> L "lib".
Proof. unfold real_groups. rewrite filter_In, negb_true_iff, seqb_neq. tauto. Qed.
Lemma obsolete_spec junk d m n : load junk d = Ok m -> (In n (obsolete (keys (m_pkgs m)) d m) <-> installed d n /\ ~ wanted d n).
Proof.
  intro E. unfold obsolete. rewrite filter_In, (load_installed junk d m n E), negb_true_iff.
  assert (H : smem n (needed (keys (m_pkgs m)) d m) = true <-> wanted d n).
  { rewrite smem_In, needed_spec. unfold wanted. split; intros [r H]; exists r.
    - destruct H as [M R]. apply (manual_spec junk d m r E) in M as [M1 M2]. split; [exact M1|split; [exact M2|]].
      apply (reach_needs (keys (m_pkgs m)) d (fun n => load_installed junk d m n E)), R.
    - destruct H as [M1 [M2 R]]. split; [apply (manual_spec junk d m r E); auto|]. apply (reach_needs (keys (m_pkgs m)) d (fun n => load_installed junk d m n E)), R. }
  destruct (smem n (needed (keys (m_pkgs m)) d m)).
  - split; [intros [_ K]; discriminate|]. intros [_ K]. exfalso. apply K, H. reflexivity.
  - split; [intros [A _]; split; [exact A|]; intro K; apply H in K; discriminate|]. intros [A _]. auto.
Qed.
Section RemoveCmdProps.
  Variables (junk : bool) (sh : str -> fs -> fs * bool) (root : str) (scripts : bool) (conf : option str) (force : bool) (groups : list str).
  Notation remove_cmd := (remove_cmd junk sh root scripts conf force groups).

  Lemma noarg w m : load junk (w_db w) = Ok m ->
    remove_cmd [] w = match rm_names junk sh root scripts conf (with_siblings groups m (obsolete (keys (m_pkgs m)) (w_db w) m)) (World (cleanup_meta (w_fs w) root) (w_db w)) m with
                      | RRet w' _ => (None, w') | RStop e w' => (Some e, w') end.
  Proof.
    intro E. unfold RemoveCmd.remove_cmd. cbv zeta. cbn [w_db]. rewrite E. cbn [sel_args].
    replace (add_siblings groups m []) with (@nil (str * str)).
    - cbn [rm_pairs]. unfold autoremove. cbn [w_db]. destruct (rm_names _ _ _ _ _ _ _ _); reflexivity.
    - destruct (add_siblings groups m []) as [|p t] eqn:A; [reflexivity|]. exfalso. assert (X : In p (add_siblings groups m [])) by (rewrite A; left; reflexivity).
      apply siblings_In in X as [[]|[_ [g [j [_ [[] _]]]]]].
  Qed.
  (** Without argument, the command leaves alone every package some manually installed package is or needs, as long as it is
      not the group package of an obsolete one. *)
  Theorem C19_needed_kept_partial w n : wanted (w_db w) n ->
    (forall x, group_package groups x n -> installed (w_db w) x -> wanted (w_db w) x) ->
    mget n (w_db (snd (remove_cmd [] w))) = mget n (w_db w).
  Proof.
    intros K S. destruct (load junk (w_db w)) as [m| |] eqn:E; [|unfold RemoveCmd.remove_cmd; cbv zeta; cbn [w_db]; rewrite E; reflexivity|unfold RemoveCmd.remove_cmd; cbv zeta; cbn [w_db]; rewrite E; reflexivity].
    rewrite (noarg w m E).
    assert (N : ~ In n (with_siblings groups m (obsolete (keys (m_pkgs m)) (w_db w) m))).
    { intro I. apply with_siblings_In in I as [I|[_ [g [x [G [I ->]]]]]].
      - apply (obsolete_spec junk _ _ _ E) in I as [_ I]. contradiction.
      - apply (obsolete_spec junk _ _ _ E) in I as [I1 I2]. apply I2, (S x); [|exact I1]. exists g. apply real_groups_In in G as [G1 G2]. unfold sibling. auto. }
    pose proof (rm_names_db junk sh root scripts conf (with_siblings groups m (obsolete (keys (m_pkgs m)) (w_db w) m)) (World (cleanup_meta (w_fs w) root) (w_db w)) m) as H.
    destruct (rm_names _ _ _ _ _ _ _ _) as [w' m'|e w']; cbn [snd]; [destruct H as [H _]|]; rewrite (H n N); reflexivity.
  Qed.
  (** and when it succeeds, every other installed package is gone *)
  Theorem C19_obsolete_gone w n : fst (remove_cmd [] w) = None -> installed (w_db w) n -> ~ wanted (w_db w) n -> gone (w_db (snd (remove_cmd [] w))) n.
  Proof.
    intros F I K. destruct (load junk (w_db w)) as [m| |] eqn:E; [|unfold RemoveCmd.remove_cmd in F; cbv zeta in F; cbn [w_db] in F; rewrite E in F; discriminate|unfold RemoveCmd.remove_cmd in F; cbv zeta in F; cbn [w_db] in F; rewrite E in F; discriminate].
    rewrite (noarg w m E) in *. pose proof (rm_names_db junk sh root scripts conf (with_siblings groups m (obsolete (keys (m_pkgs m)) (w_db w) m)) (World (cleanup_meta (w_fs w) root) (w_db w)) m) as H.
    destruct (rm_names _ _ _ _ _ _ _ _) as [w' m'|e w']; cbn [fst snd] in *; [|discriminate]. destruct H as [_ H]. apply H. apply with_siblings_In. left.
    apply (obsolete_spec junk _ _ _ E). auto.
  Qed.
  (** Naming a package some installed package depends on is refused: nothing of the database changes. *)
  Lemma sel_args_in_use d args i : In i args -> forall m acc, in_use m i = true -> exists j, sel_args d m args acc = inl j.
  Proof.
    induction args as [|k t IH]; intros I m acc U; [destruct I|]. cbn [sel_args]. destruct (seqb k (L "base") || in_use m k) eqn:B; [eauto|].
    destruct I as [->|I]; [rewrite U, orb_true_r in B; discriminate|]. unfold sel_arg.
    destruct (mget k (m_alias m)); (apply IH; [exact I|exact U]).
  Qed.
  Theorem C20_in_use_refused_partial w args i n : In i args -> installed (w_db w) n -> needs (w_db w) n i ->
    exists e, remove_cmd args w = (Some e, World (cleanup_meta (w_fs w) root) (w_db w)).
  Proof.
    intros I In_ Nd. unfold RemoveCmd.remove_cmd. cbv zeta. cbn [w_db]. destruct (load junk (w_db w)) as [m| |] eqn:E; [|eauto|eauto].
    destruct (sel_args_in_use (w_db w) args i I m []) as [j ->]; [|eauto]. apply (in_use_spec junk _ m i E). exists n. auto.
  Qed.
  Theorem C20_base_refused w args : In (L "base") args -> exists e, remove_cmd args w = (Some e, World (cleanup_meta (w_fs w) root) (w_db w)).
  Proof.
    intros I. unfold RemoveCmd.remove_cmd. cbv zeta. cbn [w_db]. destruct (load junk (w_db w)) as [m| |] eqn:E; [|eauto|eauto].
    assert (X : forall a m acc, In (L "base") a -> exists j, sel_args (w_db w) m a acc = inl j).
    { induction a as [|k t IH]; intros m0 acc J; [destruct J|]. cbn [sel_args]. destruct (seqb k (L "base") || in_use m0 k) eqn:B; [eauto|].
      destruct J as [->|J]; [rewrite seqb_refl in B; discriminate|]. destruct (sel_arg (w_db w) m0 k acc). apply IH, J. }
    destruct (X args m [] I) as [j ->]. eauto.
  Qed.

  (** *** C21 *)
  Lemma base_item d n : base_package d n -> disk_item d n "c" = L "base".
  Proof.
    intros [B1 B2]. unfold disk_item, tag_or_empty. 
    assert (X : forall ls, (forall v, In ("c"%char :: v) ls -> v = L "base") -> In (L "cbase") ls -> first_tag "c" ls = Some (L "base")).
    { induction ls as [|s t IH]; intros H I; [destruct I|]. cbn [first_tag]. destruct (has_tag "c" s) eqn:T.
      - apply has_tag_spec in T as [v ->]. cbn [skipn]. rewrite (H v (or_introl eq_refl)). reflexivity.
      - assert (G : first_tag "c" t = Some (L "base")) by (apply IH; [intros v K; apply H; right; exact K|]; destruct I as [->|I]; [discriminate|exact I]).
        destruct s as [|x v]; [exact G|]. cbn [has_tag] in T. rewrite T. exact G. }
    rewrite X; [reflexivity| |].
    - intros v I. apply B2, disk_lines_In, I.
    - apply disk_lines_In, B1.
  Qed.
  Lemma base_coll d m n r : load junk d = Ok m -> base_package d n -> mget n (m_pkgs m) = Some r -> r_coll r = L "base".
  Proof.
    intros E [B1 B2] G. apply load_spec in E as [_ [P _]]. apply P in G as [_ [dir [G Lp]]].
    apply load_pkg_ok in Lp as [ls [c [r0 [M [_ [Em ->]]]]]]. cbn [r_coll with_files].
    assert (Ls : ls = disk_lines d n).
    { unfold disk_lines. rewrite G. destruct (mget (L "META") dir) as [t|]; [|exact M]. rewrite M. reflexivity. }
    assert (St : forall r s r', meta_line n r s = Ok r' -> r_coll r' = set_field "c" (fun v => v) (r_coll r) s) by (intros; eapply step_coll; eassumption).
    rewrite (meta_fold _ _ n St _ _ _ Em). 
    assert (X : forall l a, (forall v, In ("c"%char :: v) l -> v = L "base") -> (a = L "base" \/ In (L "cbase") l) -> fold_left (set_field "c" (fun v => v)) l a = L "base").
    { induction l as [|s t IH]; intros a H J; cbn [fold_left]; [destruct J as [J|[]]; exact J|]. apply IH; [intros v K; apply H; right; exact K|].
      unfold set_field. destruct (has_tag "c" s) eqn:T.
      - apply has_tag_spec in T as [v ->]. left. cbn [skipn]. apply (H v). left. reflexivity.
      - destruct J as [J|[J|J]]; [left; exact J|subst s; discriminate|right; exact J]. }
    apply X; rewrite Ls; [intros v I; apply B2, disk_lines_In, I|right; apply disk_lines_In, B1].
  Qed.
  Definition all_base (n : str) (l : list (str * str)) : Prop := forall c, In (n, c) l -> c = L "base".
  Lemma rm_pairs_base l n : force = false -> n <> [] -> forall w m, all_base n l ->
    match rm_pairs junk sh root scripts conf force l w m with
    | RRet w' m' => mget n (w_db w') = mget n (w_db w) /\ mget n (m_pkgs m') = mget n (m_pkgs m)
    | RStop _ w' => mget n (w_db w') = mget n (w_db w)
    end.
  Proof.
    intros Fo Ne. induction l as [|[x c] t IH]; intros w m H; [split; reflexivity|]. assert (Ht : all_base n t) by (intros c' K; apply H; right; exact K).
    cbn [rm_pairs]. destruct x as [|a x]; [apply IH, Ht|]. destruct (seqb c (L "base") && negb force) eqn:B; [reflexivity|]. rewrite Fo, andb_true_r in B. apply seqb_neq in B.
    assert (N : n <> a :: x) by (intro K; apply B, (H c); left; rewrite K; reflexivity).
    pose proof (rm_run_db junk sh root scripts conf (a :: x) w m) as Hr. destruct (rm_run junk sh root scripts conf (a :: x) w m) as [u w' m'|e w']; [|cbv beta iota in Hr; rewrite Hr; reflexivity].
    destruct Hr as [R1 [R2 _]]. specialize (IH w' m' Ht). destruct (rm_pairs junk sh root scripts conf force t w' m') as [w2 m2|e w2].
    - destruct IH as [A B']. rewrite A, B'. split; [apply R1, N|apply R2, N].
    - rewrite IH. apply R1, N.
  Qed.
  Theorem C21_base_kept_partial w args n : force = false -> n <> [] -> base_package (w_db w) n -> installed (w_db w) n -> ~ automatic (w_db w) n ->
    (forall i, In i args -> ~ meta_has (w_db w) n ("A"%char :: i)) -> (forall x, ~ group_package groups x n) ->
    mget n (w_db (snd (remove_cmd args w))) = mget n (w_db w).
  Proof.
    intros Fo Ne B I A Al Gr. unfold RemoveCmd.remove_cmd. cbv zeta. cbn [w_db]. destruct (load junk (w_db w)) as [m| |] eqn:E; [|reflexivity|reflexivity].
    destruct (load_record junk (w_db w) m n E (proj2 (nondot_spec n) (proj1 I)) (proj2 I)) as [r Gn].
    assert (Sel : forall a m0 acc j, incl a args -> m_pkgs m0 = m_pkgs m -> (forall i, In i args -> i <> n -> mget i (m_alias m0) <> Some n) -> all_base n acc ->
      sel_args (w_db w) m0 a acc = inr j -> m_pkgs (fst j) = m_pkgs m /\ all_base n (snd j)).
    { induction a as [|i t IH]; intros m0 acc j Ia P Q Ab; cbn [sel_args]; [intro H; inversion H; subst; auto|].
      destruct (seqb i (L "base") || in_use m0 i); [discriminate|].
      assert (Ab1 : all_base n (by_coll m0 i acc)).
      { intros c K. unfold by_coll in K. apply fold_pins in K as [K|[[x rx] [K [_ K2]]]]; [apply Ab, K|]. cbn [fst snd] in K2. inversion K2; subst x c.
        rewrite P in K. apply (In_mget n rx (m_pkgs m) (ssorted_NoDup _ (load_keys _ _ _ E))) in K. exact (base_coll (w_db w) m n rx E B K). }
      assert (Ab2 : all_base n (match by_coll m0 i acc with [] => by_set m0 i (by_coll m0 i acc) | _ => by_coll m0 i acc end)).
      { destruct (by_coll m0 i acc) as [|p l]; [|exact Ab1]. intros c K. unfold by_set in K. apply fold_pins in K as [[]|[[x rx] [K [_ K2]]]]. cbn [fst snd] in K2. inversion K2; subst x c.
        rewrite P in K. apply (In_mget n rx (m_pkgs m) (ssorted_NoDup _ (load_keys _ _ _ E))) in K. exact (base_coll (w_db w) m n rx E B K). }
      assert (It : In i args) by (apply Ia; left; reflexivity).
      unfold sel_arg. destruct (mget i (m_alias m0)) as [al|] eqn:Ma.
      - apply IH; [intros y Y; apply Ia; right; exact Y|exact P|exact Q|]. intros c K. apply pins_In in K as [K|K]; [|apply Ab2, K]. inversion K as [[K1 K2]].
        destruct (str_eq_dec i n) as [->|Nin]; [apply base_item, B|]. exfalso. apply (Q i It Nin). rewrite Ma, K1. reflexivity.
      - apply IH; [intros y Y; apply Ia; right; exact Y|exact P| |].
        + intros k Ik Nk. cbn [m_alias]. rewrite mget_mset. destruct (seqb k i); [intro Z; apply Ne; congruence|apply Q; assumption].
        + intros c K. apply pins_In in K as [K|K]; [|apply Ab2, K]. exfalso. apply Ne. congruence. }
    destruct (sel_args (w_db w) m args []) as [i|[m1 l]] eqn:Es; [reflexivity|].
    destruct (Sel args m [] (m1, l) (incl_refl _) eq_refl) as [P1 Ab]; [| |exact Es|].
    { intros i Ii Nin Ma. pose proof (load_spec _ _ _ E) as [_ [_ [A1 _]]]. destruct (A1 _ _ Ma) as [r' [Gr' Hr]]. destruct Hr as [Hr|Hr]; [congruence|].
      apply (Al i Ii). apply (load_alias junk (w_db w) m n r' i E Gr'). exact Hr. }
    { intros c []. }
    cbn [fst snd] in P1, Ab.
    assert (Ab' : all_base n (add_siblings groups m1 l)).
    { intros c K. apply siblings_In in K as [K|[_ [g [j [G [_ K]]]]]]; [apply Ab, K|]. exfalso. apply (Gr (fst j)). exists g. apply real_groups_In in G as [G1 G2].
      unfold sibling in K. split; [exact G1|split; [exact G2|]]. congruence. }
    pose proof (rm_pairs_base (add_siblings groups m1 l) n Fo Ne (World (cleanup_meta (w_fs w) root) (w_db w)) m1 Ab') as H.
    destruct (rm_pairs junk sh root scripts conf force (add_siblings groups m1 l) _ m1) as [w1 m2|e w1]; [|exact H]. destruct H as [H1 H2].
    unfold autoremove.
    pose proof (rm_names_db junk sh root scripts conf (with_siblings groups m2 (obsolete (keys (m_pkgs m)) (w_db w1) m2)) w1 m2) as Hn.
    assert (N : ~ In n (with_siblings groups m2 (obsolete (keys (m_pkgs m)) (w_db w1) m2))).
    { intro K. apply with_siblings_In in K as [K|[_ [g [j [G [_ K]]]]]].
      - unfold obsolete in K. apply filter_In in K as [_ K]. apply negb_true_iff in K. apply not_true_iff_false in K. apply K. apply smem_In, needed_spec. exists n. split; [|constructor].
        unfold manual. apply in_map_iff. exists (n, r). split; [reflexivity|]. apply filter_In. split; [apply mget_In; rewrite H2, P1; exact Gn|].
        cbn [snd]. apply negb_true_iff. apply not_true_iff_false. intro T. apply A, (load_auto junk (w_db w) m n r E Gn), T.
      - apply (Gr j). exists g. apply real_groups_In in G as [G1 G2]. split; [exact G1|split; [exact G2|exact K]]. }
    destruct (rm_names _ _ _ _ _ _ _ _) as [w2 m3|e w2]; cbn [snd]; [destruct Hn as [Hn _]|]; rewrite (Hn n N); exact H1.
  Qed.
End RemoveCmdProps.
