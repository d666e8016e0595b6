(** Installing stays in the root directory; the META file of the archive reaches its place. *)
From Verif Require Import Base BaseProofs StrModel StrSpec StrProofs RulesModel FsModel FsSpec FsProofs FsOps FsExtract
  MetaModel MetaSpec MetaProofs DbModel DbLoad DbOps DbRun EngineFs.

Lemma below_outside R q r : below q (R ++ r) -> ~ prefix_of R q -> below q R.
Proof.
  intros [s [Ns E]] N. apply app_eq_app in E as [l [[E1 E2]|[E1 E2]]].
  - exists l. subst R. split; auto. intros ->. apply N. exists []. rewrite !app_nil_r. reflexivity.
  - exfalso. apply N. exists l. auto.
Qed.
(** entries that resolve to the root itself are directories *)
Definition root_entries (a : archive) : Prop := forall x n, In (x, n) a -> comps x = [] -> n_kind n = KDir.

Section Root.
  Variable root : str.
  Let R := comps root.
  Lemma R_ne_app r : r <> [] -> R <> R ++ r.
  Proof. intros N E. apply (f_equal (@List.length str)) in E. rewrite app_length in E. destruct r; [congruence|cbn in E; lia]. Qed.

  Lemma entry_root keep non f x n : tree f -> dir_at f R -> (comps x = [] -> n_kind n = KDir) -> (In x keep -> exists cs, plain x cs) ->
    dir_at (install_entry root keep non f (x, n)) R /\
    (forall q, ~ prefix_of R q -> fget (install_entry root keep non f (x, n)) q = fget f q).
  Proof.
    intros T D RE PL.
    assert (TD : forall q r, ~ prefix_of R q -> below q (R ++ r) -> dir_at f q).
    { intros q r N B. pose proof (below_outside R q r B N) as B2. eapply tree_below; [exact T| |exact B2].
      destruct D as [m [D _]]. congruence. }
    assert (EX : forall name b g r, comps name = R ++ r -> extract f name n = (b, g) -> (r = [] -> n_kind n = KDir) ->
       dir_at g R /\ forall q, ~ prefix_of R q -> fget g q = fget f q).
    { intros name b g r C E K. pose proof (extract_spec _ _ _ _ _ T E) as [S0 [S1 [S2 [_ [_ [_ S6]]]]]]. rewrite C in *.
      assert (Q : forall q, ~ prefix_of R q -> fget g q = fget f q).
      { intros q N. assert (q <> R ++ r) by (intros ->; apply N; exists r; reflexivity).
        destruct (belowb q (R ++ r)) eqn:B; [apply belowb_below in B; apply S2; auto; eapply TD; eauto|].
        apply S1; auto. intro Y. apply belowb_below in Y. congruence. }
      split; auto. destruct r as [|c r].
      - rewrite app_nil_r in *. destruct b; [|rewrite (S0 eq_refl); auto]. destruct (S6 eq_refl (K eq_refl)) as [o [O1 [O2 _]]]. exists o. auto.
      - eapply dir_at_ext; [|exact D]. symmetry. apply S2; auto. apply R_ne_app. discriminate. }
    destruct (install_entry_cases root keep non f x n) as [->|[[_ [b E]]|[I [_ [b [g1 [E X]]]]]]]; auto.
    - apply (EX _ _ _ (comps x) (comps_orig root x) E RE).
    - destruct (EX _ _ _ (reject_comps ++ comps x) (comps_rejected root x) E ltac:(discriminate)) as [D1 Q1].
      destruct X as [->|[_ ->]]; auto. pose proof (extract_tree _ _ _ _ _ T E) as T1. destruct (PL I) as [cs P].
      pose proof (remove_rejected root g1 x cs P T1) as RR. fold R in RR. split.
      + destruct (RR R) as [Z|[_ [ds [es [_ [_ Z]]]]]]; [eapply dir_at_ext; [symmetry; exact Z|exact D1]|].
        exfalso. exact (R_ne_app (reject_comps ++ ds) ltac:(discriminate) Z).
      + intros q N. rewrite <- (Q1 q N). destruct (RR q) as [Z|[_ [ds [es [_ [_ Z]]]]]]; auto.
        exfalso. apply N. exists (reject_comps ++ ds). auto.
  Qed.
  Lemma install_root a keep non : (forall x, In x keep -> exists cs, plain x cs) -> root_entries a -> forall f, tree f -> dir_at f R ->
    dir_at (install_archive root a keep non f) R /\
    (forall q, ~ prefix_of R q -> fget (install_archive root a keep non f) q = fget f q).
  Proof.
    intro PL. induction a as [|[x n] a IH]; intros RE f T D; [split; [exact D|reflexivity]|].
    rewrite install_cons. destruct (entry_root keep non f x n T D) as [D1 Q1]; auto.
    { apply (RE x n). left. reflexivity. }
    destruct (IH ltac:(intros y m I; apply (RE y m); right; exact I) _ (install_entry_tree root keep non f (x, n) T) D1) as [D2 Q2].
    split; auto. intros q N. rewrite Q2, Q1; auto.
  Qed.

  (** *** a top level regular file shipped once *)
  Variable c : str.
  Hypothesis Cc : comp c.
  Let q := R ++ [c].
  Definition once (a : archive) (n : node) : Prop :=
    forall x m, In (x, m) a -> comps x = [c] -> x = c /\ m = n.
  Hypothesis Var : c <> L "var".
  Lemma q_not_rej r : ~ prefix_of q (R ++ reject_comps ++ r).
  Proof.
    intros [s E]. unfold q in E. rewrite <- app_assoc in E. apply app_inv_head in E. change (reject_comps ++ r) with (L "var" :: (tl reject_comps ++ r)) in E. cbn [app] in E. injection E as E _. apply Var; symmetry; exact E.
  Qed.
  Lemma meta_keep keep non f x m n : tree f -> n_kind n <> KDir -> (fget f q = Some n \/ dir_at f q) ->
    (comps x = [c] -> x = c /\ m = n) ->
    fget (install_entry root keep non f (x, m)) q = Some n \/ dir_at (install_entry root keep non f (x, m)) q.
  Proof.
    intros T K H O. destruct (install_entry_cases root keep non f x m) as [->|[[_ [b E]]|[_ [_ [b [g1 [E X]]]]]]]; auto.
    - pose proof (extract_spec _ _ _ _ _ T E) as [S0 [S1 [S2 [S3 [S4 [S5 S6]]]]]]. rewrite comps_orig in *. fold R in S0, S1, S2, S3, S4, S5, S6.
      destruct (path_eq_dec (comps x) [c]) as [Ex|Nx].
      + destruct (O Ex) as [-> ->]. rewrite Ex in *. fold q in S5. destruct b; [left; auto|]. rewrite (S0 eq_refl). auto.
      + assert (Nq : q <> R ++ comps x) by (unfold q; intro Z; apply app_inv_head in Z; auto).
        destruct H as [H|H]; [|right; eapply dir_at_ext; [symmetry; apply S2; auto|exact H]].
        destruct (belowb q (R ++ comps x)) eqn:B.
        * apply belowb_below in B. destruct (is_dir m) eqn:D.
          -- destruct b; [right; apply S4; auto|]. rewrite (S0 eq_refl). auto.
          -- apply is_dir_false in D. left. apply S3; auto.
        * left. rewrite S1; auto. intro Y. apply belowb_below in Y. congruence.
    - pose proof (extract_spec _ _ _ _ _ T E) as [_ [S1 _]]. rewrite comps_rejected in S1. fold R in S1.
      pose proof (q_not_rej (comps x)) as NR.
      assert (G1 : fget g1 q = fget f q).
      { apply S1; [intro Z; apply NR; exists []; rewrite app_nil_r; auto | intros [s [_ Z]]; apply NR; exists s; auto]. }
      assert (G2 : fget (install_entry root keep non f (x, m)) q = fget f q).
      { destruct X as [->|[_ ->]]; auto. pose proof (extract_tree _ _ _ _ _ T E) as T1.
        destruct (removeFile_gen g1 (reject_dir root) (rejected_name root x) T1) as [_ RF].
        destruct (RF q) as [Z|[_ [Z _]]]; [congruence|]. rewrite comps_rejected in Z. fold R in Z. contradiction. }
      destruct H as [H|H]; [left; congruence|]. right. eapply dir_at_ext; [symmetry; exact G2|exact H].
  Qed.
  Lemma comps_c : comps c = [c].
  Proof. change c with (join slash [c]) at 1. apply comps_join. constructor; auto. Qed.
  Lemma meta_set keep non f n : tree f -> dir_at f R -> n_kind n <> KDir -> ~ In c keep -> ~ In c non ->
    fget (install_entry root keep non f (c, n)) q = Some n \/ dir_at (install_entry root keep non f (c, n)) q.
  Proof.
    intros T D K NK NN. unfold install_entry. apply smem_nIn in NK, NN. rewrite NN. rewrite NK, andb_false_r. rewrite seqb_refl.
    destruct (extract f (orig_name root c) n) as [b g] eqn:E. assert (X : (let (b0, g0) := (b, g) in if b0 then g0 else g0) = g) by (destruct b; reflexivity).
    replace (if b then g else g) with g by (destruct b; reflexivity). clear X.
    pose proof (extract_spec _ _ _ _ _ T E) as [S0 [_ [_ [_ [_ [S5 _]]]]]]. rewrite comps_orig in S5. fold R in S5. rewrite comps_c in S5. fold q in S5.
    destruct b; [left; auto|]. rewrite (S0 eq_refl). right.
    unfold extract in E. rewrite comps_orig in E. fold R in E. rewrite comps_c in E. fold q in E.
    destruct q as [|z zs] eqn:Eq; [unfold q in Eq; destruct R; discriminate|]. rewrite <- Eq in *. clear Eq.
    apply is_dir_false in K. rewrite K in E. destruct (blocked f [] q) eqn:B.
    - exfalso. apply blocked_true in B as [u [v [o [U1 [U2 [U3 [U4 U5]]]]]]]. cbn in U4. unfold q in U3.
      assert (P : u = R \/ below u R).
      { destruct (exists_last U2) as [v' [y ->]]. rewrite app_assoc in U3. apply app_inj_tail in U3 as [U3 _].
        destruct v' as [|y' v']; [left; rewrite app_nil_r in U3; auto|]. right. exists (y' :: v'). split; [discriminate|auto]. }
      assert (DU : dir_at f u).
      { destruct P as [->|P]; auto. eapply tree_below; [exact T| |exact P]. destruct D as [d [D _]]. congruence. }
      destruct DU as [o' [O1 O2]]. congruence.
    - destruct (fget f q) as [o|] eqn:G; [|discriminate]. destruct (is_dir o && has_child f q) eqn:Z; [|discriminate].
      apply andb_true_iff in Z as [Z _]. exists o. split; auto. apply is_dir_kind, Z.
  Qed.
  Lemma install_once a keep non n : In (c, n) a -> once a n -> n_kind n <> KDir -> ~ In c keep -> ~ In c non ->
    (forall x, In x keep -> exists cs, plain x cs) -> root_entries a ->
    forall f, tree f -> dir_at f R -> fget (install_archive root a keep non f) q = Some n \/ dir_at (install_archive root a keep non f) q.
  Proof.
    intros I O K NK NN PL RE.
    assert (B : forall a f, once a n -> tree f -> (fget f q = Some n \/ dir_at f q) ->
      fget (install_archive root a keep non f) q = Some n \/ dir_at (install_archive root a keep non f) q).
    { clear I O RE a. induction a as [|[x m] a IH]; intros f O T H; [exact H|]. rewrite install_cons. apply IH.
      - intros y z Iy. apply O. right. exact Iy.
      - apply install_entry_tree, T.
      - apply meta_keep; auto. apply O. left. reflexivity. }
    induction a as [|[x m] a IH]; intros f T D; [destruct I|]. rewrite install_cons.
    assert (T1 := install_entry_tree root keep non f (x, m) T).
    assert (O1 : once a n) by (intros y z Iy; apply O; right; exact Iy).
    destruct I as [I|I].
    - inversion I; subst x m. apply B; auto. apply meta_set; auto.
    - apply IH; auto.
      + intros y z Iy. apply (RE y z). right. exact Iy.
      + apply entry_root; auto. apply (RE x m). left. reflexivity.
  Qed.
End Root.
