(** Proofs about remove(3), removeFile and archive extraction. *)
From Verif Require Import Base BaseProofs StrModel StrSpec StrProofs FsModel FsSpec FsProofs.

Lemma dir_at_ext f g p : fget f p = fget g p -> dir_at f p -> dir_at g p.
Proof. intros E [n [H K]]. exists n. rewrite <- E. auto. Qed.

(** ** rm *)
Lemma rm_spec f p b f' : rm f p = (b, f') ->
  (b = false /\ f' = f) \/
  (b = true /\ f' = fdel (comps p) f /\ exists n, lstat f p = Some n /\ fget f (comps p) = Some n /\
     (n_kind n = KDir -> comps p <> [] /\ last_is_dot p = false /\ has_child f (comps p) = false)).
Proof.
  unfold rm. destruct (lstat f p) as [n|] eqn:E; [|intro H; inversion H; auto].
  assert (G : fget f (comps p) = Some n).
  { unfold lstat in E. destruct (fget f (comps p)) as [m|]; [|discriminate].
    destruct (ends_slash p && negb (is_dir m)); [discriminate|congruence]. }
  destruct (is_dir n) eqn:D.
  - destruct (comps p) as [|c cs] eqn:C; cbn [orb]; [intro H; inversion H; auto|].
    destruct (last_is_dot p) eqn:Ld; cbn [orb]; [intro H; inversion H; auto|].
    destruct (has_child f (c :: cs)) eqn:Hc; intro H; inversion H; auto. right.
    split; [auto|split; [auto|]]. exists n. split; [auto|split; [auto|]]. intros _. split; [congruence|auto].
  - intro H; inversion H. right. split; [auto|split; [auto|]]. exists n. split; [auto|split; [auto|]].
    intro K. apply is_dir_kind in K. congruence.
Qed.
Lemma rm_frame f p q : q <> comps p -> fget (snd (rm f p)) q = fget f q.
Proof.
  intro N. destruct (rm f p) as [b f'] eqn:E. cbn. apply rm_spec in E as [[_ ->]|[_ [-> _]]]; auto.
  apply fget_fdel_other, N.
Qed.
Lemma tree_no_child_nondir f p : tree f -> ~ dir_at f p -> forall q, below p q -> fget f q = None.
Proof.
  intros T N q B. destruct (fget f q) eqn:E; auto. exfalso. apply N. eapply tree_below; eauto. congruence.
Qed.
Lemma tree_fdel f p : tree f -> p <> [] -> (forall q, below p q -> fget f q = None) -> tree (fdel p f).
Proof.
  intros [T0 T] N H. split.
  - eapply dir_at_ext; [|exact T0]. symmetry. apply fget_fdel_other. auto.
  - intros q c G. rewrite fget_fdel in G. destruct (peqb (q ++ [c]) p) eqn:E; [congruence|].
    pose proof (T q c G) as D. eapply dir_at_ext; [|exact D]. symmetry. apply fget_fdel_other. intros ->.
    apply G. apply H. exists [c]. split; [congruence|auto].
Qed.
Lemma rm_tree f p : tree f -> tree (snd (rm f p)).
Proof.
  intro T. destruct (rm f p) as [b f'] eqn:E. cbn. apply rm_spec in E as [[_ ->]|[_ [-> [n [_ [G K]]]]]]; auto.
  destruct (is_dir n) eqn:D.
  - apply is_dir_kind in D. destruct (K D) as [K1 [_ K2]]. apply tree_fdel; auto. apply has_child_false, K2.
  - assert (ND : ~ dir_at f (comps p)).
    { intros [m [M1 M2]]. rewrite G in M1. inversion M1; subst. apply is_dir_kind in M2. congruence. }
    apply tree_fdel; auto.
    + intro E. apply ND. rewrite E. apply T.
    + apply tree_no_child_nondir; auto.
Qed.
(** remove succeeds on anything that exists except non-empty directories *)
Lemma rm_ok f p n : lstat f p = Some n -> (n_kind n = KDir -> comps p <> [] /\ last_is_dot p = false /\ has_child f (comps p) = false) ->
  rm f p = (true, fdel (comps p) f).
Proof.
  intros E K. unfold rm. rewrite E. destruct (is_dir n) eqn:D; auto. apply is_dir_kind in D. destruct (K D) as [K1 [K2 K3]].
  destruct (comps p); [congruence|]. rewrite K2, K3. reflexivity.
Qed.

(** ** dirname *)
Lemma drop_slashes_spec s : exists a, s = a ++ drop_slashes s /\ Forall (eq slash) a /\ (drop_slashes s = [] \/ exists c t, drop_slashes s = c :: t /\ c <> slash).
Proof.
  induction s as [|c t [a [E [F D]]]]; cbn [drop_slashes].
  - exists []. auto.
  - destruct (ceqb c slash) eqn:B.
    + apply ceqb_eq in B. subst. exists (slash :: a). split; [cbn; congruence|]. auto.
    + apply ceqb_neq in B. exists []. split; auto. split; auto. right. eauto.
Qed.
Lemma chop_slashes_spec s : exists b, s = chop_slashes s ++ b /\ Forall (eq slash) b /\ (chop_slashes s = [] \/ exists t c, chop_slashes s = t ++ [c] /\ c <> slash).
Proof.
  unfold chop_slashes. destruct (drop_slashes_spec (rev s)) as [a [E [F D]]]. exists (rev a). split; [|split].
  - apply (f_equal (@rev ascii)) in E. rewrite rev_involutive, rev_app_distr in E. exact E.
  - apply Forall_forall. intros x Hx. rewrite Forall_forall in F. apply F, in_rev, Hx.
  - destruct D as [->|[c [t [-> N]]]]; [left; reflexivity|]. right. exists (rev t), c. auto.
Qed.
Lemma split_slashes b : Forall (eq slash) b -> split_char b slash = [].
Proof. intro F. apply (tokens_det (eq slash) b); [apply split_char_tokens | apply tok_end, F]. Qed.
Lemma split_app_slashes s b : Forall (eq slash) b -> split_char (s ++ b) slash = split_char s slash.
Proof.
  revert s. induction b as [|c b IH]; intros s F; [rewrite app_nil_r; auto|]. inversion F; subst.
  replace (s ++ slash :: b) with ((s ++ [slash]) ++ b) by (rewrite <- app_assoc; auto).
  rewrite IH by auto. apply split_snoc_slash.
Qed.
Lemma split_chop s : split_char (chop_slashes s) slash = split_char s slash.
Proof. destruct (chop_slashes_spec s) as [b [E [F _]]]. rewrite E at 2. symmetry. apply split_app_slashes, F. Qed.
Lemma chop_length s : length (chop_slashes s) <= length s.
Proof. destruct (chop_slashes_spec s) as [b [E _]]. rewrite E at 2. rewrite app_length. lia. Qed.

Lemma dirname_split p : dirname p = L "/" \/ dirname p = L "." \/
  exists c, split_char p slash = split_char (dirname p) slash ++ split_char c slash /\ length (dirname p) < length p.
Proof.
  unfold dirname. pose proof (split_chop p) as SP. pose proof (chop_length p) as LP.
  destruct (chop_slashes p) as [|x p1] eqn:E; [destruct p; auto|].
  destruct (crfind slash (x :: p1)) as [n|] eqn:R; [|auto].
  apply crfind_Some in R as [_ [_ E1]]. remember (x :: p1) as q eqn:Q.
  pose proof (chop_length (firstn n q)) as LC. pose proof (split_chop (firstn n q)) as SC.
  assert (LN : length q = length (firstn n q) + S (length (skipn (S n) q))).
  { rewrite E1 at 1. rewrite app_length. reflexivity. }
  clear Q.
  destruct (chop_slashes (firstn n q)) as [|y d] eqn:E2; auto.
  right. right. exists (skipn (S n) q). split; [|lia]. rewrite <- SP. rewrite E1 at 1.
  replace (firstn n q ++ slash :: skipn (S n) q) with ((firstn n q ++ [slash]) ++ skipn (S n) q) by (rewrite <- app_assoc; auto).
  rewrite split_app.
  - rewrite split_snoc_slash. f_equal. symmetry. exact SC.
  - right. apply ends_slash_spec. eauto.
Qed.
Lemma dirname_prefix p : exists r, comps p = comps (dirname p) ++ r.
Proof.
  destruct (dirname_split p) as [E|[E|[c [E _]]]]; [rewrite E; cbn; eauto | rewrite E; cbn; eauto |].
  exists (comps c). unfold comps. rewrite E. apply filter_app.
Qed.
Lemma rm_root_fails f p : p = L "/" \/ p = L "." -> dir_at f [] -> fst (rm f p) = false.
Proof.
  intros H [n [G K]]. unfold rm, lstat. apply is_dir_kind in K.
  assert (C : comps p = []) by (destruct H as [->| ->]; reflexivity). rewrite C, G, K. cbn [negb].
  rewrite andb_false_r, K. reflexivity.
Qed.

(** ** removeFile *)
Definition prefix_of (q p : path) : Prop := exists r, p = q ++ r.
Lemma remove_file_gen k : forall f base file, tree f ->
  (length file + 2 <= k \/ ((file = L "/" \/ file = L ".") /\ 1 <= k)) ->
  exists f', remove_file k f base file = Some f' /\ tree f' /\
    (forall q, fget f' q = fget f q \/ (fget f' q = None /\ prefix_of q (comps file) /\ q <> [] /\
       (q = comps file \/ dir_at f q))).
Proof.
  induction k as [|k IH]; intros f base file T H; [lia|]. cbn [remove_file].
  destruct (seqb file base) eqn:B; [exists f; auto|].
  destruct (rm f file) as [b f'] eqn:R. destruct b.
  2:{ apply rm_spec in R as [[_ ->]|[? _]]; [|discriminate]. exists f. auto. }
  assert (NR : ~ (file = L "/" \/ file = L ".")).
  { intro X. pose proof (rm_root_fails f file X (proj1 T)) as Y. rewrite R in Y. discriminate. }
  destruct H as [H|[H _]]; [|contradiction].
  assert (T' : tree f') by (pose proof (rm_tree f file T) as X; rewrite R in X; exact X).
  apply rm_spec in R as [[? _]|[_ [-> [n [_ [G _]]]]]]; [discriminate|].
  destruct (IH (fdel (comps file) f) base (dirname file) T') as [g [G1 [G2 G3]]].
  { destruct (dirname_split file) as [E|[E|[c [_ E]]]]; [right|right|left]; auto; [split; [auto|lia] | split; [auto|lia] | lia]. }
  exists g. split; [auto|split; [auto|]]. intro q. destruct (dirname_prefix file) as [r Er].
  destruct (G3 q) as [E|[E1 [[r' E2] [E3 E4]]]].
  - rewrite E, fget_fdel. destruct (peqb q (comps file)) eqn:P; auto. apply peqb_eq in P. subst q.
    right. split; [auto|]. split; [exists []; rewrite app_nil_r; auto|]. split; [|auto].
    intro E0. destruct T as [[m [M K]] _]. destruct T' as [[m' [M' _]] _]. rewrite E0 in M'. rewrite fget_fdel_same in M'. discriminate.
  - right. split; [auto|]. split; [exists (r' ++ r); rewrite app_assoc, <- E2; auto|]. split; [auto|].
    destruct (path_eq_dec q (comps file)) as [->|Nq]; [auto|right].
    destruct E4 as [->|D].
    + destruct (fget f (comps (dirname file))) as [m|] eqn:M.
      * assert (B2 : below (comps (dirname file)) (comps file)).
        { exists r. split; auto. intros ->. rewrite app_nil_r in Er. auto. }
        eapply tree_below; eauto. congruence.
      * assert (B2 : below (comps (dirname file)) (comps file)).
        { exists r. split; auto. intros ->. rewrite app_nil_r in Er. auto. }
        eapply tree_below; eauto. congruence.
    + eapply dir_at_ext; [|exact D]. apply fget_fdel_other; auto.
Qed.
Lemma removeFile_gen f base file : tree f ->
  tree (removeFile f base file) /\
  (forall q, fget (removeFile f base file) q = fget f q \/
     (fget (removeFile f base file) q = None /\ prefix_of q (comps file) /\ q <> [] /\ (q = comps file \/ dir_at f q))).
Proof.
  intro T. unfold removeFile. destruct (remove_file_gen (length file + 2) f base file T) as [g [-> H]]; [left; lia|]. exact H.
Qed.
Lemma removeFile_total f base file : tree f -> exists f', remove_file (length file + 2) f base file = Some f' /\ f' = removeFile f base file.
Proof.
  intro T. unfold removeFile. destruct (remove_file_gen (length file + 2) f base file T) as [g [-> H]]; [left; lia|]. eauto.
Qed.

(** removeFile below a cleanly written base directory *)
Lemma chop_nonslash t c : c <> slash -> chop_slashes (t ++ [c]) = t ++ [c].
Proof.
  intro N. unfold chop_slashes. rewrite rev_app_distr. cbn [rev app drop_slashes].
  assert (ceqb c slash = false) as -> by (apply ceqb_neq; auto). cbn [rev]. rewrite rev_involutive. reflexivity.
Qed.
Definition clean_base (b : str) : Prop := exists t c, b = t ++ [c] /\ c <> slash.
Lemma comp_clean c : comp c -> clean_base c.
Proof.
  intros [N [S _]]. destruct (exists_last N) as [t [x ->]]. exists t, x. split; auto. intros ->. apply S. apply in_app_iff. cbn. auto.
Qed.
Lemma clean_app a b : clean_base b -> clean_base (a ++ b).
Proof. intros [t [c [-> N]]]. exists (a ++ t), c. rewrite app_assoc. auto. Qed.
Lemma dirname_child d c : clean_base d -> comp c -> dirname (d ++ slash :: c) = d.
Proof.
  intros [t [x [Ed Nx]]] C. pose proof (comp_clean c C) as [t' [y [-> Ny]]]. destruct C as [_ [S _]]. unfold dirname.
  assert (A : d ++ slash :: t' ++ [y] = (d ++ slash :: t') ++ [y]) by (rewrite <- app_assoc; reflexivity).
  rewrite A, chop_nonslash by auto.
  destruct ((d ++ slash :: t') ++ [y]) as [|z l] eqn:E; [destruct d; discriminate|]. rewrite <- A.
  rewrite crfind_app by auto. rewrite firstn_app, Nat.sub_diag, firstn_all. cbn [firstn]. rewrite app_nil_r.
  rewrite Ed, chop_nonslash by auto. destruct (t ++ [x]) eqn:E2; [destruct t; discriminate|]. reflexivity.
Qed.
Definition under (base : str) (cs : path) : str := base ++ slash :: join slash cs.
Lemma under_snoc base cs c : cs <> [] -> under base (cs ++ [c]) = under base cs ++ slash :: c.
Proof. intro N. unfold under. rewrite join_app; [|auto|congruence]. cbn [join]. rewrite <- app_assoc. reflexivity. Qed.
Lemma comps_under base cs : Forall comp cs -> comps (under base cs) = comps base ++ cs.
Proof.
  intro F. unfold under. replace (base ++ slash :: join slash cs) with ((base ++ [slash]) ++ join slash cs) by (rewrite <- app_assoc; auto).
  rewrite comps_app by (right; apply ends_slash_spec; eauto). rewrite comps_snoc_slash, comps_join; auto.
Qed.
Lemma clean_under base cs : cs <> [] -> Forall comp cs -> clean_base (under base cs).
Proof.
  intros N F. destruct (exists_last N) as [ds [c ->]]. apply Forall_app in F as [F1 F2]. inversion F2; subst.
  unfold under. apply clean_app. destruct ds as [|d ds].
  - cbn. apply (clean_app [slash]), comp_clean. auto.
  - rewrite join_app by congruence. change (join slash [c]) with c.
    replace (slash :: join slash (d :: ds) ++ slash :: c) with ((slash :: join slash (d :: ds) ++ [slash]) ++ c)
      by (cbn [app]; rewrite <- app_assoc; reflexivity).
    apply clean_app, comp_clean. auto.
Qed.
Lemma ends_slash_clean b : clean_base b -> ends_slash b = false.
Proof.
  intros [t [c [-> N]]]. unfold ends_slash. rewrite rev_app_distr. cbn. apply ceqb_neq; auto.
Qed.
Lemma last_dot_under base cs : cs <> [] -> Forall comp cs -> last_is_dot (under base cs) = false.
Proof.
  intros N F. unfold last_is_dot, under.
  replace (base ++ slash :: join slash cs) with ((base ++ [slash]) ++ join slash cs) by (rewrite <- app_assoc; auto).
  rewrite split_app by (right; apply ends_slash_spec; eauto). rewrite split_join.
  2:{ eapply Forall_impl; [|exact F]. intros a [A [B _]]. auto. }
  rewrite rev_app_distr. destruct (exists_last N) as [ds [c ->]]. rewrite rev_app_distr. cbn.
  apply Forall_app in F as [_ F]. inversion F as [|? ? [_ [_ D]] _]; subst. apply seqb_neq; auto.
Qed.
Lemma under_neq_base base cs : under base cs <> base.
Proof.
  unfold under. intro E. apply (f_equal (@List.length ascii)) in E. rewrite app_length in E. cbn in E. lia.
Qed.
(** what removeFile deletes below [base] *)
Lemma removeFile_under_gen base : clean_base base -> forall cs, cs <> [] -> Forall comp cs -> forall k f, tree f -> length cs < k ->
  exists f', remove_file k f base (under base cs) = Some f' /\ tree f' /\
   (forall q, fget f' q = fget f q \/
      (fget f' q = None /\ exists ds es, ds <> [] /\ cs = ds ++ es /\ q = comps base ++ ds)) /\
   (forall n, fget f (comps base ++ cs) = Some n -> (n_kind n <> KDir \/ has_child f (comps base ++ cs) = false) ->
      fget f' (comps base ++ cs) = None /\
      forall ds es, ds <> [] -> es <> [] -> cs = ds ++ es -> fget f' (comps base ++ ds) = None \/ has_child f' (comps base ++ ds) = true).
Proof.
  intros CB cs. induction cs as [|c cs IH] using rev_ind; intros N F k f T K; [congruence|].
  destruct k as [|k]; [lia|]. cbn [remove_file].
  assert (seqb (under base (cs ++ [c])) base = false) as -> by (apply seqb_neq, under_neq_base).
  pose proof (comps_under base _ F) as CU.
  destruct (rm f (under base (cs ++ [c]))) as [b f1] eqn:R. destruct b.
  - assert (T1 : tree f1) by (pose proof (rm_tree f (under base (cs ++ [c])) T) as X; rewrite R in X; exact X).
    apply rm_spec in R as [[? _]|[_ [E1 [n [_ [G KD]]]]]]; [discriminate|]. rewrite CU in *.
    apply Forall_app in F as [F1 F2]. inversion F2 as [|? ? Fc _]; subst. rewrite app_length in K. cbn [length] in K.
    destruct cs as [|d cs'].
    + (* parent is the base *)
      assert (under base ([] ++ [c]) = base ++ slash :: c) as -> by reflexivity.
      rewrite dirname_child by auto. destruct k; [cbn in K; lia|]. cbn [remove_file]. rewrite seqb_refl.
      exists (fdel (comps base ++ [] ++ [c]) f). split; [auto|split; [auto|split]].
      * intro q. rewrite fget_fdel. destruct (peqb q _) eqn:P; auto. apply peqb_eq in P. right. split; auto.
        exists [c], []. split; [congruence|]. split; auto.
      * intros m _ _. split; [apply fget_fdel_same|]. intros ds es D1 D2 E. exfalso.
        destruct ds as [|x [|y ds]]; [congruence | | discriminate]. cbn in E. inversion E; subst. congruence.
    + set (cs := d :: cs') in *. assert (Nc : cs <> []) by (unfold cs; congruence).
      rewrite under_snoc by auto. rewrite dirname_child by (auto using clean_under).
      destruct (IH Nc F1 k _ T1) as [g [G1 [G2 [G3 G4]]]]; [lia|].
      exists g. split; [auto|split; [auto|split]].
      * intro q. destruct (G3 q) as [E|[E1 [ds [es [D1 [D2 D3]]]]]].
        -- rewrite E, fget_fdel. destruct (peqb q _) eqn:P; auto. apply peqb_eq in P. right. split; auto.
           exists (cs ++ [c]), []. rewrite app_nil_r. split; [destruct cs; cbn; congruence|auto].
        -- right. split; auto. exists ds, (es ++ [c]). rewrite D2, app_assoc. auto.
      * intros m Gm Hm. split.
        { destruct (G3 (comps base ++ cs ++ [c])) as [E|[E1 [ds [es [D1 [D2 D3]]]]]]; auto.
          rewrite E. apply fget_fdel_same. }
        intros ds es D1 D2 E.
        assert (exists es', es = es' ++ [c] /\ cs = ds ++ es') as [es' [-> Ecs]].
        { destruct (exists_last D2) as [es' [x ->]]. exists es'. rewrite app_assoc in E. apply app_inj_tail in E as [-> ->]. auto. }
        set (f1 := fdel (comps base ++ cs ++ [c]) f) in *.
        destruct (has_child f1 (comps base ++ cs)) eqn:Hc.
        { (* the parent is not empty: nothing else is removed *)
          assert (Eg : g = f1).
          { destruct k; [lia|]. cbn [remove_file] in G1.
            assert (seqb (under base cs) base = false) as X by (apply seqb_neq, under_neq_base). rewrite X in G1. clear X.
            destruct (rm f1 (under base cs)) as [b f2] eqn:R2. apply rm_spec in R2 as [[-> ->]|[-> [-> [n2 [L2 [g2 K2]]]]]].
            - congruence.
            - exfalso. rewrite comps_under in * by auto.
              apply has_child_spec in Hc as [q [Bq Nq]]. pose proof (tree_below _ _ _ T1 Nq Bq) as [n3 [N3 K3]].
              rewrite g2 in N3. inversion N3; subst n3. destruct (K2 K3) as [_ [_ K4]].
              assert (has_child f1 (comps base ++ cs) = true); [|congruence]. apply has_child_spec. eauto. }
          subst g. right. apply has_child_spec in Hc as [q [Bq Nq]]. apply has_child_spec. exists q. split; auto.
          destruct es' as [|x es']; [rewrite app_nil_r in Ecs; congruence|]. rewrite Ecs in Bq. eapply below_trans; [|exact Bq].
          apply below_app. exists (x :: es'). split; [congruence|auto]. }
        destruct (fget f1 (comps base ++ cs)) as [m1|] eqn:M1.
        { destruct (G4 m1 eq_refl (or_intror eq_refl)) as [G5 G6]. destruct es' as [|x es'].
          - rewrite app_nil_r in Ecs. subst ds. left. auto.
          - apply (G6 ds (x :: es')); [auto|congruence|auto]. }
        { (* impossible: the removed file had a parent *)
          exfalso. assert (Bp : below (comps base ++ cs) (comps base ++ cs ++ [c])).
          { apply below_app. exists [c]. split; [congruence|auto]. }
          pose proof (tree_below f _ _ T ltac:(rewrite Gm; congruence) Bp) as [m2 [M2 _]].
          unfold f1 in M1. rewrite fget_fdel_other in M1; [congruence|]. intro E2. apply app_inv_head in E2.
          apply (f_equal (@List.length str)) in E2. rewrite app_length in E2. cbn in E2. lia. }
  - pose proof R as R0. apply rm_spec in R as [[_ ->]|[? _]]; [|discriminate]. exists f. split; [auto|split; [auto|split; [auto|]]].
    intros n G H. exfalso.
    assert (Ls : lstat f (under base (cs ++ [c])) = Some n).
    { unfold lstat. rewrite CU, G. rewrite ends_slash_clean by (apply clean_under; auto). reflexivity. }
    rewrite (rm_ok _ _ _ Ls) in R0; [discriminate|]. intro KD. rewrite CU. split; [|split].
    + destruct (comps base); [|cbn; congruence]. destruct cs; cbn; congruence.
    + apply last_dot_under; auto.
    + destruct H as [H|H]; [congruence|auto].
Qed.
Lemma join_length cs : Forall comp cs -> length cs <= S (length (join slash cs)).
Proof.
  induction cs as [|c cs IH]; intro F; [cbn; lia|]. inversion F as [|? ? C F']; subst. specialize (IH F').
  destruct cs as [|d cs]; [cbn; lia|]. cbn [join List.length] in *. rewrite app_length. cbn [List.length]. lia.
Qed.
Lemma removeFile_under base cs f : clean_base base -> cs <> [] -> Forall comp cs -> tree f ->
  let f' := removeFile f base (under base cs) in
  tree f' /\
   (forall q, fget f' q = fget f q \/
      (fget f' q = None /\ exists ds es, ds <> [] /\ cs = ds ++ es /\ q = comps base ++ ds)) /\
   (forall n, fget f (comps base ++ cs) = Some n -> (n_kind n <> KDir \/ has_child f (comps base ++ cs) = false) ->
      fget f' (comps base ++ cs) = None /\
      forall ds es, ds <> [] -> es <> [] -> cs = ds ++ es -> fget f' (comps base ++ ds) = None \/ has_child f' (comps base ++ ds) = true).
Proof.
  intros CB N F T. cbv zeta. unfold removeFile.
  destruct (removeFile_under_gen base CB cs N F (length (under base cs) + 2) f T) as [g [-> H]]; [|exact H].
  unfold under. rewrite app_length. cbn [List.length]. pose proof (join_length cs F). lia.
Qed.
