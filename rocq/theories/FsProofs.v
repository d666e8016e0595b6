From Verif Require Import Base BaseProofs StrModel StrSpec StrProofs FsModel FsSpec.

(** ** paths *)
Lemma peqb_eq a : forall b, peqb a b = true <-> a = b.
Proof.
  induction a as [|x a IH]; intros [|y b]; cbn; try (split; congruence).
  rewrite andb_true_iff, seqb_eq, IH. split; [intros [-> ->]; auto | intro H; inversion H; auto].
Qed.
Lemma peqb_refl a : peqb a a = true. Proof. apply peqb_eq; auto. Qed.
Lemma peqb_neq a b : peqb a b = false <-> a <> b.
Proof. rewrite <- peqb_eq. destruct (peqb a b); split; congruence. Qed.
Lemma path_eq_dec (a b : path) : {a = b} + {a <> b}.
Proof. destruct (peqb a b) eqn:E; [left; apply peqb_eq | right; apply peqb_neq]; auto. Qed.
Lemma kind_eqb_eq a b : kind_eqb a b = true <-> a = b.
Proof. destruct a, b; cbn; split; congruence. Qed.
Lemma is_dir_kind n : is_dir n = true <-> n_kind n = KDir.
Proof. unfold is_dir. apply kind_eqb_eq. Qed.
Lemma is_dir_false n : is_dir n = false <-> n_kind n <> KDir.
Proof. rewrite <- is_dir_kind. destruct (is_dir n); split; congruence. Qed.

Lemma fget_fdel f p q : fget (fdel p f) q = if peqb q p then None else fget f q.
Proof.
  induction f as [|[r n] t IH]; cbn [fdel filter fget fst]; [destruct (peqb q p); auto|].
  fold (fdel p t). destruct (peqb p r) eqn:E; cbn [negb].
  - apply peqb_eq in E. subst r. rewrite IH. destruct (peqb q p) eqn:E2; reflexivity.
  - cbn [fget]. rewrite IH. destruct (peqb q r) eqn:E2; auto. apply peqb_eq in E2. subst r.
    destruct (peqb q p) eqn:E3; auto. apply peqb_eq in E3. subst. rewrite peqb_refl in E. discriminate.
Qed.
Lemma fget_fset f p q n : fget (fset p n f) q = if peqb q p then Some n else fget f q.
Proof. unfold fset. cbn [fget]. destruct (peqb q p) eqn:E; auto. rewrite fget_fdel, E. reflexivity. Qed.
Lemma fget_fset_same f p n : fget (fset p n f) p = Some n. Proof. rewrite fget_fset, peqb_refl. reflexivity. Qed.
Lemma fget_fset_other f p q n : q <> p -> fget (fset p n f) q = fget f q.
Proof. intro H. rewrite fget_fset, (proj2 (peqb_neq _ _) H). reflexivity. Qed.
Lemma fget_fdel_same f p : fget (fdel p f) p = None. Proof. rewrite fget_fdel, peqb_refl. reflexivity. Qed.
Lemma fget_fdel_other f p q : q <> p -> fget (fdel p f) q = fget f q.
Proof. intro H. rewrite fget_fdel, (proj2 (peqb_neq _ _) H). reflexivity. Qed.
Lemma fget_In f p : fget f p <> None <-> exists n, In (p, n) f.
Proof.
  induction f as [|[q n] t IH]; cbn; [firstorder|]. destruct (peqb p q) eqn:E.
  - apply peqb_eq in E. subst. split; [eauto | congruence].
  - rewrite IH. split; [firstorder|]. intros [m [H|H]]; [inversion H; subst; rewrite peqb_refl in E; discriminate | eauto].
Qed.

Lemma belowb_below p : forall q, belowb p q = true <-> below p q.
Proof.
  unfold below. induction p as [|x p IH]; intros [|y q]; cbn.
  - split; [discriminate|]. intros [r [H E]]. congruence.
  - split; [|auto]. intros _. exists (y :: q). split; congruence.
  - split; [discriminate|]. intros [r [H E]]. discriminate.
  - rewrite andb_true_iff, seqb_eq, IH. split.
    + intros [-> [r [H ->]]]. exists r. auto.
    + intros [r [H E]]. inversion E; subst. split; auto. exists r. auto.
Qed.
Lemma has_child_spec f p : has_child f p = true <-> exists q, below p q /\ fget f q <> None.
Proof.
  unfold has_child. rewrite existsb_exists. split.
  - intros [[q n] [H1 H2]]. cbn in H2. exists q. split; [apply belowb_below; auto|]. apply fget_In. eauto.
  - intros [q [H1 H2]]. apply fget_In in H2 as [n H2]. exists (q, n). split; auto. apply belowb_below; auto.
Qed.
Lemma has_child_false f p : has_child f p = false <-> forall q, below p q -> fget f q = None.
Proof.
  split.
  - intros H q B. destruct (fget f q) eqn:E; auto. assert (has_child f p = true); [|congruence].
    apply has_child_spec. exists q. split; auto. congruence.
  - intro H. destruct (has_child f p) eqn:E; auto. apply has_child_spec in E as [q [B N]]. elim N. auto.
Qed.
Lemma has_child_ext f g p : (forall q, fget f q = fget g q) -> has_child f p = has_child g p.
Proof.
  intro H. destruct (has_child g p) eqn:E.
  - apply has_child_spec in E as [q [B N]]. apply has_child_spec. exists q. rewrite H. auto.
  - rewrite has_child_false in E |- *. intros q B. rewrite H. auto.
Qed.

Lemma below_trans p q r : below p q -> below q r -> below p r.
Proof. intros [a [A ->]] [b [B ->]]. exists (a ++ b). split; [destruct a; cbn; congruence | rewrite app_assoc; auto]. Qed.
Lemma below_length p q : below p q -> length p < length q.
Proof. intros [r [R ->]]. rewrite app_length. destruct r; [congruence|cbn; lia]. Qed.
Lemma below_irrefl p : ~ below p p. Proof. intro H. apply below_length in H. lia. Qed.
Lemma below_app p q r : below q r -> below (p ++ q) (p ++ r).
Proof. intros [a [A ->]]. exists a. rewrite app_assoc. auto. Qed.
Lemma below_app_inv p q r : below (p ++ q) (p ++ r) -> below q r.
Proof. intros [a [A E]]. exists a. split; auto. rewrite <- app_assoc in E. apply app_inv_head in E. auto. Qed.
Lemma below_snoc p q c : below p (q ++ [c]) <-> p = q \/ below p q.
Proof.
  split.
  - intros [r [R E]]. destruct (exists_last R) as [r' [d ->]]. rewrite app_assoc in E.
    apply app_inj_tail in E as [E1 E2]. destruct r' as [|x r'].
    + left. rewrite app_nil_r in E1. auto.
    + right. exists (x :: r'). split; [congruence|auto].
  - intros [->|[r [R ->]]].
    + exists [c]. split; [congruence|auto].
    + exists (r ++ [c]). rewrite app_assoc. split; auto. destruct r; cbn; congruence.
Qed.

(** nodes below a node of a tree have directories above them *)
Lemma tree_below f p q : tree f -> fget f q <> None -> below p q -> dir_at f p.
Proof.
  intros [T0 T]. revert p. induction q as [|c q IH] using rev_ind; intros p N B.
  - apply below_length in B. cbn in B. lia.
  - pose proof (T _ _ N) as D. apply below_snoc in B as [->|B]; auto. apply IH; auto. destruct D as [n [D _]]. congruence.
Qed.

(** ** components *)
Lemma tokens_app d a b t1 t2 : tokens d a t1 -> (a = [] \/ exists a' c, a = a' ++ [c] /\ d c) ->
  tokens d b t2 -> tokens d (a ++ b) (t1 ++ t2).
Proof.
  intros T1 E T2. revert E. induction T1 as [s F | a t r ts F N Ft R T1 IH]; intro E.
  - cbn. apply tokens_skip; auto.
  - assert (Rn : r <> []).
    { intros ->. rewrite app_nil_r in E. destruct E as [E|[a' [c [E D]]]].
      - destruct a; [cbn in E; congruence | discriminate].
      - destruct (exists_last N) as [t' [x ->]]. rewrite app_assoc in E. apply app_inj_tail in E as [_ <-].
        apply Forall_app in Ft as [_ Ft]. inversion Ft; auto. }
    cbn [app]. replace ((a ++ t ++ r) ++ b) with (a ++ t ++ (r ++ b)) by (rewrite !app_assoc; auto).
    constructor; auto.
    + right. destruct R as [->|[c [r' [-> D]]]]; [congruence|]. exists c, (r' ++ b). auto.
    + apply IH. right. destruct E as [E|[a' [c [E D]]]].
      * exfalso. destruct a; [|discriminate]. destruct t; [congruence|discriminate].
      * destruct (exists_last Rn) as [r' [x ->]]. exists r', x. split; auto.
        rewrite !app_assoc in E. apply app_inj_tail in E as [_ <-]. auto.
Qed.
Lemma ends_slash_spec p : ends_slash p = true <-> exists a, p = a ++ [slash].
Proof.
  unfold ends_slash. split.
  - destruct (rev p) as [|c t] eqn:E; [discriminate|]. intro H. apply ceqb_eq in H. subst c.
    exists (rev t). rewrite <- (rev_involutive p), E. reflexivity.
  - intros [a ->]. rewrite rev_app_distr. cbn. reflexivity.
Qed.
Lemma split_app a b : a = [] \/ ends_slash a = true -> split_char (a ++ b) slash = split_char a slash ++ split_char b slash.
Proof.
  intro E. apply (tokens_det (eq slash) (a ++ b)); [apply split_char_tokens|].
  apply tokens_app; try apply split_char_tokens. destruct E as [->|E]; auto. right.
  apply ends_slash_spec in E as [x ->]. exists x, slash. auto.
Qed.
Lemma comps_app a b : a = [] \/ ends_slash a = true -> comps (a ++ b) = comps a ++ comps b.
Proof. intro E. unfold comps. rewrite split_app by auto. apply filter_app. Qed.
Lemma comps_comp p : Forall comp (comps p).
Proof.
  apply Forall_forall. intros c H. unfold comps in H. apply filter_In in H as [H1 H2].
  apply negb_true_iff, seqb_neq in H2.
  pose proof (tokens_props _ _ _ (split_char_tokens p slash)) as T. rewrite Forall_forall in T.
  destruct (T c H1) as [N F]. split; [auto|split; [|auto]].
  intro I. rewrite Forall_forall in F. exact (F slash I eq_refl).
Qed.
Lemma comp_filter cs : Forall comp cs -> filter (fun c => negb (seqb c (L "."))) cs = cs.
Proof.
  intro H. apply filter_all_true. rewrite Forall_forall in *. intros c Hc. apply negb_true_iff, seqb_neq. apply H, Hc.
Qed.
Lemma comps_join cs : Forall comp cs -> comps (join slash cs) = cs.
Proof.
  intro H. unfold comps. rewrite split_join; [apply comp_filter, H|].
  rewrite Forall_forall in *. intros c Hc. destruct (H c Hc) as [A [B _]]. auto.
Qed.
Lemma split_snoc_slash p : split_char (p ++ [slash]) slash = split_char p slash.
Proof.
  apply (tokens_det (eq slash) (p ++ [slash])); [apply split_char_tokens|].
  assert (G : forall s ts, tokens (eq slash) s ts -> tokens (eq slash) (s ++ [slash]) ts).
  { intros s ts T. induction T as [s F | a t r ts F N Ft R T IH].
    - apply tok_end. apply Forall_app. auto.
    - replace ((a ++ t ++ r) ++ [slash]) with (a ++ t ++ (r ++ [slash])) by (rewrite !app_assoc; auto).
      constructor; auto. right. destruct R as [->|[c [r' [-> D]]]]; eexists _, _; (split; [reflexivity|auto]). }
  apply G, split_char_tokens.
Qed.
Lemma comps_snoc_slash p : comps (p ++ [slash]) = comps p.
Proof. unfold comps. rewrite split_snoc_slash. reflexivity. Qed.
Lemma plain_comps f cs : plain f cs -> comps f = cs.
Proof. intros [c N F|c N F]; [|rewrite comps_snoc_slash]; apply comps_join, F. Qed.
Lemma plain_comp f cs : plain f cs -> Forall comp cs /\ cs <> [].
Proof. intros [c N F|c N F]; auto. Qed.
Lemma join_app cs ds : cs <> [] -> ds <> [] -> join slash (cs ++ ds) = join slash cs ++ slash :: join slash ds.
Proof.
  intros N D. induction cs as [|c cs IH]; [congruence|]. destruct cs as [|c' cs].
  - cbn. destruct ds; [congruence|reflexivity].
  - cbn [app join] in *. rewrite <- app_assoc. cbn [app]. do 2 f_equal. apply IH. congruence.
Qed.
Lemma join_nil cs : cs <> [] -> Forall comp cs -> join slash cs <> [].
Proof.
  intros N F E. destruct cs as [|c cs]; [congruence|]. inversion F as [|? ? [C _] _]; subst.
  destruct c; [congruence|]. destruct cs; discriminate.
Qed.
Lemma slt_prefix a b : b <> [] -> slt a (a ++ b).
Proof.
  intro N. unfold slt. induction a as [|x a IH]; cbn; [destruct b; [congruence|reflexivity]|].
  assert (cltb x x = false) as -> by (apply cltb_ge; lia). exact IH.
Qed.
(** a directory's name sorts before the names of everything below it *)
Lemma plain_below_slt f g cs ds : plain f cs -> plain g ds -> below cs ds -> slt f g.
Proof.
  intros F G [r [R ->]]. destruct (plain_comp _ _ F) as [C1 C2]. destruct (plain_comp _ _ G) as [D1 _].
  apply Forall_app in D1 as [_ D1]. pose proof (join_nil r R D1) as JN.
  assert (H : exists t, t <> [] /\ g = join slash cs ++ slash :: t).
  { inversion G as [x X1 X2 E1 E2|x X1 X2 E1 E2]; subst; rewrite join_app by auto.
    - exists (join slash r). auto.
    - exists (join slash r ++ [slash]). rewrite <- app_assoc. split; auto. destruct (join slash r); discriminate. }
  destruct H as [t [T ->]]. inversion F as [x X1 X2 E1 E2|x X1 X2 E1 E2]; subst.
  - apply slt_prefix. congruence.
  - replace (slash :: t) with ([slash] ++ t) by auto. rewrite app_assoc. apply slt_prefix; auto.
Qed.

(** ** trimFileName *)
Lemma squeeze_cons c t : squeeze (c :: t) =
  match t with d :: _ => if Ascii.eqb c slash && Ascii.eqb d slash then squeeze t else c :: squeeze t | [] => [c] end.
Proof. reflexivity. Qed.
Lemma squeeze_none s : ~ occurs [slash; slash] s -> squeeze s = s.
Proof.
  induction s as [|c t IH]; auto. intro N. rewrite squeeze_cons. destruct t as [|d t]; auto.
  destruct (Ascii.eqb_spec c slash) as [->|]; cbn [andb].
  - destruct (Ascii.eqb_spec d slash) as [->|].
    + exfalso. apply N. exists [], t. reflexivity.
    + f_equal. apply IH. intros [a [b E]]. apply N. exists (slash :: a), b. rewrite E. reflexivity.
  - f_equal. apply IH. intros [a [b E]]. apply N. exists (c :: a), b. rewrite E. reflexivity.
Qed.
Lemma squeeze_step a b : squeeze (a ++ slash :: slash :: b) = squeeze (a ++ slash :: b).
Proof.
  induction a as [|c a IH]; [reflexivity|]. cbn [app]. rewrite !squeeze_cons. destruct a as [|d a]; cbn [app] in *.
  - rewrite IH. reflexivity.
  - rewrite IH. reflexivity.
Qed.
Lemma trim_loop_squeeze k s : length s < k -> trim_loop k s = Some (squeeze s).
Proof.
  revert s. induction k as [|k IH]; intros s H; [lia|]. cbn [trim_loop]. destruct (sfind [slash; slash] s) as [n|] eqn:E.
  - apply sfind_Some in E as [E1 E2]. cbn [length] in *. set (a := firstn n s) in *. set (b := skipn (n + 2) s) in *.
    assert (HL : length s = length a + S (S (length b))) by (rewrite E1, app_length; reflexivity).
    transitivity (Some (squeeze (a ++ slash :: b))).
    + apply IH. rewrite app_length. cbn [length]. lia.
    + f_equal. rewrite <- squeeze_step. f_equal. symmetry. exact E1.
  - apply sfind_None in E. rewrite squeeze_none; auto.
Qed.
Lemma trim_squeeze s : trim_file_name s = squeeze s.
Proof. unfold trim_file_name. rewrite trim_loop_squeeze by lia. reflexivity. Qed.
Lemma squeeze_head c t : exists u, squeeze (c :: t) = c :: u.
Proof.
  revert c. induction t as [|d t IH]; intros c; rewrite squeeze_cons; eauto.
  destruct (Ascii.eqb_spec c slash) as [->|]; cbn [andb]; eauto.
  destruct (Ascii.eqb_spec d slash) as [->|]; eauto.
Qed.
Lemma squeeze_no_double s : ~ occurs [slash; slash] (squeeze s).
Proof.
  induction s as [|c t IH].
  - intros [a [b E]]. destruct a; discriminate.
  - rewrite squeeze_cons. destruct t as [|d t].
    + intros [[|x [|y a]] [b E]]; discriminate.
    + destruct (Ascii.eqb c slash && Ascii.eqb d slash) eqn:B; auto.
      intros [a [b E]]. destruct a as [|x a]; cbn [app] in E.
      * destruct (squeeze_head d t) as [u U]. rewrite U in E. inversion E; subst. discriminate B.
      * inversion E as [[E1 E2]]. apply IH. exists a, b. auto.
Qed.
Lemma squeeze_idem s : squeeze (squeeze s) = squeeze s.
Proof. apply squeeze_none, squeeze_no_double. Qed.
Lemma tokens_slash2 s ts : tokens (eq slash) (slash :: s) ts -> tokens (eq slash) s ts.
Proof.
  intro T. inversion T as [x F E|a t r us F N Ft R T' E]; subst.
  - inversion F; subst. apply tok_end; auto.
  - destruct a as [|x a].
    + cbn [app] in E. destruct t as [|y t]; [congruence|]. inversion E; subst. inversion Ft; subst. congruence.
    + cbn [app] in E. inversion E; subst. inversion F; subst. constructor; auto.
Qed.
Lemma squeeze_tokens s : forall ts, tokens (eq slash) (squeeze s) ts -> tokens (eq slash) s ts.
Proof.
  induction s as [|c t IH]; intros ts; auto. rewrite squeeze_cons. destruct t as [|d t]; auto.
  destruct (Ascii.eqb_spec c slash) as [->|Nc]; cbn [andb].
  - destruct (Ascii.eqb_spec d slash) as [->|Nd].
    + intro T. apply (tokens_skip _ [slash]); auto.
    + intro T. apply (tokens_skip _ [slash]); auto. apply IH. apply tokens_slash2. exact T.
  - destruct (squeeze_head d t) as [w W]. rewrite W in *. clear W.
    intro T. inversion T as [x F E|a u r us F N Ft R T' E]; subst.
    + inversion F; congruence.
    + destruct a as [|x a].
      2:{ cbn [app] in E. inversion E; subst. inversion F; congruence. }
      cbn [app] in E. destruct u as [|y u]; [congruence|]. inversion E as [[E1 E2]]; subst y.
      inversion Ft as [|? ? _ Ft']; subst. destruct u as [|z u].
      * (* the token is [c] *)
        cbn [app] in E2. subst r. pose proof (IH us T') as T2.
        replace (c :: d :: t) with ([] ++ [c] ++ (d :: t)) by auto. constructor; auto.
        right. destruct R as [R|[e [r' [R D]]]]; [discriminate|]. inversion R; subst. exists slash, t. auto.
      * (* longer token: the rest starts with the same token shortened *)
        cbn [app] in E2. inversion E2; subst z w.
        assert (T3 : tokens (eq slash) (d :: u ++ r) ((d :: u) :: us)).
        { apply (tok_one _ [] (d :: u) r us); auto. congruence. }
        apply IH in T3. inversion T3 as [|a' t' r2 us' F2 N2 Ft2 R2 T2 E3]; subst.
        destruct a' as [|w a'].
        -- cbn [app] in E3. first [rewrite <- E3 | idtac].
           apply (tok_one _ [] (c :: d :: u) r2 us); auto.
        -- inversion F2; subst. cbn [app] in E3. inversion E3; subst. inversion Ft'; congruence.
Qed.
Lemma squeeze_split s : split_char (squeeze s) slash = split_char s slash.
Proof.
  apply (tokens_det (eq slash) s); [|apply split_char_tokens]. apply squeeze_tokens, split_char_tokens.
Qed.
Lemma comps_squeeze s : comps (squeeze s) = comps s.
Proof. unfold comps. rewrite squeeze_split. reflexivity. Qed.
Lemma comps_trim s : comps (trim_file_name s) = comps s.
Proof. rewrite trim_squeeze. apply comps_squeeze. Qed.
Lemma squeeze_chars s : filter (fun c => negb (Ascii.eqb c slash)) (squeeze s) = filter (fun c => negb (Ascii.eqb c slash)) s.
Proof.
  induction s as [|c t IH]; auto. rewrite squeeze_cons. destruct t as [|d t]; auto.
  destruct (Ascii.eqb_spec c slash) as [->|Nc]; cbn [andb].
  - destruct (Ascii.eqb_spec d slash) as [->|Nd].
    + rewrite IH. reflexivity.
    + cbn [filter]. rewrite IH. reflexivity.
  - cbn [filter]. rewrite IH. reflexivity.
Qed.
Lemma squeeze_ends s : ends_slash (squeeze s) = ends_slash s.
Proof.
  unfold ends_slash. induction s as [|c t IH]; auto. rewrite squeeze_cons. destruct t as [|d t]; auto.
  assert (H : forall x u, u <> [] -> match rev (x :: u) with y :: _ => ceqb y slash | [] => false end =
                    match rev u with y :: _ => ceqb y slash | [] => false end).
  { intros x u N. cbn [rev]. destruct (rev u) eqn:E; [|reflexivity].
    exfalso. apply N. rewrite <- (rev_involutive u), E. reflexivity. }
  rewrite (H c (d :: t)) by congruence. rewrite <- IH.
  destruct (Ascii.eqb c slash && Ascii.eqb d slash); auto. apply H.
  destruct (squeeze_head d t) as [w W]. rewrite W. congruence.
Qed.

(** ** comparing files *)
Lemma cmp_loop_spec n k a b : 0 < n -> length a < k -> cmp_loop k n a b = Some (seqb a b).
Proof.
  intro Hn. revert a b. induction k as [|k IH]; intros a b H; [lia|]. cbn [cmp_loop stream_read].
  destruct (length (firstn n a) =? length (firstn n b)) eqn:E1; cbn [negb orb].
  2:{ apply Nat.eqb_neq in E1. f_equal. symmetry. apply seqb_neq. congruence. }
  destruct (seqb (firstn n a) (firstn n b)) eqn:E2; cbn [negb orb].
  2:{ apply seqb_neq in E2. f_equal. symmetry. apply seqb_neq. congruence. }
  apply seqb_eq in E2. destruct (Bool.eqb (length a <? n) (length b <? n)) eqn:E3; cbn [negb orb].
  2:{ f_equal. symmetry. apply seqb_neq. intros ->. rewrite eqb_reflx in E3. discriminate. }
  apply eqb_prop in E3. destruct (length a <? n) eqn:E4.
  - symmetry in E3. apply Nat.ltb_lt in E3, E4. rewrite !firstn_all2 in E2 by lia. subst. rewrite seqb_refl. reflexivity.
  - symmetry in E3. apply Nat.ltb_ge in E3, E4. rewrite IH by (rewrite skipn_length; lia). f_equal.
    destruct (seqb_spec (skipn n a) (skipn n b)) as [E|E]; symmetry.
    + apply seqb_eq. rewrite <- (firstn_skipn n a), <- (firstn_skipn n b). congruence.
    + apply seqb_neq. congruence.
Qed.
Lemma BUFSIZ_big : 100 < BUFSIZ. Proof. unfold BUFSIZ. lia. Qed.
Lemma BUFSIZ_pos : 1 < BUFSIZ. Proof. unfold BUFSIZ. lia. Qed.
Lemma same_content_spec a b : same_content a b = seqb a b.
Proof. unfold same_content. rewrite cmp_loop_spec; [reflexivity | pose proof BUFSIZ_pos; lia | lia]. Qed.

(** ** reading lines *)
Lemma chunks_one n l t : forall cur k, ~ In nl l -> length l < k ->
  chunks n k cur (l ++ nl :: t) = (rev cur ++ l ++ [nl]) :: chunks n n [] t.
Proof.
  induction l as [|c l IH]; intros cur k N H; cbn [app chunks].
  - rewrite ceqb_refl. cbn [rev]. reflexivity.
  - assert (E : ceqb c nl = false). { apply ceqb_neq. intros ->. apply N. cbn; auto. }
    rewrite E. destruct k as [|[|k]]; cbn [length] in H; [lia|lia|].
    rewrite IH; [|intro I; apply N; cbn; auto | lia]. cbn [rev]. rewrite <- app_assoc. reflexivity.
Qed.
Definition text_of (lines : list str) : str := concat (map (fun l => l ++ [nl]) lines).
Lemma chunks_text n lines : Forall (fun l => ~ In nl l /\ length l < n) lines ->
  chunks n n [] (text_of lines) = map (fun l => l ++ [nl]) lines.
Proof.
  intro H. induction H as [|l ls [H1 H2] _ IH]; [reflexivity|]. unfold text_of. cbn [map concat].
  rewrite <- app_assoc. cbn [app]. rewrite chunks_one by auto. cbn [rev app]. f_equal. exact IH.
Qed.
Lemma store_line_ok l : ~ In zero l -> store_line (l ++ [nl]) = Some l.
Proof.
  intro Z. unfold store_line. rewrite cstr_nozero.
  - destruct (l ++ [nl]) as [|c t] eqn:E; [destruct l; discriminate|]. rewrite <- E, removelast_last. reflexivity.
  - rewrite in_app_iff. cbn. intros [H|[H|[]]]; [auto|discriminate H].
Qed.
Lemma map_opt_map {A B C} (g : B -> option C) (h : A -> B) (k : A -> C) l :
  (forall x, In x l -> g (h x) = Some (k x)) -> map_opt g (map h l) = Some (map k l).
Proof.
  induction l as [|x l IH]; intro H; [reflexivity|]. cbn [map map_opt]. rewrite H by (cbn; auto).
  rewrite IH; [reflexivity|]. intros; apply H; cbn; auto.
Qed.
Lemma parse_text lines : Forall (fun l => ~ In nl l /\ ~ In zero l /\ length l < BUFSIZ - 1) lines ->
  parse_lines (text_of lines) = Some lines.
Proof.
  intro H. unfold parse_lines. rewrite chunks_text.
  - rewrite (map_opt_map _ _ (fun l => l)); [rewrite map_id; reflexivity|].
    intros l Hl. apply store_line_ok. rewrite Forall_forall in H. apply H, Hl.
  - eapply Forall_impl; [|exact H]. cbn. tauto.
Qed.
