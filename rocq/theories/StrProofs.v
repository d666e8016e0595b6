From Verif Require Import Base BaseProofs StrModel StrSpec.
From Coq Require Import ZifyBool ZifyNat ZifyN.

Lemma is_space_white c : is_space c = true <-> white c.
Proof.
  unfold white. split.
  - intro H. destruct c as [b0 b1 b2 b3 b4 b5 b6 b7].
    destruct b0, b1, b2, b3, b4, b5, b6, b7; vm_compute in H; try discriminate; cbn; auto 10.
  - intro H. repeat destruct H as [<-|H]; try reflexivity; destruct H.
Qed.
Lemma is_space_nwhite c : is_space c = false <-> ~ white c.
Proof. rewrite <- is_space_white. destruct (is_space c); split; congruence. Qed.

Lemma drop_space_spec s : exists a, s = a ++ drop_space s /\ Forall white a /\
  (forall c t, drop_space s = c :: t -> ~ white c).
Proof.
  induction s as [|c t IH]; cbn.
  - exists []. repeat split; auto. discriminate.
  - destruct (is_space c) eqn:E.
    + destruct IH as [a [H1 [H2 H3]]]. exists (c :: a). repeat split; auto.
      * cbn. f_equal. exact H1.
      * constructor; auto. apply is_space_white, E.
    + exists []. repeat split; auto. intros c' t' H; inversion H; subst. apply is_space_nwhite, E.
Qed.

Lemma chop_space_spec s : exists b, s = chop_space s ++ b /\ Forall white b /\
  (forall t c, chop_space s = t ++ [c] -> ~ white c).
Proof.
  induction s as [|c t IH]; cbn.
  - exists []. repeat split; auto. intros [|? ?] ? H; discriminate.
  - destruct IH as [b [H1 [H2 H3]]]. destruct (chop_space t) as [|c' t'] eqn:Et.
    + destruct (is_space c) eqn:E.
      * exists (c :: t). split; [reflexivity | split].
        -- cbn in H1. constructor; [apply is_space_white, E | subst t; exact H2].
        -- intros [|? ?] ? H; discriminate.
      * exists t. cbn in H1. subst t. repeat split; auto.
        intros [|? [|? ?]] ? H; inversion H; subst. apply is_space_nwhite, E.
    + exists b. cbn. split; [f_equal; exact H1 | split; [exact H2|]].
      intros t0 c0 H. destruct t0 as [|x t0]; [discriminate|]. inversion H; subst. apply (H3 t0 c0). assumption.
Qed.

Lemma strip_spec s : (exists a b, s = a ++ strip s ++ b /\ Forall white a /\ Forall white b) /\
  no_outer_white (strip s).
Proof.
  unfold strip. destruct (drop_space_spec s) as [a [H1 [H2 H3]]].
  destruct (chop_space_spec (drop_space s)) as [b [H4 [H5 H6]]].
  split; [exists a, b; repeat split; auto; congruence|].
  split; [|exact H6]. intros c t E. destruct (drop_space s) as [|x u] eqn:Ed; [cbn in E; discriminate|].
  rewrite E in H4. inversion H4; subst. eapply H3. reflexivity.
Qed.

Lemma strip_blank s : Forall white s -> strip s = [].
Proof.
  unfold strip. induction 1 as [|c t Hc Ht IH]; auto. cbn.
  apply is_space_white in Hc. rewrite Hc. exact IH.
Qed.

(** a decomposition white ++ m ++ white with m trimmed is unique *)
Lemma no_outer_strip m : no_outer_white m -> strip m = m.
Proof.
  intros [H1 H2]. unfold strip.
  assert (E : drop_space m = m).
  { destruct m as [|c t]; auto. cbn. specialize (H1 c t eq_refl). apply is_space_nwhite in H1. rewrite H1. auto. }
  rewrite E. destruct (chop_space_spec m) as [b [H4 [H5 _]]].
  destruct b as [|c b] using rev_ind; [rewrite app_nil_r in H4; auto|].
  exfalso. apply (H2 (chop_space m ++ b) c); [rewrite <- app_assoc; exact H4|].
  apply Forall_app in H5 as [_ H5]. inversion H5; auto.
Qed.

Lemma strip_idem s : strip (strip s) = strip s.
Proof. apply no_outer_strip, strip_spec. Qed.

Lemma drop_space_app a m : Forall white a -> drop_space (a ++ m) = drop_space m.
Proof. induction 1 as [|c a Hc Ha IH]; cbn; auto. apply is_space_white in Hc. rewrite Hc. exact IH. Qed.
Lemma chop_space_app m b : Forall white b -> chop_space (m ++ b) = chop_space m.
Proof.
  intro Hb. induction m as [|c m IH]; cbn.
  - induction Hb as [|x b Hx Hb IH]; cbn; auto. rewrite IH. apply is_space_white in Hx. rewrite Hx. auto.
  - rewrite IH. reflexivity.
Qed.

Lemma strip_unique a m b : Forall white a -> Forall white b -> no_outer_white m -> strip (a ++ m ++ b) = m.
Proof.
  intros Ha Hb Hm. unfold strip. rewrite drop_space_app by auto.
  destruct m as [|c t].
  - cbn. rewrite <- (app_nil_r b), drop_space_app by auto. reflexivity.
  - rewrite <- (no_outer_strip _ Hm) at 2. unfold strip. cbn [app drop_space].
    destruct Hm as [H1 _]. specialize (H1 c t eq_refl). apply is_space_nwhite in H1. rewrite H1.
    rewrite app_comm_cons. apply chop_space_app, Hb.
Qed.

(** ** splitting *)
Lemma tokens_skip d a s ts : Forall d a -> tokens d s ts -> tokens d (a ++ s) ts.
Proof.
  intros Ha H. inversion H; subst.
  - constructor. apply Forall_app; auto.
  - rewrite app_assoc. apply tok_one; auto. apply Forall_app; auto.
Qed.

Lemma tok_contra (d : ascii -> Prop) (a t r : str) : t <> [] -> Forall (fun c => ~ d c) t -> Forall d (a ++ t ++ r) -> False.
Proof.
  intros Ht Hn H. apply Forall_app in H as [_ H]. apply Forall_app in H as [H _].
  destruct t as [|c t]; [congruence|]. inversion Hn as [|? ? Hc _]. inversion H. contradiction.
Qed.
Lemma tokens_det d s ts1 ts2 : tokens d s ts1 -> tokens d s ts2 -> ts1 = ts2.
Proof.
  intro H. revert ts2. induction H as [s Hs|a t r ts Ha Ht Hnd Hr H IH]; intros ts2 H2.
  - inversion H2; subst; auto. exfalso. eapply tok_contra; eauto.
  - inversion H2 as [s' Hs'|a' t' r' ts' Ha' Ht' Hnd' Hr' H'].
    + exfalso. subst s'. eapply tok_contra; eauto.
    + subst ts2. assert (Hl : a = a' /\ t ++ r = t' ++ r').
      { clear - Ha Ha' Ht Ht' Hnd Hnd' H0.
        revert a' Ha' H0. induction Ha as [|x a Hx Ha IH]; intros a' Ha' E.
        - destruct Ha' as [|y a' Hy Ha']; [auto|]. exfalso.
          destruct t as [|c t]; [congruence|]. inversion E; subst. inversion Hnd; tauto.
        - destruct Ha' as [|y a' Hy Ha'].
          + exfalso. destruct t' as [|c t']; [congruence|]. inversion E; subst. inversion Hnd'; tauto.
          + inversion E; subst. destruct (IH a' Ha' ltac:(assumption)) as [-> E2]. auto. }
      destruct Hl as [<- E].
      assert (Hl : t = t' /\ r = r').
      { clear - Hnd Hnd' Hr Hr' E. revert t' Hnd' E. induction Hnd as [|x t Hx Ht IH]; intros t' Hnd' E.
        - destruct Hnd' as [|y t' Hy Hnd']; [auto|]. exfalso. cbn in E.
          destruct Hr as [->|[c [r0 [-> Hc]]]]; [discriminate|]. inversion E; subst; tauto.
        - destruct Hnd' as [|y t' Hy Hnd'].
          + exfalso. cbn in E. destruct Hr' as [->|[c [r0 [-> Hc]]]]; [discriminate|]. inversion E; subst; tauto.
          + inversion E; subst. destruct (IH t' Hnd' ltac:(assumption)) as [-> ->]. auto. }
      destruct Hl as [<- <-]. f_equal. apply IH. exact H'.
Qed.

Lemma split_loop_tokens c s : forall b, ~ In c b ->
  (b = [] -> tokens (eq c) s (split_loop c s [])) /\
  (b <> [] -> tokens (eq c) (b ++ s) (split_loop c s b)).
Proof.
  induction s as [|n t IH]; intros b Hb.
  - split; intro H.
    + constructor. constructor.
    + destruct b as [|x b]; [congruence|]. cbn [split_loop].
      apply (tok_one (eq c) [] (x :: b) []); [constructor | discriminate | | left; reflexivity | constructor; constructor].
      apply Forall_forall. intros y Hy <-. auto.
  - cbn [split_loop]. destruct (ceqb_spec n c) as [->|Hn].
    + split; intro H.
      * apply (tokens_skip (eq c) [c]); [repeat constructor|]. apply (proj1 (IH [] (fun F => F))); reflexivity.
      * destruct b as [|x b]; [congruence|].
        apply (tok_one (eq c) [] (x :: b) (c :: t)); [constructor | discriminate | | right; exists c, t; auto |].
        { apply Forall_forall. intros y Hy <-. auto. }
        apply (tokens_skip (eq c) [c]); [repeat constructor|]. apply (proj1 (IH [] (fun F => F))); reflexivity.
    + assert (Hb' : ~ In c (b ++ [n])) by (rewrite in_app_iff; cbn; intuition congruence).
      destruct (IH (b ++ [n]) Hb') as [_ IH2]. rewrite <- app_assoc in IH2. cbn [app] in IH2.
      assert (b ++ [n] <> []) by (destruct b; discriminate).
      split; intro H0; [subst b; apply IH2; auto | apply IH2; auto].
Qed.
Lemma split_char_tokens s c : tokens (eq c) s (split_char s c).
Proof. exact (proj1 (split_loop_tokens c s [] (fun F => F)) eq_refl). Qed.

Lemma skip_in_spec d s : exists a, s = a ++ skip_in d s /\ Forall (fun c => In c d) a /\
  (forall c t, skip_in d s = c :: t -> ~ In c d).
Proof.
  induction s as [|x t IH]; cbn.
  - exists []. repeat split; auto. discriminate.
  - destruct (cmem x d) eqn:E.
    + destruct IH as [a [H1 [H2 H3]]]. exists (x :: a). cbn. repeat split; auto; [f_equal; auto|].
      constructor; auto. apply cmem_In, E.
    + exists []. repeat split; auto. intros c u H; inversion H; subst.
      intro Hi. apply cmem_In in Hi. congruence.
Qed.
Lemma span_out_spec d s a b : span_out d s = (a, b) ->
  s = a ++ b /\ Forall (fun c => ~ In c d) a /\ (b = [] \/ exists c r, b = c :: r /\ In c d).
Proof.
  revert a b. induction s as [|x t IH]; intros a b; cbn.
  - intro E; inversion E; subst; auto.
  - destruct (cmem x d) eqn:Ex.
    + intro E; inversion E; subst. repeat split; auto. right. exists x, t. split; auto. apply cmem_In, Ex.
    + destruct (span_out d t) as [a' b'] eqn:Et. intro E; inversion E; subst.
      destruct (IH a' b eq_refl) as [H1 [H2 H3]]. repeat split; auto; [cbn; f_equal; auto|].
      constructor; auto. intro Hi. apply cmem_In in Hi. congruence.
Qed.

Lemma strtok_loop_tokens fuel d s : length s < fuel ->
  exists ts, strtok_loop fuel d s = Some ts /\ tokens (fun c => In c d) s ts.
Proof.
  revert s. induction fuel as [|f IH]; intros s Hf; [lia|]. cbn [strtok_loop].
  destruct (skip_in_spec d s) as [a [H1 [H2 H3]]].
  destruct (skip_in d s) as [|c t] eqn:Es.
  - exists []. split; auto. constructor. rewrite app_nil_r in H1. rewrite H1. exact H2.
  - destruct (span_out d (c :: t)) as [tok rest] eqn:Eo.
    destruct (span_out_spec d (c :: t) tok rest Eo) as [G1 [G2 G3]].
    assert (Htok : tok <> []).
    { intros ->. cbn in G1. destruct G3 as [->|[c' [r [-> Hc]]]]; [discriminate|].
      inversion G1; subst. apply (H3 c' r eq_refl Hc). }
    assert (Hl : length rest < f).
    { apply (f_equal (@List.length _)) in H1. apply (f_equal (@List.length _)) in G1.
      rewrite app_length in H1, G1. destruct tok; [congruence|]. cbn [List.length] in *. lia. }
    destruct (IH rest Hl) as [ts [E1 E2]]. rewrite E1. cbn. exists (tok :: ts). split; auto.
    rewrite H1, G1. apply tok_one; auto.
Qed.

Lemma cstr_length s : length (cstr s) <= length s.
Proof. induction s as [|x t IH]; cbn; auto. destruct (ceqb x zero); cbn; lia. Qed.

Lemma split_strtok_tokens s d : exists ts, split_strtok s d = Some ts /\ tokens (fun c => In c d) (cstr s) ts.
Proof. apply strtok_loop_tokens. pose proof (cstr_length s). lia. Qed.

Lemma tokens_iff (d d' : ascii -> Prop) s ts : (forall c, d c <-> d' c) -> tokens d s ts -> tokens d' s ts.
Proof.
  intros E H. induction H as [s Hs|a t r ts Ha Ht Hnd Hr H IH].
  - constructor. eapply Forall_impl; [|exact Hs]. intros; apply E; auto.
  - apply tok_one; auto.
    + eapply Forall_impl; [|exact Ha]. intros; apply E; auto.
    + eapply Forall_impl; [|exact Hnd]. intros c Hc; rewrite <- E; auto.
    + destruct Hr as [->|[c [r' [-> Hc]]]]; auto. right. exists c, r'. split; auto. apply E; auto.
Qed.

Lemma split_agree s c : ~ In zero s -> split_strtok s [c] = Some (split_char s c).
Proof.
  intro Hz. destruct (split_strtok_tokens s [c]) as [ts [E H]]. rewrite E. f_equal.
  rewrite (cstr_nozero s Hz) in H. eapply tokens_det; [|apply split_char_tokens].
  eapply tokens_iff; [|exact H]. intro x. cbn. intuition congruence.
Qed.

Lemma split_set_In s d : exists ts S, split_strtok_set s d = Some S /\ tokens (fun c => In c d) (cstr s) ts /\
  (forall x, In x S <-> In x ts) /\ ssorted S.
Proof.
  destruct (split_strtok_tokens s d) as [ts [E H]]. exists ts, (set_of ts).
  unfold split_strtok_set. rewrite E. cbn. repeat split; auto using set_of_sorted; apply set_of_In.
Qed.

Lemma tokens_props d s ts : tokens d s ts ->
  Forall (fun t => t <> [] /\ Forall (fun c => ~ d c) t) ts.
Proof. induction 1; constructor; auto. Qed.

Lemma filter_all_false {A} (f : A -> bool) l : Forall (fun x => f x = false) l -> filter f l = [].
Proof. induction 1 as [|x l H Hl IH]; cbn; auto. rewrite H. exact IH. Qed.
Lemma filter_all_true {A} (f : A -> bool) l : Forall (fun x => f x = true) l -> filter f l = l.
Proof. induction 1 as [|x l H Hl IH]; cbn; auto. rewrite H. f_equal. exact IH. Qed.

Lemma tokens_concat c s ts : tokens (eq c) s ts -> concat ts = filter (fun x => negb (Ascii.eqb x c)) s.
Proof.
  induction 1 as [s Hs|a t r ts Ha Ht Hnd Hr H IH]; cbn.
  - symmetry. apply filter_all_false. eapply Forall_impl; [|exact Hs]. intros x <-. cbn. rewrite Ascii.eqb_refl. auto.
  - rewrite !filter_app, <- IH.
    rewrite (filter_all_false _ a), (filter_all_true _ t); auto.
    + eapply Forall_impl; [|exact Hnd]. intros x Hx. cbn. apply negb_true_iff, Ascii.eqb_neq. congruence.
    + eapply Forall_impl; [|exact Ha]. intros x <-. cbn. rewrite Ascii.eqb_refl. auto.
Qed.

Lemma tokens_join c ts : Forall (fun t => t <> [] /\ ~ In c t) ts -> tokens (eq c) (join c ts) ts.
Proof.
  induction 1 as [|t ts [Ht Hc] Hts IH]; [constructor; constructor|].
  assert (Hn : Forall (fun x => ~ c = x) t) by (apply Forall_forall; intros y Hy ->; auto).
  destruct ts as [|t' ts].
  - replace (join c [t]) with ([] ++ t ++ []) by (cbn; apply app_nil_r).
    apply tok_one; auto; constructor; constructor.
  - change (join c (t :: t' :: ts)) with ([] ++ t ++ c :: join c (t' :: ts)).
    apply tok_one; auto.
    + right. eauto.
    + apply (tokens_skip (eq c) [c]); [repeat constructor|exact IH].
Qed.
Lemma split_join c ts : Forall (fun t => t <> [] /\ ~ In c t) ts -> split_char (join c ts) c = ts.
Proof. intro H. eapply tokens_det; [apply split_char_tokens | apply tokens_join, H]. Qed.

(** ** getValue family *)
Lemma skipn_after {A} (a : list A) c b : skipn (S (length a)) (a ++ c :: b) = b.
Proof. induction a as [|x a IH]; cbn; auto. Qed.
Lemma get_value_found a c b : ~ In c a -> get_value (a ++ c :: b) c = b.
Proof.
  intro H. unfold get_value. rewrite cfind_app by auto.
  pose proof (skipn_after a c b) as E.
  destruct (Nat.ltb_spec (S (length a)) (length (a ++ c :: b))) as [Hl|Hl]; [exact E|].
  rewrite app_length in Hl. cbn in Hl. destruct b; [auto | cbn in Hl; lia].
Qed.
Lemma get_value_none s c : ~ In c s -> get_value s c = [].
Proof. intro H. unfold get_value. apply cfind_None in H. rewrite H. auto. Qed.
Lemma get_value_before_found a c b : ~ In c a -> get_value_before (a ++ c :: b) c = a.
Proof. intro H. unfold get_value_before. rewrite cfind_app by auto. rewrite firstn_app, firstn_all, Nat.sub_diag. cbn. apply app_nil_r. Qed.
Lemma get_value_before_none s c : ~ In c s -> get_value_before s c = s.
Proof. intro H. unfold get_value_before. apply cfind_None in H. rewrite H. auto. Qed.
Lemma get_value_before_last_found a c b : ~ In c b -> get_value_before_last (a ++ c :: b) c = a.
Proof. intro H. unfold get_value_before_last. rewrite crfind_app by auto. rewrite firstn_app, firstn_all, Nat.sub_diag. cbn. apply app_nil_r. Qed.
Lemma get_value_before_last_none s c : ~ In c s -> get_value_before_last s c = s.
Proof. intro H. unfold get_value_before_last. apply crfind_None in H. rewrite H. auto. Qed.

Lemma split_key_value_found a c b : ~ In c a -> split_key_value (a ++ c :: b) c = (strip a, strip b).
Proof.
  intro H. unfold split_key_value. rewrite cfind_app by auto. rewrite firstn_app, firstn_all, Nat.sub_diag. cbn [firstn].
  rewrite app_nil_r, skipn_after. reflexivity.
Qed.

(** ** getlines *)
Lemma getlines_spec s : getlines s <> [] /\ Forall (fun l => ~ In nl l) (getlines s) /\ join nl (getlines s) = s.
Proof.
  induction s as [|c t [H1 [H2 H3]]]; cbn [getlines].
  - split; [discriminate | split; [constructor; auto | reflexivity]].
  - destruct (ceqb_spec c nl) as [->|Hn].
    + split; [discriminate | split; [constructor; auto |]].
      destruct (getlines t) as [|l ls]; [congruence|]. cbn. cbn in H3. rewrite H3. auto.
    + destruct (getlines t) as [|l ls]; [congruence|]. inversion H2 as [|? ? G1 G2].
      split; [discriminate | split; [constructor; auto; cbn; intuition congruence|]].
      rewrite <- H3. destruct ls; reflexivity.
Qed.

(** last matching line wins *)
Lemma get_value_of_key_spec content d param :
  get_value_of_key content d param =
  match find (fun line => key_line line d && seqb param (fst (split_key_value (strip line) d)))
             (rev (getlines content)) with
  | Some line => strip (snd (split_key_value (strip line) d))
  | None => []
  end.
Proof.
  unfold get_value_of_key. generalize (getlines content) as ls. intro ls.
  set (step := fun m line => if key_line line d then let '(k, v) := split_key_value (strip line) d in mset k v m else m).
  set (P := fun line => key_line line d && seqb param (fst (split_key_value (strip line) d))).
  assert (H : forall ls, mget param (fold_left step ls []) =
    option_map (fun line => snd (split_key_value (strip line) d)) (find P (rev ls))).
  { clear ls. intro ls. induction ls as [|l ls IH] using rev_ind; [reflexivity|].
    rewrite fold_left_app, rev_app_distr. cbn [fold_left rev app find].
    unfold step at 1, P at 1. destruct (key_line l d); cbn [andb]; [|exact IH].
    destruct (split_key_value (strip l) d) as [k v] eqn:E. cbn [fst].
    rewrite mget_mset. destruct (seqb param k); [cbn [option_map]; rewrite E; reflexivity | exact IH]. }
  rewrite H. destruct (find P (rev ls)); reflexivity.
Qed.

(** ** replaceAll *)
Lemma replace_all_result f old new s r : replace_all f old new s = Some r -> ~ occurs old r.
Proof.
  revert s. induction f as [|f IH]; intros s; cbn; [discriminate|].
  destruct (sfind old s) eqn:E; [apply IH|]. intro H; inversion H; subst. apply sfind_None, E.
Qed.
Lemma replace_all_mono f old new s r : replace_all f old new s = Some r -> forall g, f <= g -> replace_all g old new s = Some r.
Proof.
  revert s. induction f as [|f IH]; intros s; cbn; [discriminate|]. intros H [|g] Hg; [lia|]. cbn.
  destruct (sfind old s); auto. apply (IH _ H). lia.
Qed.
Lemma occurs_mid old a new b : occurs old new -> occurs old (a ++ new ++ b).
Proof. intros [x [y ->]]. exists (a ++ x), (y ++ b). rewrite <- !app_assoc. reflexivity. Qed.
Lemma replace_all_diverges f old new s : occurs old new -> occurs old s -> replace_all f old new s = None.
Proof.
  intros Hn. revert s. induction f as [|f IH]; intros s Hs; cbn; auto.
  destruct (sfind old s) eqn:E; [|apply sfind_None in E; tauto]. apply IH, occurs_mid, Hn.
Qed.
Lemma replace_all_shrinks old new s : length new < length old -> exists r, replace_all (S (length s)) old new s = Some r.
Proof.
  intro Hl. assert (H : forall f s, length s < f -> exists r, replace_all f old new s = Some r).
  { clear s. induction f as [|f IH]; intros s Hs; [lia|]. cbn.
    destruct (sfind old s) as [n|] eqn:E; [|eauto]. apply IH.
    apply sfind_Some in E as [_ E]. rewrite !app_length, firstn_length, skipn_length. lia. }
  apply H. lia.
Qed.
Lemma sfind_char c s : sfind [c] s = cfind c s.
Proof.
  induction s as [|x t IH]; cbn; auto. rewrite andb_true_r.
  destruct (ceqb_spec c x) as [->|]; [rewrite ceqb_refl; auto|].
  destruct (ceqb_spec x c); [congruence|]. rewrite IH. auto.
Qed.
Lemma subst_char_id c new s : ~ In c s -> subst_char c new s = s.
Proof.
  induction s as [|x t IH]; cbn; auto. intro H. destruct (Ascii.eqb_spec x c); [tauto|]. cbn. f_equal. tauto.
Qed.
Lemma subst_char_app c new a b : subst_char c new (a ++ b) = subst_char c new a ++ subst_char c new b.
Proof. unfold subst_char. rewrite flat_map_app. auto. Qed.
Lemma replace_all_char c new s : ~ In c new -> exists f, replace_all f [c] new s = Some (subst_char c new s).
Proof.
  intro Hc.
  assert (H : forall s pre, ~ In c pre -> exists f, replace_all f [c] new (pre ++ s) = Some (pre ++ subst_char c new s)).
  { clear s. induction s as [|x s IH]; intros pre Hp.
    - exists 1. cbn. rewrite app_nil_r, sfind_char. rewrite (proj2 (cfind_None c pre) Hp). auto.
    - destruct (ceqb_spec x c) as [->|Hn].
      + destruct (IH (pre ++ new)) as [f Hf]; [rewrite in_app_iff; tauto|].
        exists (S f). cbn [replace_all]. rewrite sfind_char, cfind_app by auto.
        rewrite firstn_app, firstn_all, Nat.sub_diag. cbn [firstn]. rewrite app_nil_r.
        replace (skipn (length pre + length [c]) (pre ++ c :: s)) with s.
        2:{ cbn [List.length]. rewrite Nat.add_1_r, skipn_after. reflexivity. }
        rewrite app_assoc, Hf. cbn. rewrite Ascii.eqb_refl, <- app_assoc. reflexivity.
      + destruct (IH (pre ++ [x])) as [f Hf]; [rewrite in_app_iff; cbn; intuition congruence|].
        exists f. rewrite <- app_assoc in Hf. cbn in Hf. rewrite Hf. cbn.
        destruct (Ascii.eqb_spec x c); [congruence|]. rewrite <- app_assoc. reflexivity. }
  apply (H s []). auto.
Qed.

(** ** case *)
Lemma to_lower_idem c : to_lower (to_lower c) = to_lower c.
Proof. destruct c as [[] [] [] [] [] [] [] []]; reflexivity. Qed.
Lemma to_upper_idem c : to_upper (to_upper c) = to_upper c.
Proof. destruct c as [[] [] [] [] [] [] [] []]; reflexivity. Qed.
Lemma lower_upper c : to_lower (to_upper c) = to_lower c.
Proof. destruct c as [[] [] [] [] [] [] [] []]; reflexivity. Qed.
Lemma lower_case_idem s : lower_case (lower_case s) = lower_case s.
Proof. unfold lower_case. rewrite map_map. apply map_ext. apply to_lower_idem. Qed.
Lemma starts_with_nocase_spec s1 s2 : starts_with_nocase s1 s2 = true <-> exists p r, s1 = p ++ r /\ upper_case p = upper_case s2.
Proof.
  revert s2. induction s1 as [|x s1 IH]; intros [|y s2]; cbn.
  - split; auto. intros _; exists [], []; auto.
  - split; [discriminate|]. intros [p [r [E1 E2]]]. destruct p; [discriminate|discriminate].
  - split; auto. intros _. exists [], (x :: s1). auto.
  - destruct (ceqb_spec (to_upper x) (to_upper y)) as [E|E].
    + rewrite IH. split.
      * intros [p [r [-> E2]]]. exists (x :: p), r. split; [reflexivity|]. cbn. f_equal; [exact E | exact E2].
      * intros [p [r [E1 E2]]]. destruct p as [|z p]; [discriminate|]. inversion E1; inversion E2; subst. eauto.
    + split; [discriminate|]. intros [p [r [E1 E2]]]. destruct p as [|z p]; [discriminate|]. inversion E1; inversion E2; subst. congruence.
Qed.

(** ** decimal *)
Lemma digit_ok n : (n < 10)%N -> is_digit (digit n) /\ digit_value (digit n) = n.
Proof.
  intro H. unfold is_digit, digit_value, digit. rewrite N_ascii_embedding by lia. lia.
Qed.

Lemma read_dec_app a b : read_dec (a ++ b) = fold_left (fun a c => 10 * a + digit_value c)%N b (read_dec a).
Proof. unfold read_dec. rewrite fold_left_app. auto. Qed.

Lemma pow10_S k : (10 ^ N.of_nat (S k) = 10 * 10 ^ N.of_nat k)%N.
Proof. rewrite Nat2N.inj_succ, N.pow_succ_r'. reflexivity. Qed.

(** canonical decimal digits: value, digits only, no leading zero *)
Lemma dec_loop_spec f : forall n acc, (n < 10 ^ N.of_nat f)%N -> 0 < f ->
  exists ds, dec_loop f n acc = ds ++ acc /\ ds <> [] /\ Forall is_digit ds /\ read_dec ds = n /\
             (forall t, ds = "0"%char :: t -> t = []).
Proof.
  induction f as [|f IH]; intros n acc Hn Hf; [lia|]. cbn [dec_loop].
  destruct (N.ltb_spec n 10) as [Hs|Hs].
  - exists [digit n]. destruct (digit_ok n Hs) as [D1 D2].
    split; [reflexivity | split; [discriminate | split; [constructor; auto | split]]].
    + unfold read_dec. cbn [fold_left]. rewrite D2. lia.
    + intros t E. inversion E. auto.
  - assert (Hf' : 0 < f).
    { destruct f; [|lia]. cbn in Hn. lia. }
    rewrite pow10_S in Hn.
    assert (Hq : (n / 10 < 10 ^ N.of_nat f)%N) by (apply N.div_lt_upper_bound; lia).
    destruct (IH (n / 10)%N (digit (n mod 10) :: acc) Hq Hf') as [ds [E [Hne [Hd [Hv Hz]]]]].
    assert (Hm : (n mod 10 < 10)%N) by (apply N.mod_lt; lia).
    destruct (digit_ok _ Hm) as [D1 D2].
    exists (ds ++ [digit (n mod 10)]). split; [|split; [|split; [|split]]].
    + rewrite E, <- app_assoc. reflexivity.
    + destruct ds; discriminate.
    + apply Forall_app. auto.
    + rewrite read_dec_app, Hv. cbn [fold_left]. rewrite D2.
      pose proof (N.div_mod n 10). lia.
    + intros t Et. destruct ds as [|c ds]; [congruence|]. inversion Et; subst c.
      specialize (Hz ds eq_refl). subst ds. exfalso. cbn in Hv. 
      assert (1 <= n / 10)%N by (apply N.div_le_lower_bound; lia). unfold digit_value in Hv. cbn in Hv. lia.
Qed.

Lemma read_dec_bound_aux ds : Forall is_digit ds -> forall a, 
  (a * 10 ^ N.of_nat (length ds) <= fold_left (fun a c => 10 * a + digit_value c) ds a < (a + 1) * 10 ^ N.of_nat (length ds))%N.
Proof.
  induction 1 as [|c ds Hc Hds IH]; intro a.
  - cbn. lia.
  - cbn [fold_left List.length]. rewrite pow10_S. specialize (IH (10 * a + digit_value c)%N).
    unfold is_digit, digit_value in *. nia.
Qed.

Lemma read_dec_bound ds : Forall is_digit ds -> (read_dec ds < 10 ^ N.of_nat (length ds))%N.
Proof. intro H. pose proof (read_dec_bound_aux ds H 0%N). unfold read_dec. lia. Qed.

Lemma read_dec_lower c ds : Forall is_digit (c :: ds) -> c <> "0"%char -> (10 ^ N.of_nat (length ds) <= read_dec (c :: ds))%N.
Proof.
  intros H Hc. inversion H; subst. pose proof (read_dec_bound_aux ds H3 (digit_value c)) as B.
  unfold read_dec. cbn [fold_left]. replace (10 * 0 + digit_value c)%N with (digit_value c) by lia.
  assert (1 <= digit_value c)%N.
  { unfold is_digit, digit_value in *. destruct (N.eq_dec (N_of_ascii c) 48) as [E|E]; [|lia].
    exfalso. apply Hc. apply N_of_ascii_inj. rewrite E. reflexivity. }
  nia.
Qed.

Lemma pow2_64_small : (2 ^ 64 <= 10 ^ N.of_nat 64)%N.
Proof. vm_compute. discriminate. Qed.

Lemma dec_spec n : (n < 2 ^ 64)%N ->
  dec n <> [] /\ Forall is_digit (dec n) /\ read_dec (dec n) = n /\ (forall t, dec n = "0"%char :: t -> t = []).
Proof.
  intro H. unfold dec.
  destruct (dec_loop_spec 64 n []) as [ds [E [H1 [H2 [H3 H4]]]]]; [|lia|].
  - eapply N.lt_le_trans; [exact H | apply pow2_64_small].
  - rewrite E, app_nil_r. auto.
Qed.

Lemma dec_length n k : (n < 2 ^ 64)%N -> 0 < k -> (length (dec n) <= k <-> (n < 10 ^ N.of_nat k)%N).
Proof.
  intros Hn Hk. destruct (dec_spec n Hn) as [H1 [H2 [H3 H4]]]. split; intro H.
  - rewrite <- H3 at 1. eapply N.lt_le_trans; [apply read_dec_bound, H2|].
    apply N.pow_le_mono_r; lia.
  - destruct (dec n) as [|c ds] eqn:E; [congruence|]. cbn [List.length].
    destruct (ascii_dec c "0"%char) as [->|Hc]; [rewrite (H4 ds eq_refl); cbn; lia|].
    pose proof (read_dec_lower c ds H2 Hc) as B. rewrite H3 in B.
    assert (10 ^ N.of_nat (length ds) < 10 ^ N.of_nat k)%N by lia.
    apply N.pow_lt_mono_r_iff in H0; lia.
Qed.

Lemma ultos_spec v : (v < 2 ^ 64)%N ->
  (ultos v = Buf (dec v) /\ (v < 10 ^ 19)%N) \/ (ultos v = BufOverflow /\ (10 ^ 19 <= v)%N).
Proof.
  intro H. unfold ultos, sprintf_buf. rewrite N.mod_small by exact H.
  pose proof (dec_length v 19 H ltac:(lia)) as D. change (N.of_nat 19) with 19%N in D.
  destruct (Nat.leb_spec (S (length (dec v))) 20).
  - left. split; auto. apply D. lia.
  - right. split; auto. destruct (N.lt_ge_cases v (10 ^ 19)) as [Hv|Hv]; auto. apply D in Hv. lia.
Qed.
Lemma itos_spec v : (v < 2 ^ 32)%N -> itos v = Buf (dec v).
Proof.
  intro H. unfold itos, sprintf_buf. rewrite N.mod_small by exact H.
  assert (Hv : (v < 2 ^ 64)%N) by (eapply N.lt_trans; [exact H | vm_compute; reflexivity]).
  pose proof (dec_length v 19 Hv ltac:(lia)) as D.
  assert (length (dec v) <= 19).
  { apply D. eapply N.lt_trans; [exact H | vm_compute; reflexivity]. }
  destruct (Nat.leb_spec (S (length (dec v))) 20); auto. lia.
Qed.

(** ** mtos *)
Definition unperm (c : ascii) (b : N) : N := if ceqb c "-"%char then 0%N else b.
Definition unx (c : ascii) (x s : N) : N :=
  if ceqb c "x"%char then x else if ceqb c "S"%char || ceqb c "T"%char then s
  else if ceqb c "s"%char || ceqb c "t"%char then (x + s)%N else 0%N.
Definition parse_mode (s : str) : N :=
  match s with
  | [_; r1; w1; x1; r2; w2; x2; r3; w3; x3] =>
     unperm r1 256 + unperm w1 128 + unx x1 64 2048 + unperm r2 32 + unperm w2 16 + unx x2 8 1024
     + unperm r3 4 + unperm w3 2 + unx x3 1 512
  | _ => 0
  end%N.

Lemma land_absorb m k mask : N.land k mask = mask -> N.land (N.land m k) mask = N.land m mask.
Proof. intro H. rewrite <- N.land_assoc, H. reflexivity. Qed.
Definition mtos_perm (mode : N) : str :=
  [ mtos_bit mode 256 "r"%char; mtos_bit mode 128 "w"%char; mtos_x mode 64 2048 "S"%char "s"%char;
    mtos_bit mode 32 "r"%char; mtos_bit mode 16 "w"%char; mtos_x mode 8 1024 "S"%char "s"%char;
    mtos_bit mode 4 "r"%char; mtos_bit mode 2 "w"%char; mtos_x mode 1 512 "T"%char "t"%char ].
Lemma mtos_perm_low m : mtos_perm (N.land m 4095) = mtos_perm m.
Proof.
  unfold mtos_perm, mtos_bit, mtos_x.
  rewrite !land_absorb by reflexivity. reflexivity.
Qed.
Lemma mtos_unfold m : mtos m = mtos_type m :: mtos_perm m.
Proof. reflexivity. Qed.

Definition nseq (k : nat) : list N := map N.of_nat (seq 0 k).
Lemma nseq_In k n : (n < N.of_nat k)%N -> In n (nseq k).
Proof. intro H. unfold nseq. apply in_map_iff. exists (N.to_nat n). split; [lia|]. apply in_seq. lia. Qed.

Definition nrange (lo hi : N) : list N := map N.of_nat (seq (N.to_nat lo) (N.to_nat (hi - lo))).
Lemma nrange_In n hi : (n < hi)%N -> In n (nrange 0 hi).
Proof. intro H. unfold nrange. apply in_map_iff. exists (N.to_nat n). split; [lia|]. apply in_seq. lia. Qed.

Lemma perm_sweep : forallb (fun m => N.eqb (parse_mode ("-"%char :: mtos_perm m)) m) (nrange 0 4096) = true.
Proof. vm_compute. reflexivity. Qed.
Lemma parse_mode_perm m : parse_mode (mtos m) = N.land m 4095.
Proof.
  rewrite mtos_unfold, <- mtos_perm_low.
  assert (B : (N.land m 4095 < 4096)%N).
  { change 4095%N with (N.ones 12). rewrite N.land_ones. apply N.mod_lt. discriminate. }
  pose proof perm_sweep as S. rewrite forallb_forall in S.
  specialize (S _ (nrange_In _ _ B)). apply N.eqb_eq in S. rewrite <- S at 2. reflexivity.
Qed.
Lemma mtos_perm_inj m1 m2 : mtos m1 = mtos m2 -> N.land m1 4095 = N.land m2 4095.
Proof. intro E. rewrite <- !parse_mode_perm, E. reflexivity. Qed.

Definition known_type (m : N) : Prop :=
  In (N.land m 61440) [32768; 16384; 40960; 8192; 24576; 49152; 4096]%N.
Lemma mtos_type_inj m1 m2 : mtos m1 = mtos m2 -> known_type m1 -> N.land m1 61440 = N.land m2 61440.
Proof.
  intros E K. assert (T : mtos_type m1 = mtos_type m2) by (rewrite !mtos_unfold in E; congruence).
  unfold mtos_type, S_IFMT in T. unfold known_type in K. cbn [In] in K.
  destruct K as [K|[K|[K|[K|[K|[K|[K|[]]]]]]]]; rewrite <- K in *; cbn in T;
  repeat match type of T with context [if ?b then _ else _] => destruct b eqn:?; try discriminate end;
  symmetry; apply N.eqb_eq; assumption.
Qed.
Lemma mtos_length m : length (mtos m) = 10.
Proof. reflexivity. Qed.
