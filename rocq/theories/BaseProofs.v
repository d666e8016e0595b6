From Verif Require Import Base.

Lemma ceqb_spec a b : reflect (a = b) (ceqb a b).
Proof. apply Ascii.eqb_spec. Qed.
Lemma ceqb_refl a : ceqb a a = true.
Proof. apply Ascii.eqb_refl. Qed.
Lemma ceqb_eq a b : ceqb a b = true <-> a = b.
Proof. apply Ascii.eqb_eq. Qed.
Lemma ceqb_neq a b : ceqb a b = false <-> a <> b.
Proof. apply Ascii.eqb_neq. Qed.

Lemma seqb_eq a : forall b, seqb a b = true <-> a = b.
Proof.
  induction a as [|x a IH]; intros [|y b]; cbn; try (split; intro; congruence).
  rewrite andb_true_iff, ceqb_eq, IH. split; [intros [? ?]; congruence | intros E; inversion E; auto].
Qed.
Lemma seqb_refl a : seqb a a = true.
Proof. apply seqb_eq; reflexivity. Qed.
Lemma seqb_spec a b : reflect (a = b) (seqb a b).
Proof. destruct (seqb a b) eqn:E; constructor; [apply seqb_eq; exact E | intro H; apply seqb_eq in H; congruence]. Qed.
Lemma seqb_neq a b : seqb a b = false <-> a <> b.
Proof. destruct (seqb_spec a b); split; congruence. Qed.
Lemma seqb_sym a b : seqb a b = seqb b a.
Proof. destruct (seqb_spec a b), (seqb_spec b a); congruence. Qed.

Lemma str_eq_dec (a b : str) : {a = b} + {a <> b}.
Proof. destruct (seqb_spec a b); auto. Qed.

Lemma N_of_ascii_inj a b : N_of_ascii a = N_of_ascii b -> a = b.
Proof. intro H. rewrite <- (ascii_N_embedding a), <- (ascii_N_embedding b), H. reflexivity. Qed.

Lemma cltb_lt a b : cltb a b = true <-> (N_of_ascii a < N_of_ascii b)%N.
Proof. unfold cltb. apply N.ltb_lt. Qed.
Lemma cltb_ge a b : cltb a b = false <-> (N_of_ascii b <= N_of_ascii a)%N.
Proof. unfold cltb. apply N.ltb_ge. Qed.

(** strict total order *)
Definition slt (a b : str) : Prop := sltb a b = true.

Lemma sltb_irrefl a : sltb a a = false.
Proof. induction a as [|x a IH]; cbn; auto. unfold cltb; rewrite N.ltb_irrefl; auto. Qed.

Lemma sltb_trans a : forall b c, sltb a b = true -> sltb b c = true -> sltb a c = true.
Proof.
  induction a as [|x a IH]; intros [|y b] [|z c]; cbn; try congruence.
  destruct (cltb x y) eqn:E1, (cltb y x) eqn:E2, (cltb y z) eqn:E3, (cltb z y) eqn:E4,
           (cltb x z) eqn:E5, (cltb z x) eqn:E6; try congruence;
  rewrite ?cltb_lt, ?cltb_ge in *; try lia; eauto.
Qed.

Lemma sltb_total a : forall b, sltb a b = true \/ a = b \/ sltb b a = true.
Proof.
  induction a as [|x a IH]; intros [|y b]; cbn; auto.
  destruct (cltb x y) eqn:E1; auto. destruct (cltb y x) eqn:E2; auto.
  rewrite cltb_ge in *. assert (x = y) by (apply N_of_ascii_inj; lia). subst y.
  destruct (IH b) as [H|[H|H]]; subst; auto.
Qed.

Lemma sltb_asym a b : sltb a b = true -> sltb b a = false.
Proof.
  intro H. destruct (sltb b a) eqn:E; auto.
  pose proof (sltb_irrefl a).
  pose proof (sltb_trans a b a H E). congruence.
Qed.
Lemma slt_irrefl a : ~ slt a a.
Proof. unfold slt; rewrite sltb_irrefl; discriminate. Qed.
Lemma slt_trans a b c : slt a b -> slt b c -> slt a c.
Proof. apply sltb_trans. Qed.
Lemma slt_neq a b : slt a b -> a <> b.
Proof. intros H E; subst; exact (slt_irrefl _ H). Qed.

Lemma sltb_false_cases a b : sltb a b = false -> a = b \/ sltb b a = true.
Proof. intro H. destruct (sltb_total a b) as [E|[E|E]]; auto; congruence. Qed.

Lemma smem_In x s : smem x s = true <-> In x s.
Proof.
  induction s as [|y t IH]; cbn; [split; [discriminate | tauto]|].
  rewrite orb_true_iff, seqb_eq, IH. intuition congruence.
Qed.
Lemma smem_nIn x s : smem x s = false <-> ~ In x s.
Proof. rewrite <- smem_In. destruct (smem x s); split; congruence. Qed.

Lemma sins_In x y s : In y (sins x s) <-> y = x \/ In y s.
Proof.
  induction s as [|z t IH]; cbn; [intuition congruence|].
  destruct (sltb x z) eqn:E1; cbn; [intuition congruence|].
  destruct (sltb z x) eqn:E2; cbn; [rewrite IH; intuition congruence|].
  apply sltb_false_cases in E1. destruct E1 as [E1|E1]; [|congruence]. subst. intuition congruence.
Qed.

Definition ssorted (s : list str) : Prop := StronglySorted slt s.

Lemma sins_sorted x s : ssorted s -> ssorted (sins x s).
Proof.
  unfold ssorted. induction s as [|z t IH]; intro H; cbn.
  - repeat constructor.
  - inversion H as [|z' t' Ht Hz]; subst. destruct (sltb x z) eqn:E1.
    + constructor; [exact H|]. constructor; [exact E1|].
      rewrite Forall_forall in Hz |- *. intros w Hw. eapply slt_trans; [exact E1 | apply Hz, Hw].
    + destruct (sltb z x) eqn:E2; [|exact H].
      constructor; [apply IH, Ht|]. rewrite Forall_forall in Hz |- *.
      intros w Hw. apply sins_In in Hw as [->|Hw]; [exact E2 | apply Hz, Hw].
Qed.

Lemma set_of_gen l : forall s, ssorted s ->
  ssorted (fold_left (fun s x => sins x s) l s) /\
  (forall y, In y (fold_left (fun s x => sins x s) l s) <-> In y s \/ In y l).
Proof.
  induction l as [|x l IH]; intros s Hs; cbn [fold_left].
  - split; [exact Hs|]. cbn. tauto.
  - destruct (IH (sins x s) (sins_sorted x s Hs)) as [H1 H2]. split; [exact H1|].
    intro y. rewrite H2, sins_In. cbn. intuition congruence.
Qed.
Lemma set_of_sorted l : ssorted (set_of l).
Proof. apply set_of_gen. constructor. Qed.
Lemma set_of_In l y : In y (set_of l) <-> In y l.
Proof. unfold set_of. destruct (set_of_gen l [] (SSorted_nil _)) as [_ H]. rewrite H. cbn. tauto. Qed.

Lemma ssorted_NoDup s : ssorted s -> NoDup s.
Proof.
  induction 1 as [|x s Hs IH Hx]; constructor; auto.
  intro H. rewrite Forall_forall in Hx. apply (slt_irrefl x), Hx, H.
Qed.

Lemma ssorted_ext s t : ssorted s -> ssorted t -> (forall x, In x s <-> In x t) -> s = t.
Proof.
  intro Hs. revert t. induction Hs as [|x s Hs IH Hx]; intros t Ht E.
  - destruct t as [|y t]; auto. exfalso. apply (proj2 (E y)). left; reflexivity.
  - destruct t as [|y t]; [exfalso; apply (proj1 (E x)); left; reflexivity|].
    inversion Ht as [|y' t' Ht' Hy]; subst.
    rewrite Forall_forall in Hx, Hy.
    assert (x = y) as <-.
    { destruct (proj1 (E x) (or_introl eq_refl)) as [->|Hin]; auto.
      destruct (proj2 (E y) (or_introl eq_refl)) as [->|Hin']; auto.
      exfalso. apply (slt_irrefl x). eapply slt_trans; [apply Hx, Hin' | apply Hy, Hin]. }
    f_equal. apply IH; auto. intro z. split; intro Hz.
    + destruct (proj1 (E z) (or_intror Hz)) as [<-|]; auto. exfalso; apply (slt_irrefl x), Hx, Hz.
    + destruct (proj2 (E z) (or_intror Hz)) as [<-|]; auto. exfalso; apply (slt_irrefl x), Hy, Hz.
Qed.

Lemma set_of_sorted_id s : ssorted s -> set_of s = s.
Proof. intro H. apply ssorted_ext; auto using set_of_sorted. apply set_of_In. Qed.

Lemma filter_sorted f s : ssorted s -> ssorted (filter f s).
Proof.
  induction 1 as [|x s Hs IH Hx]; cbn; [constructor|].
  destruct (f x); auto. constructor; auto. rewrite Forall_forall in *.
  intros y Hy. apply Hx. apply filter_In in Hy. tauto.
Qed.

Lemma sdel_In x y s : In y (sdel x s) <-> In y s /\ y <> x.
Proof.
  unfold sdel. rewrite filter_In, negb_true_iff, seqb_neq. intuition congruence.
Qed.

(** maps *)
Lemma mget_mset {A} k k' (v : A) m :
  mget k' (mset k v m) = if seqb k' k then Some v else mget k' m.
Proof.
  induction m as [|[k0 v0] m IH]; cbn [mset].
  - cbn. destruct (seqb k' k); auto.
  - destruct (sltb k k0) eqn:E1; cbn [mget].
    + reflexivity.
    + destruct (sltb k0 k) eqn:E2; cbn [mget].
      * rewrite IH. destruct (seqb_spec k' k0) as [->|]; auto.
        destruct (seqb_spec k0 k) as [->|]; auto. rewrite sltb_irrefl in E2. discriminate.
      * apply sltb_false_cases in E1 as [<-|]; [|congruence].
        destruct (seqb k' k); auto.
Qed.
Lemma mget_mdel {A} k k' (m : list (str * A)) :
  mget k' (mdel k m) = if seqb k' k then None else mget k' m.
Proof.
  induction m as [|[k0 v0] m IH]; cbn [mdel filter mget fst].
  - destruct (seqb k' k); auto.
  - fold (mdel k m). destruct (seqb_spec k k0) as [->|Hn]; cbn [negb mget].
    + rewrite IH. destruct (seqb k' k0); auto.
    + rewrite IH. destruct (seqb_spec k' k0) as [->|]; auto.
      destruct (seqb_spec k0 k); congruence.
Qed.
Lemma mget_In {A} k (m : list (str * A)) v : mget k m = Some v -> In (k, v) m.
Proof.
  induction m as [|[k0 v0] m IH]; cbn; [discriminate|].
  destruct (seqb_spec k k0); [intro E; inversion E; subst; auto | auto].
Qed.
Lemma mget_None {A} k (m : list (str * A)) : mget k m = None <-> ~ In k (keys m).
Proof.
  induction m as [|[k0 v0] m IH]; cbn; [tauto|].
  destruct (seqb_spec k k0); [subst; split; [discriminate|tauto] | rewrite IH; intuition congruence].
Qed.
Lemma In_mget {A} k v (m : list (str * A)) : NoDup (keys m) -> In (k, v) m -> mget k m = Some v.
Proof.
  induction m as [|[k0 v0] m IH]; cbn; [tauto|]. intros H [E|Hin]; inversion H; subst.
  - inversion E; subst. rewrite seqb_refl. reflexivity.
  - destruct (seqb_spec k k0) as [->|]; auto. exfalso. apply H2. apply (in_map fst) in Hin. exact Hin.
Qed.

Lemma mset_keys {A} k (v : A) m : keys (mset k v m) = sins k (keys m).
Proof.
  induction m as [|[k0 v0] m IH]; cbn; auto.
  destruct (sltb k k0) eqn:E1; cbn; auto. destruct (sltb k0 k) eqn:E2; cbn.
  - f_equal. exact IH.
  - apply sltb_false_cases in E1 as [<-|]; [|congruence]. reflexivity.
Qed.
Lemma mset_keys_sorted {A} k (v : A) m : ssorted (keys m) -> ssorted (keys (mset k v m)).
Proof. rewrite mset_keys. apply sins_sorted. Qed.
Lemma mdel_keys {A} k (m : list (str * A)) : keys (mdel k m) = sdel k (keys m).
Proof.
  induction m as [|[k0 v0] m IH]; cbn; auto.
  destruct (seqb k k0); cbn; [exact IH | f_equal; exact IH].
Qed.
Lemma mdel_keys_sorted {A} k (m : list (str * A)) : ssorted (keys m) -> ssorted (keys (mdel k m)).
Proof. rewrite mdel_keys. apply filter_sorted. Qed.

Lemma mget_ext {A} (m1 m2 : list (str * A)) :
  ssorted (keys m1) -> ssorted (keys m2) -> (forall k, mget k m1 = mget k m2) -> m1 = m2.
Proof.
  revert m2. induction m1 as [|[k1 v1] m1 IH]; intros [|[k2 v2] m2] H1 H2 E; auto.
  - specialize (E k2). cbn in E. rewrite seqb_refl in E. discriminate.
  - specialize (E k1). cbn in E. rewrite seqb_refl in E. discriminate.
  - cbn in H1, H2. inversion H1 as [|? ? H1s H1f]; inversion H2 as [|? ? H2s H2f]; subst.
    rewrite Forall_forall in H1f, H2f.
    assert (k1 = k2) as <-.
    { destruct (str_eq_dec k1 k2) as [|n]; auto. exfalso.
      assert (I1 : In k1 (keys m2)).
      { pose proof (E k1) as E1. cbn in E1. rewrite seqb_refl in E1.
        destruct (seqb_spec k1 k2); [congruence|]. destruct (In_dec str_eq_dec k1 (keys m2)); auto.
        apply mget_None in n1. congruence. }
      assert (I2 : In k2 (keys m1)).
      { pose proof (E k2) as E2. cbn in E2. rewrite seqb_refl in E2.
        destruct (seqb_spec k2 k1); [congruence|]. destruct (In_dec str_eq_dec k2 (keys m1)); auto.
        apply mget_None in n1. congruence. }
      apply (slt_irrefl k1). eapply slt_trans; [apply H1f, I2 | apply H2f, I1]. }
    pose proof (E k1) as E1. cbn in E1. rewrite seqb_refl in E1. inversion E1; subst v2.
    f_equal. apply IH; [exact H1s | exact H2s |]. intro k. pose proof (E k) as Ek. cbn in Ek.
    destruct (seqb_spec k k1) as [e|]; [|exact Ek]. rewrite e.
    rewrite (proj2 (mget_None k1 m1)), (proj2 (mget_None k1 m2)); auto;
      intro Hin; [apply (slt_irrefl k1), H2f, Hin | apply (slt_irrefl k1), H1f, Hin].
Qed.

(** find / prefix *)
Lemma cfind_Some c s n : cfind c s = Some n ->
  n < length s /\ ~ In c (firstn n s) /\ s = firstn n s ++ c :: skipn (S n) s.
Proof.
  revert n; induction s as [|x t IH]; intros n; cbn; [discriminate|].
  destruct (ceqb_spec x c) as [->|Hn].
  - intro E; inversion E; subst; cbn. split; [lia | split; [tauto | reflexivity]].
  - destruct (cfind c t) as [m|] eqn:Em; cbn; [|discriminate]. intro E; inversion E; subst.
    destruct (IH m eq_refl) as [H1 [H2 H3]]. cbn. split; [lia | split; [intuition congruence | f_equal; exact H3]].
Qed.
Lemma cfind_None c s : cfind c s = None <-> ~ In c s.
Proof.
  induction s as [|x t IH]; cbn; [tauto|].
  destruct (ceqb_spec x c) as [->|Hn]; [split; [discriminate | tauto]|].
  destruct (cfind c t); cbn; split; try discriminate; intuition congruence.
Qed.
Lemma cfind_app c a b : ~ In c a -> cfind c (a ++ c :: b) = Some (length a).
Proof.
  induction a as [|x a IH]; cbn; intro H; [rewrite ceqb_refl; auto|].
  destruct (ceqb_spec x c) as [->|]; [tauto|]. rewrite IH by tauto. reflexivity.
Qed.
Lemma crfind_None c s : crfind c s = None <-> ~ In c s.
Proof.
  induction s as [|x t IH]; cbn; [tauto|].
  destruct (crfind c t) as [m|].
  - split; [discriminate|]. intro H. exfalso. destruct IH as [_ IH]. 
    assert (Some m = None) by (apply IH; tauto). discriminate.
  - destruct (ceqb_spec x c) as [->|Hn]; [split; [discriminate|tauto]|]. intuition congruence.
Qed.
Lemma crfind_app c a b : ~ In c b -> crfind c (a ++ c :: b) = Some (length a).
Proof.
  intro H. induction a as [|x a IH]; cbn [app crfind].
  - apply crfind_None in H. rewrite H, ceqb_refl. reflexivity.
  - rewrite IH. reflexivity.
Qed.
Lemma crfind_Some c s n : crfind c s = Some n ->
  n < length s /\ ~ In c (skipn (S n) s) /\ s = firstn n s ++ c :: skipn (S n) s.
Proof.
  revert n; induction s as [|x t IH]; intros n; cbn [crfind]; [discriminate|].
  destruct (crfind c t) as [m|] eqn:Em.
  - intro E; inversion E; subst. destruct (IH m eq_refl) as [H1 [H2 H3]].
    cbn [length firstn skipn app]. split; [lia | split; [exact H2 | f_equal; exact H3]].
  - destruct (ceqb_spec x c) as [->|Hn]; [|discriminate]. intro E; inversion E; subst. cbn.
    apply crfind_None in Em. split; [lia | split; [exact Em | reflexivity]].
Qed.

Lemma prefixb_spec p s : prefixb p s = true <-> exists t, s = p ++ t.
Proof.
  revert s; induction p as [|x p IH]; intros s; cbn.
  - split; [intros _; exists s; reflexivity | auto].
  - destruct s as [|y s]; [split; [discriminate | intros [t E]; discriminate]|].
    rewrite andb_true_iff, ceqb_eq, IH. split.
    + intros [-> [t ->]]; exists t; reflexivity.
    + intros [t E]; inversion E; subst; split; [auto | exists t; auto].
Qed.

Lemma sfind_Some p s n : sfind p s = Some n ->
  s = firstn n s ++ p ++ skipn (n + length p) s /\ n + length p <= length s.
Proof.
  revert n; induction s as [|x t IH]; intros n; cbn [sfind].
  - destruct (prefixb p []) eqn:E; [|discriminate]. intro H; inversion H; subst.
    destruct p; cbn in *; [auto | discriminate].
  - destruct (prefixb p (x :: t)) eqn:E.
    + intro H; inversion H; subst. apply prefixb_spec in E as [u ->]. cbn [firstn app Nat.add].
      rewrite skipn_app, skipn_all, Nat.sub_diag. cbn. rewrite app_length. split; [reflexivity | lia].
    + destruct (sfind p t) as [m|] eqn:Em; cbn [option_map]; [|discriminate].
      intro H; inversion H; subst. destruct (IH m eq_refl) as [H1 H2]. cbn. split; [f_equal; exact H1 | lia].
Qed.

(** [occurs p s]: p is a contiguous part of s *)
Definition occurs (p s : str) : Prop := exists a b, s = a ++ p ++ b.

Lemma sfind_None p s : sfind p s = None <-> ~ occurs p s.
Proof.
  induction s as [|x t IH]; cbn [sfind].
  - destruct (prefixb p []) eqn:E.
    + split; [discriminate|]. intro H. exfalso. apply H. apply prefixb_spec in E as [u E].
      exists [], u. exact E.
    + split; auto. intros _ [a [b E']]. destruct a; [|discriminate]. cbn in E'.
      assert (prefixb p [] = true) by (apply prefixb_spec; exists b; exact E'). congruence.
  - destruct (prefixb p (x :: t)) eqn:E.
    + split; [discriminate|]. intro H. exfalso. apply H. apply prefixb_spec in E as [u E].
      exists [], u. exact E.
    + destruct (sfind p t) as [m|] eqn:Em; cbn.
      * split; [discriminate|]. intro H. exfalso.
        apply sfind_Some in Em as [E1 _]. apply H. exists (x :: firstn m t), (skipn (m + length p) t).
        cbn. f_equal. exact E1.
      * split; auto. intros _ [a [b E']]. destruct a as [|y a].
        { assert (prefixb p (x :: t) = true) by (apply prefixb_spec; exists b; exact E'). congruence. }
        inversion E'; subst. apply (proj1 IH eq_refl). exists a, b. reflexivity.
Qed.

Lemma cmem_In c s : cmem c s = true <-> In c s.
Proof.
  unfold cmem. rewrite existsb_exists. split.
  - intros [x [H E]]. apply ceqb_eq in E. subst; auto.
  - intro H. exists c. split; auto using ceqb_refl.
Qed.

Lemma cstr_nozero s : ~ In zero s -> cstr s = s.
Proof.
  induction s as [|x t IH]; cbn; auto. intro H.
  destruct (ceqb_spec x zero) as [->|]; [tauto|]. f_equal. tauto.
Qed.
