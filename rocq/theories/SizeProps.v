(** C83: sizes as they are shown. *)
From Verif Require Import Base BaseProofs StrModel StrSpec StrProofs SizeModel.
From Coq Require Import Lia ZArith.
Open Scope N_scope.

(** ** specification *)
Definition unit_of (letter : ascii) (u : N) : Prop :=
  (letter = "K"%char /\ u = 1024) \/ (letter = "M"%char /\ u = 1024 * 1024) \/ (letter = "G"%char /\ u = 1024 * 1024 * 1024).
(** the text is a number with two decimals and a unit: [q] hundredths of [letter] *)
Definition reads (text : str) (q : N) (letter : ascii) : Prop :=
  exists blanks a b, text = blanks ++ a ++ "."%char :: b ++ [" "%char; letter] /\ Forall (eq " "%char) blanks /\ a <> [] /\
    Forall is_digit a /\ Forall is_digit b /\ length b = 2%nat /\ q = 100 * read_dec a + read_dec b.

(** ** proofs *)
Lemma round_even_near a b : b <> 0 -> 2 * a <= 2 * b * round_even a b + b /\ 2 * b * round_even a b <= 2 * a + b.
Proof.
  intro B. unfold round_even. pose proof (N.div_mod a b B) as D. pose proof (N.mod_lt a b B) as M.
  destruct (N.ltb_spec (2 * (a mod b)) b) as [C|C]; [nia|]. destruct (N.ltb_spec b (2 * (a mod b))) as [C2|C2]; [nia|].
  destruct (N.even (a / b)); nia.
Qed.
Lemma round_even_mono a a' b : b <> 0 -> a <= a' -> round_even a b <= round_even a' b.
Proof.
  intros B H. unfold round_even. pose proof (N.div_mod a b B) as D. pose proof (N.mod_lt a b B) as M. pose proof (N.div_mod a' b B) as D'. pose proof (N.mod_lt a' b B) as M'.
  destruct (N.eq_dec (a / b) (a' / b)) as [E|E].
  - rewrite <- E in *. assert (R : a mod b <= a' mod b) by nia.
    destruct (N.ltb_spec (2 * (a mod b)) b) as [C|C], (N.ltb_spec (2 * (a' mod b)) b) as [C'|C']; try lia;
    destruct (N.ltb_spec b (2 * (a mod b))), (N.ltb_spec b (2 * (a' mod b))); destruct (N.even (a / b)); lia.
  - assert (Q : a / b + 1 <= a' / b) by (pose proof (N.div_le_mono a a' b B H); lia).
    destruct (2 * (a mod b) <? b), (2 * (a' mod b) <? b); try lia; destruct (b <? 2 * (a mod b)), (b <? 2 * (a' mod b)); destruct (N.even (a / b)), (N.even (a' / b)); lia.
Qed.
Lemma to_double_small v : v < 2 ^ 53 -> to_double v = v.
Proof. intro H. unfold to_double. apply N.ltb_lt in H. rewrite H. reflexivity. Qed.
Lemma two_digits n : n < 100 -> Forall is_digit (two n) /\ read_dec (two n) = n.
Proof.
  intro H. unfold two. assert (A : n / 10 < 10) by (apply N.div_lt_upper_bound; lia). assert (B : n mod 10 < 10) by (apply N.mod_lt; lia).
  destruct (digit_ok _ A) as [A1 A2]. destruct (digit_ok _ B) as [B1 B2]. split; [constructor; [exact A1|constructor; [exact B1|constructor]]|].
  unfold read_dec. cbn [fold_left]. rewrite A2, B2. pose proof (N.div_mod n 10). lia.
Qed.
Lemma fmt_reads v u letter : hundredths v u / 100 < 2 ^ 64 -> reads (fmt v u letter) (hundredths v u) letter.
Proof.
  intro H. unfold fmt. set (h := hundredths v u) in *. destruct (dec_spec (h / 100) H) as (D1 & D2 & D3 & _).
  destruct (two_digits (h mod 100)) as [T1 T2]; [apply N.mod_lt; lia|].
  exists (repeat " "%char (5 - length (dec (h / 100) ++ "."%char :: two (h mod 100)))), (dec (h / 100)), (two (h mod 100)).
  split; [unfold pad5; rewrite <- !app_assoc; reflexivity|]. split; [apply Forall_forall; intros x I; apply repeat_spec in I; congruence|].
  split; [exact D1|]. split; [exact D2|]. split; [exact T1|]. split; [reflexivity|]. rewrite D3, T2. apply N.div_mod. lia.
Qed.
(** the choice of the unit *)
Definition unit_for (v : N) : N := if v <? 2 ^ 20 then 2 ^ 10 else if v <? 2 ^ 30 then 2 ^ 20 else 2 ^ 30.
Definition letter_for (v : N) : ascii := if v <? 2 ^ 20 then "K"%char else if v <? 2 ^ 30 then "M"%char else "G"%char.
Lemma to_double_at_least v k : k <= v -> k <= 2 ^ 53 -> k <= to_double v.
Proof.
  intros H K. unfold to_double. destruct (N.ltb_spec v (2 ^ 53)) as [C|C]; [exact H|]. assert (V : v <> 0) by (intro Z; rewrite Z in C; change (2 ^ 53) with 9007199254740992 in C; lia).
  destruct (N.log2_spec v ltac:(lia)) as [L1 L2]. assert (B : 53 <= N.log2 v) by (apply (N.log2_le_mono (2 ^ 53) v) in C; change (N.log2 (2 ^ 53)) with 53 in C; exact C).
  set (k' := N.log2 v - 52) in *. assert (E : N.log2 v = 52 + k') by (unfold k'; lia). rewrite E, N.pow_add_r in L1.
  pose proof (round_even_mono (2 ^ 52 * 2 ^ k') v (2 ^ k') ltac:(apply N.pow_nonzero; discriminate) L1) as M. assert (X : round_even (2 ^ 52 * 2 ^ k') (2 ^ k') = 2 ^ 52).
  { unfold round_even. assert (Z : 2 ^ k' <> 0) by (apply N.pow_nonzero; discriminate). rewrite N.mod_mul, N.div_mul by exact Z. destruct (N.ltb_spec (2 * 0) (2 ^ k')); [reflexivity|lia]. }
  rewrite X in M. assert (Y : 2 ^ 1 <= 2 ^ k') by (apply N.pow_le_mono_r; [discriminate|lia]). change (2 ^ 1) with 2 in Y. change (2 ^ 53) with (2 ^ 52 * 2) in K. nia.
Qed.
Lemma to_double_err v : v < 2 ^ 64 -> v <= to_double v + 1024 /\ to_double v <= v + 1024.
Proof.
  intro H. unfold to_double. destruct (N.ltb_spec v (2 ^ 53)) as [C|C]; [lia|]. set (k := N.log2 v - 52). assert (Z : 2 ^ k <> 0) by (apply N.pow_nonzero; discriminate).
  assert (K : k <= 11). { unfold k. assert (V : 0 < v) by (destruct v; [exfalso; apply C; reflexivity|lia]). apply N.log2_lt_pow2 in H; [lia|exact V]. }
  assert (P : 2 ^ k <= 2 ^ 11) by (apply N.pow_le_mono_r; [discriminate|exact K]). change (2 ^ 11) with 2048 in P. destruct (round_even_near v (2 ^ k) Z) as [A B]. nia.
Qed.
Lemma to_double_mono v w : v <= w -> to_double v <= to_double w.
Proof.
  intro H. destruct (N.ltb_spec v (2 ^ 53)) as [C|C].
  - rewrite (to_double_small v C). apply to_double_at_least; [exact H|lia].
  - unfold to_double. destruct (N.ltb_spec v (2 ^ 53)) as [C1|_]; [lia|]. destruct (N.ltb_spec w (2 ^ 53)) as [C2|_]; [lia|].
    assert (V : 0 < v) by (destruct v; [exfalso; apply C; reflexivity|lia]). destruct (N.log2_spec v V) as [V1 V2]. destruct (N.log2_spec w ltac:(lia)) as [W1 W2].
    assert (B : 53 <= N.log2 v) by (apply (N.log2_le_mono (2 ^ 53) v) in C; change (N.log2 (2 ^ 53)) with 53 in C; exact C). pose proof (N.log2_le_mono v w H) as LL.
    destruct (N.eq_dec (N.log2 v) (N.log2 w)) as [E|E].
    + rewrite E. apply N.mul_le_mono_r. apply round_even_mono; [apply N.pow_nonzero; discriminate|exact H].
    + assert (X : forall a k, k <> 0 -> round_even (a * k) k = a) by (intros a k Z; unfold round_even; rewrite N.mod_mul, N.div_mul by exact Z; destruct (N.ltb_spec (2 * 0) k); [reflexivity|lia]).
      set (kv := N.log2 v - 52) in *. set (kw := N.log2 w - 52) in *. assert (Zv : 2 ^ kv <> 0) by (apply N.pow_nonzero; discriminate). assert (Zw : 2 ^ kw <> 0) by (apply N.pow_nonzero; discriminate).
      assert (A : round_even v (2 ^ kv) <= 2 ^ 53). { rewrite <- (X (2 ^ 53) (2 ^ kv) Zv). apply round_even_mono; [exact Zv|]. rewrite <- N.pow_add_r. replace (53 + kv) with (N.succ (N.log2 v)) by (unfold kv; lia). lia. }
      assert (D : 2 ^ 52 <= round_even w (2 ^ kw)). { rewrite <- (X (2 ^ 52) (2 ^ kw) Zw). apply round_even_mono; [exact Zw|]. rewrite <- N.pow_add_r. replace (52 + kw) with (N.log2 w) by (unfold kw; lia). lia. }
      apply (N.le_trans _ (2 ^ 53 * 2 ^ kv)); [apply N.mul_le_mono_r, A|]. apply (N.le_trans _ (2 ^ 52 * 2 ^ kw)); [|apply N.mul_le_mono_r, D]. rewrite <- !N.pow_add_r. apply N.pow_le_mono_r; [discriminate|]. unfold kv, kw. lia.
Qed.
Lemma to_double_ltb v k : k <= 2 ^ 53 -> (to_double v <? k) = (v <? k).
Proof.
  intro K. destruct (N.ltb_spec v k) as [C|C].
  - apply N.ltb_lt. rewrite to_double_small by lia. exact C.
  - apply N.ltb_ge. apply to_double_at_least; assumption.
Qed.
Lemma size_text_eq v : 1024 <= v -> size_text v = fmt v (unit_for v) (letter_for v).
Proof.
  intros H. unfold size_text, unit_for, letter_for. rewrite !to_double_ltb by discriminate. destruct (N.ltb_spec v (2 ^ 10)) as [C|C]; [change (2 ^ 10) with 1024 in C; lia|].
  destruct (v <? 2 ^ 20); [reflexivity|]. destruct (v <? 2 ^ 30); reflexivity.
Qed.
Lemma unit_for_ok v : unit_of (letter_for v) (unit_for v) /\ unit_for v <> 0.
Proof. unfold unit_of, letter_for, unit_for. destruct (v <? 2 ^ 20); [split; [left; auto|discriminate]|]. destruct (v <? 2 ^ 30); [split; [right; left; auto|discriminate]|split; [right; right; auto|discriminate]]. Qed.
Lemma hundredths_small v : v < 2 ^ 64 -> hundredths v (unit_for v) / 100 < 2 ^ 64.
Proof.
  intro K. unfold hundredths. destruct (unit_for_ok v) as [_ U]. pose proof (to_double_err v K) as [_ Er].
  pose proof (round_even_near (100 * to_double v) (unit_for v) U) as [_ R]. assert (U1 : 1024 <= unit_for v) by (unfold unit_for; destruct (v <? 2 ^ 20); [discriminate|destruct (v <? 2 ^ 30); [discriminate|discriminate]]).
  apply N.div_lt_upper_bound; [lia|]. change (2 ^ 64) with 18446744073709551616 in *. nia.
Qed.
(** less than one K: the number of bytes *)
Theorem C83_bytes : forall v, v < 1024 -> Forall is_digit (size_text v) /\ size_text v <> [] /\ read_dec (size_text v) = v.
Proof.
  intros v H. unfold size_text. rewrite to_double_small by lia. destruct (N.ltb_spec v (2 ^ 10)) as [C|C]; [|change (2 ^ 10) with 1024 in C; lia].
  destruct (dec_spec v) as (A & B & D & _); [lia|]. auto.
Qed.
(** otherwise the value in the unit, rounded: off by at most half of a hundredth, and a value halfway between two hundredths goes to the even
    one; from 2^53 bytes on the conversion to double adds up to 1024 bytes *)
Theorem C83_rounded : forall v, 1024 <= v < 2 ^ 64 -> exists q letter u, reads (size_text v) q letter /\ unit_of letter u /\ u <= v /\ (v < 1024 * u \/ letter = "G"%char) /\
  (v < 2 ^ 53 -> let off := (2 * Z.abs (100 * Z.of_N v - Z.of_N q * Z.of_N u))%Z in (off <= Z.of_N u)%Z /\ (off = Z.of_N u -> N.Even q)) /\
  (2 * Z.abs (100 * Z.of_N v - Z.of_N q * Z.of_N u) <= Z.of_N u + 2 * 100 * 1024)%Z.
Proof.
  intros v [H K]. exists (hundredths v (unit_for v)), (letter_for v), (unit_for v). destruct (unit_for_ok v) as [U Nz].
  split; [rewrite size_text_eq by auto; apply fmt_reads, hundredths_small, K|]. split; [exact U|]. split; [|split; [|split]].
  - unfold unit_for. destruct (N.ltb_spec v (2 ^ 20)); [exact H|]. destruct (N.ltb_spec v (2 ^ 30)); assumption.
  - unfold unit_for, letter_for. destruct (N.ltb_spec v (2 ^ 20)); [left; change (2 ^ 20) with (1024 * 2 ^ 10) in *; assumption|]. destruct (N.ltb_spec v (2 ^ 30)); [left; change (2 ^ 30) with (1024 * 2 ^ 20) in *; assumption|right; reflexivity].
  - intro Sm. unfold hundredths. rewrite to_double_small by exact Sm. set (u := unit_for v) in *. split; [pose proof (round_even_near (100 * v) u Nz) as R; nia|].
    unfold round_even. pose proof (N.div_mod (100 * v) u Nz) as D. pose proof (N.mod_lt (100 * v) u Nz) as M. set (q := 100 * v / u) in *. set (r := (100 * v) mod u) in *. intro E.
    destruct (N.ltb_spec (2 * r) u) as [C|C]; [exfalso; nia|]. destruct (N.ltb_spec u (2 * r)) as [C2|C2]; [exfalso; nia|]. destruct (N.even q) eqn:Ev; [apply N.even_spec, Ev|].
    assert (Od : N.odd q = true) by (rewrite <- N.negb_even, Ev; reflexivity). apply N.odd_spec in Od as [z Od]. exists (z + 1). lia.
  - pose proof (round_even_near (100 * to_double v) (unit_for v) Nz) as R. pose proof (to_double_err v K) as Er. unfold hundredths. nia.
Qed.
Lemma reads_fun t q l q' l' : reads t q l -> reads t q' l' -> q = q' /\ l = l'.
Proof.
  intros (s & a & b & -> & S & An & A & B & Lb & ->) (s' & a' & b' & E & S' & An' & A' & B' & Lb' & ->).
  assert (X : forall s a b l, s ++ a ++ "."%char :: b ++ [" "%char; l] = (s ++ a ++ "."%char :: b ++ [" "%char]) ++ [l]) by (intros; rewrite <- app_assoc; f_equal; rewrite <- app_assoc; f_equal; cbn [app]; f_equal; rewrite <- app_assoc; reflexivity).
  rewrite (X s), (X s') in E. apply app_inj_tail in E as [E ->]. split; [|reflexivity].
  assert (Y : forall s a b, s ++ a ++ "."%char :: b ++ [" "%char] = (s ++ a ++ "."%char :: b) ++ [" "%char]) by (intros; rewrite <- app_assoc; f_equal; rewrite <- app_assoc; f_equal; cbn [app]; f_equal; rewrite <- app_assoc; reflexivity).
  rewrite !Y in E. apply app_inj_tail in E as [E _].
  assert (Nd : forall x, Forall is_digit x -> ~ In "."%char x) by (intros x F I; rewrite Forall_forall in F; apply F in I; unfold is_digit in I; cbn in I; lia).
  assert (Ns : forall x, Forall is_digit x -> ~ In " "%char x) by (intros x F I; rewrite Forall_forall in F; apply F in I; unfold is_digit in I; cbn in I; lia).
  assert (RS : forall c (a b x y : str), ~ In c x -> ~ In c y -> a ++ c :: x = b ++ c :: y -> a = b /\ x = y).
  { clear. intros c a. induction a as [|z a IH]; intros [|w b] x y X Y E; cbn in E.
    - injection E as ->. auto.
    - injection E as -> ->. exfalso. apply X. apply in_app_iff. right. left. reflexivity.
    - injection E as -> <-. exfalso. apply Y. apply in_app_iff. right. left. reflexivity.
    - injection E as -> E. destruct (IH b x y X Y E) as [-> ->]. auto. }
  rewrite !app_assoc in E. apply RS in E as [E ->]; [|apply Nd; exact B|apply Nd; exact B']. f_equal. f_equal.
  assert (G : forall s s' (a a' : str), Forall (eq " "%char) s -> Forall (eq " "%char) s' -> ~ In " "%char a -> ~ In " "%char a' -> a <> [] -> a' <> [] -> s ++ a = s' ++ a' -> a = a').
  { clear. intros s s' a a' S. revert s'. induction S as [|c s <- S IH]; intros s' S' A A' An An' E.
    - destruct S' as [|d s' <- S']; [exact E|]. cbn in E. subst a. exfalso. apply A. left. reflexivity.
    - destruct S' as [|d s' <- S']; [cbn in E; subst a'; exfalso; apply A'; left; reflexivity|]. cbn in E. injection E as E. exact (IH s' S' A A' An An' E). }
  rewrite (G s s' a a' S S' (Ns a A) (Ns a' A') An An' E). reflexivity.
Qed.
Lemma mono_core v w x y : 1024 <= v -> v <= w -> x <= y -> (v < 1073741824 -> x = v) -> (w < 1073741824 -> y = w) -> (1073741824 <= w -> 1073741824 <= y) ->
  let f := fun z => if z <? 1048576 then 1024 else if z <? 1073741824 then 1048576 else 1073741824 in
  round_even (100 * x) (f v) * f v <= round_even (100 * y) (f w) * f w.
Proof.
  intros H Le Dm Dv Dw Gw f. unfold f. clear f.
  assert (Up : forall x a b, b <> 0 -> x * b <= a -> x <= round_even a b).
  { clear. intros x a b B X. pose proof (round_even_mono (x * b) a b B X) as Mo. assert (round_even (x * b) b = x); [|lia]. unfold round_even. rewrite N.mod_mul, N.div_mul by exact B. destruct (N.ltb_spec (2 * 0) b); [reflexivity|lia]. }
  assert (Dn : forall x a b, b <> 0 -> a <= x * b -> round_even a b <= x).
  { clear. intros x a b B X. pose proof (round_even_mono a (x * b) b B X) as Mo. assert (round_even (x * b) b = x); [|lia]. unfold round_even. rewrite N.mod_mul, N.div_mul by exact B. destruct (N.ltb_spec (2 * 0) b); [reflexivity|lia]. }
  destruct (N.ltb_spec v 1048576) as [A|A], (N.ltb_spec w 1048576) as [B|B]; try (exfalso; lia).
  - apply N.mul_le_mono_r. apply round_even_mono; [discriminate|lia].
  - assert (D : round_even (100 * x) 1024 <= 102400) by (apply Dn; [discriminate|lia]). destruct (N.ltb_spec w 1073741824) as [B2|B2].
    + assert (E : 100 <= round_even (100 * y) 1048576) by (apply Up; [discriminate|lia]). lia.
    + assert (E : 100 <= round_even (100 * y) 1073741824) by (apply Up; [discriminate|lia]). lia.
  - destruct (N.ltb_spec v 1073741824) as [A2|A2], (N.ltb_spec w 1073741824) as [B2|B2]; try (exfalso; lia).
    + apply N.mul_le_mono_r. apply round_even_mono; [discriminate|lia].
    + assert (D : round_even (100 * x) 1048576 <= 102400) by (apply Dn; [discriminate|lia]). assert (E : 100 <= round_even (100 * y) 1073741824) by (apply Up; [discriminate|lia]). lia.
    + apply N.mul_le_mono_r. apply round_even_mono; [discriminate|lia].
Qed.
(** a larger size never shows as a smaller amount *)
Theorem C83_monotone : forall v w q q' l l' u u', 1024 <= v -> v <= w -> w < 2 ^ 64 -> reads (size_text v) q l -> reads (size_text w) q' l' ->
  unit_of l u -> unit_of l' u' -> q * u <= q' * u'.
Proof.
  intros v w q q' l l' u u' H Le K R R' U U'. rewrite (size_text_eq v H) in R. rewrite (size_text_eq w (N.le_trans _ _ _ H Le)) in R'.
  destruct (reads_fun _ _ _ _ _ R (fmt_reads v _ _ (hundredths_small v (N.le_lt_trans _ _ _ Le K)))) as [-> ->]. destruct (reads_fun _ _ _ _ _ R' (fmt_reads w _ _ (hundredths_small w K))) as [-> ->]. clear R R'.
  destruct (unit_for_ok v) as [Uv Nv]. destruct (unit_for_ok w) as [Uw Nw].
  assert (UF : forall l a b, unit_of l a -> unit_of l b -> a = b) by (intros l a b [[-> ->]|[[-> ->]|[-> ->]]] [[E ->]|[[E ->]|[E ->]]]; first [reflexivity|discriminate E]).
  rewrite (UF _ _ _ U Uv), (UF _ _ _ U' Uw). unfold hundredths.
  assert (Q : forall z, z < 1073741824 -> z < 2 ^ 53) by (intros z Z; apply (N.lt_trans _ _ _ Z); reflexivity).
  apply (mono_core v w (to_double v) (to_double w) H Le (to_double_mono v w Le)).
  - intro Z. apply to_double_small, Q, Z.
  - intro Z. apply to_double_small, Q, Z.
  - intro Z. apply to_double_at_least; [exact Z|discriminate].
Qed.
Example C83_run : size_text 1029 = L " 1.00 K" /\ size_text (1024 * 8 + 128) = L " 8.12 K" /\ size_text (1024 * 8 + 384) = L " 8.38 K" /\ size_text (2 ^ 64 - 1) = L "17179869184.00 G" /\ size_text 1023 = L "1023" /\ size_text 1024 = L " 1.00 K" /\ size_text 123456789 = L "117.74 M" /\ size_text 5000000000 = L " 4.66 G".
Proof. vm_compute. auto 8. Qed.
(** a size just below a unit shows as 1024.00 of the smaller one *)
Theorem C83_unit_refuted : exists v, v < 1024 * 1024 /\ size_text v = L "1024.00 K".
Proof. exists 1048575. split; [reflexivity|vm_compute; reflexivity]. Qed.
(** the progress of a download of more than 2 G shows nonsense *)
Theorem C83_progress_refuted : exists n, 2 ^ 31 <= n < 2 ^ 32 /\ progress_text n = L "17179869182.79 G".
Proof. exists 3000000000. split; [split; [discriminate|reflexivity]|vm_compute; reflexivity]. Qed.
Print Assumptions C83_bytes.
Print Assumptions C83_rounded.
Print Assumptions C83_monotone.
Print Assumptions C83_unit_refuted.
Print Assumptions C83_progress_refuted.
