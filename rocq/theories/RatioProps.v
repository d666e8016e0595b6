(** C78: when 'cards upgrade' stops to ask, and the percentage it prints. *)
From Verif Require Import RatioModel.
From Coq Require Import ZArith Reals Lia Lra List.
From Flocq Require Import Core.Core IEEE754.BinarySingleNaN.
Import ListNotations.
Open Scope bool_scope.
Open Scope Z_scope.

Notation fexp := (FLT_exp (-149) 24).
Notation rnd := (round radix2 fexp ZnearestE).
Lemma rnd_le x y : (x <= y)%R -> (rnd x <= rnd y)%R.
Proof. intro H. apply round_le; [apply FLT_exp_valid; reflexivity|apply valid_rnd_N|exact H]. Qed.
Lemma rnd_int n : Z.abs n <= 2 ^ 24 -> rnd (IZR n) = IZR n.
Proof.
  intro H. apply round_generic; [apply valid_rnd_N|]. destruct (Z.eq_dec (Z.abs n) (2 ^ 24)) as [E|E].
  - assert (n = 2 ^ 24 \/ n = - 2 ^ 24) as [-> | ->] by lia.
    + change (IZR (2 ^ 24)) with (IZR (radix2 ^ 24)). rewrite IZR_Zpower by lia. apply generic_format_FLT_bpow; [reflexivity|lia].
    + rewrite opp_IZR. apply generic_format_opp. change (IZR (2 ^ 24)) with (IZR (radix2 ^ 24)). rewrite IZR_Zpower by lia. apply generic_format_FLT_bpow; [reflexivity|lia].
  - apply generic_format_FLT. apply FLT_spec with (Float radix2 n 0); [unfold F2R; cbn [Fnum Fexp bpow]; lra| |cbn [Fexp]; lia]. cbn [Fnum]. change (radix2 : Z) with 2. lia.
Qed.
Lemma bpow128 : IZR (2 ^ 64) = bpow radix2 64.
Proof. change (IZR (2 ^ 64)) with (IZR (radix2 ^ 64)). apply IZR_Zpower. lia. Qed.
Lemma small x : (Rabs x < bpow radix2 64)%R -> Rlt_bool (Rabs x) (bpow radix2 128) = true.
Proof. intro H. apply Rlt_bool_true. apply Rlt_trans with (bpow radix2 64); [exact H|apply bpow_lt; lia]. Qed.
Lemma of_int_R n : Z.abs n <= 2 ^ 24 -> B2R (of_int n) = IZR n /\ is_finite (of_int n) = true.
Proof.
  intro H. pose proof (binary_normalize_correct 24 128 eq_refl eq_refl mode_NE n 0 false) as C. cbn zeta in C. unfold F2R in C. cbn [Fnum Fexp bpow] in C. rewrite Rmult_1_r in C.
  change (SpecFloat.fexp 24 128) with fexp in C. change (round_mode mode_NE) with ZnearestE in C. rewrite (rnd_int n H) in C. rewrite small in C.
  - destruct C as (A & B & _). split; assumption.
  - rewrite <- bpow128, <- abs_IZR. apply IZR_lt. lia.
Qed.
(** the value of the float expression, as long as the numbers are small enough *)
Lemma percent_R a b : 0 <= a <= 2 ^ 24 -> 0 < b <= 2 ^ 24 -> B2R (percent a b) = rnd (rnd (IZR a / IZR b) * 100) /\ is_finite (percent a b) = true.
Proof.
  intros Ha Hb. destruct (of_int_R a) as [Ra Fa]; [lia|]. destruct (of_int_R b) as [Rb Fb]; [lia|]. destruct (of_int_R 100) as [Rc Fc]; [lia|].
  assert (Pb : (0 < IZR b)%R) by (apply IZR_lt; lia). assert (Pa : (0 <= IZR a)%R) by (apply IZR_le; lia).
  assert (Q0 : (0 <= IZR a / IZR b)%R) by (apply Rmult_le_pos; [exact Pa|left; apply Rinv_0_lt_compat; exact Pb]).
  assert (Q1 : (IZR a / IZR b <= IZR (2 ^ 24))%R).
  { apply Rmult_le_reg_r with (IZR b); [exact Pb|]. unfold Rdiv. rewrite Rmult_assoc, Rinv_l, Rmult_1_r by lra. rewrite <- mult_IZR. apply IZR_le. nia. }
  assert (X0 : (0 <= rnd (IZR a / IZR b))%R) by (rewrite <- (rnd_int 0) by lia; apply rnd_le; exact Q0).
  assert (X1 : (rnd (IZR a / IZR b) <= IZR (2 ^ 24))%R) by (rewrite <- (rnd_int (2 ^ 24)) by lia; apply rnd_le; exact Q1).
  pose proof (Bdiv_correct 24 128 eq_refl eq_refl mode_NE (of_int a) (of_int b)) as C. rewrite Ra, Rb in C. specialize (C ltac:(lra)).
  change (SpecFloat.fexp 24 128) with fexp in C. change (round_mode mode_NE) with ZnearestE in C. rewrite small in C.
  2:{ rewrite Rabs_pos_eq by exact X0. rewrite <- bpow128. apply Rle_lt_trans with (1 := X1). apply IZR_lt. lia. }
  destruct C as (C & F & _). pose proof (Bmult_correct 24 128 eq_refl eq_refl mode_NE (@Bdiv 24 128 eq_refl eq_refl mode_NE (of_int a) (of_int b)) (of_int 100)) as M.
  rewrite C, Rc, F, Fa, Fc in M. change (SpecFloat.fexp 24 128) with fexp in M. change (round_mode mode_NE) with ZnearestE in M. rewrite small in M.
  - destruct M as (M & G & _). split; [exact M|exact G].
  - assert (Y : (0 <= rnd (IZR a / IZR b) * 100 <= bpow radix2 32)%R).
    { split; [lra|]. apply Rle_trans with (IZR (2 ^ 24) * 100)%R; [lra|]. rewrite <- mult_IZR. change (bpow radix2 32) with (IZR (2 ^ 32)). apply IZR_le. lia. }
    assert (G : generic_format radix2 fexp (bpow radix2 32)) by (apply generic_format_FLT_bpow; [reflexivity|lia]).
    rewrite Rabs_pos_eq.
    + apply Rle_lt_trans with (bpow radix2 32); [|apply bpow_lt; lia]. rewrite <- (round_generic radix2 fexp ZnearestE (bpow radix2 32) G) at 1. apply rnd_le. exact (proj2 Y).
    + rewrite <- (rnd_int 0) by lia. apply rnd_le. exact (proj1 Y).
Qed.
Definition pct (a b : Z) : Z := Btrunc (percent a b).
Lemma pct_mono a b c d : 0 <= a <= 2 ^ 24 -> 0 < b <= 2 ^ 24 -> 0 <= c <= 2 ^ 24 -> 0 < d <= 2 ^ 24 -> a * d <= c * b -> pct a b <= pct c d.
Proof.
  intros Ha Hb Hc Hd H. apply le_IZR. unfold pct. rewrite !Btrunc_correct by reflexivity. destruct (percent_R a b Ha Hb) as [-> _]. destruct (percent_R c d Hc Hd) as [-> _].
  apply round_le; [apply FIX_exp_valid|apply valid_rnd_ZR|]. apply rnd_le. apply Rmult_le_compat_r; [lra|]. apply rnd_le.
  assert (Pb : (0 < IZR b)%R) by (apply IZR_lt; lia). assert (Pd : (0 < IZR d)%R) by (apply IZR_lt; lia).
  apply Rmult_le_reg_r with (IZR b * IZR d)%R; [apply Rmult_lt_0_compat; assumption|].
  replace (IZR a / IZR b * (IZR b * IZR d))%R with (IZR a * IZR d)%R by (field; lra). replace (IZR c / IZR d * (IZR b * IZR d))%R with (IZR c * IZR b)%R by (field; lra).
  rewrite <- !mult_IZR. apply IZR_le. exact H.
Qed.
Lemma ratio_pct ok size : 0 <= ok <= size -> 0 < size <= 2 ^ 24 -> ratio ok size = Some (100 - pct ok size) /\ 0 <= pct ok size <= 100.
Proof.
  intros H1 H2. assert (P : 0 <= pct ok size <= 100).
  { split; [apply (Z.le_trans 0 (pct 0 1) (pct ok size)); [vm_compute; discriminate|apply pct_mono; lia]|apply (Z.le_trans (pct ok size) (pct 1 1) 100); [apply pct_mono; lia|vm_compute; discriminate]]. }
  split; [|exact P]. unfold ratio. rewrite (proj2 (percent_R ok size ltac:(lia) H2)). fold (pct ok size). rewrite Z.mod_small by lia. reflexivity.
Qed.

(** *** the question is asked exactly when less than four fifths of the packages are current *)
Theorem C78_asks : forall ok size, 0 <= ok <= size -> 0 < size <= 2 ^ 22 -> exists r, ratio ok size = Some r /\ 0 <= r <= 100 /\ (r > 20 <-> 5 * ok < 4 * size).
Proof.
  intros ok size H1 H2. destruct (ratio_pct ok size H1 ltac:(lia)) as [E P]. exists (100 - pct ok size). split; [exact E|]. split; [lia|]. split; intro H.
  - destruct (Z.lt_ge_cases (5 * ok) (4 * size)) as [L|G]; [exact L|]. exfalso. assert (X : pct 4 5 <= pct ok size) by (apply pct_mono; lia). change (pct 4 5) with 80 in X. lia.
  - assert (X : pct ok size <= pct 13421772 (2 ^ 24)) by (apply pct_mono; try lia; nia). change (pct 13421772 (2 ^ 24)) with 79 in X. lia.
Qed.

Definition upto100 : list Z := map Z.of_nat (seq 0 101).
Lemma upto_In k : 0 <= k <= 100 -> In k upto100.
Proof. intro H. unfold upto100. rewrite <- (Z2Nat.id k) by lia. apply in_map. apply in_seq. lia. Qed.
(** *** the percentage printed: that of the packages that are not current, rounded up, except that it is one more for 53 and 59 of 100 *)
Theorem C78_percentage : forall ok size, 0 <= ok <= size -> 0 < size <= 2 ^ 16 ->
  ratio ok size = Some (100 - 100 * ok / size + if (100 * ok =? 53 * size) || (100 * ok =? 59 * size) then 1 else 0).
Proof.
  intros ok size H1 H2. destruct (ratio_pct ok size H1 ltac:(lia)) as [E P]. rewrite E. f_equal. set (k := 100 * ok / size).
  assert (K : k * size <= 100 * ok < (k + 1) * size).
  { unfold k. pose proof (Z.div_mod (100 * ok) size ltac:(lia)). pose proof (Z.mod_pos_bound (100 * ok) size ltac:(lia)). nia. }
  assert (K0 : 0 <= k <= 100) by nia.
  assert (U : pct ok size <= k).
  { assert (T : forallb (fun k => pct (65536 * (k + 1) - 1) 6553600 <=? k) upto100 = true) by (vm_compute; reflexivity).
    rewrite forallb_forall in T. specialize (T k (upto_In k K0)). apply Z.leb_le in T. etransitivity; [|exact T]. apply pct_mono; try lia. }
  destruct (Z.eq_dec (100 * ok) (k * size)) as [Q|Q].
  - assert (V : pct ok size = pct k 100) by (apply Z.le_antisymm; apply pct_mono; lia).
    assert (T : forallb (fun k => pct k 100 =? k - if (k =? 53) || (k =? 59) then 1 else 0) upto100 = true) by (vm_compute; reflexivity).
    rewrite forallb_forall in T. specialize (T k (upto_In k K0)). apply Z.eqb_eq in T. rewrite V, T. rewrite Q.
    assert (Eb : forall c, (k * size =? c * size) = (k =? c)). { intro c. destruct (Z.eqb_spec k c) as [-> |N]; [apply Z.eqb_refl|]. apply Z.eqb_neq. nia. }
    rewrite !Eb. destruct ((k =? 53) || (k =? 59)); lia.
  - assert (T : forallb (fun k => k <=? pct (65536 * k + 1) 6553600) upto100 = true) by (vm_compute; reflexivity).
    rewrite forallb_forall in T. specialize (T k (upto_In k K0)). apply Z.leb_le in T.
    assert (V : pct (65536 * k + 1) 6553600 <= pct ok size) by (apply pct_mono; try lia; nia).
    assert (N : forall c, (100 * ok =? c * size) = false). { intro c. apply Z.eqb_neq. intro X. apply Q. assert (k = c) by nia. subst c. exact X. }
    rewrite !N. cbn [orb]. lia.
Qed.
(** 41 packages of 100 are not current; 42 % is printed *)
Theorem C78_one_more_refuted : ratio 59 100 = Some 42 /\ 100 - 100 * 59 / 100 = 41.
Proof. split; vm_compute; reflexivity. Qed.
(** with nothing installed the value is undefined *)
Theorem C78_empty_refuted : ratio 0 0 = None.
Proof. vm_compute. reflexivity. Qed.
Example C78_case : ratio 79 99 = Some 21 /\ ratio 80 100 = Some 20 /\ ratio 799999 1000000 = Some 21 /\ ratio 12 65 = Some 82.
Proof. repeat split; vm_compute; reflexivity. Qed.
