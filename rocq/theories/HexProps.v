(** C29: hexadecimal encoding. *)
From Verif Require Import Base BaseProofs StrModel FsModel MetaModel HexModel.

(** a hexadecimal digit and its value *)
Inductive hexval : ascii -> N -> Prop :=
| hv_num c : (48 <= N_of_ascii c <= 57)%N -> hexval c (N_of_ascii c - 48)
| hv_low c : (97 <= N_of_ascii c <= 102)%N -> hexval c (N_of_ascii c - 87)
| hv_up c : (65 <= N_of_ascii c <= 70)%N -> hexval c (N_of_ascii c - 55).
Definition hexdigit (c : ascii) : Prop := exists v, hexval c v.

Lemma all_ascii (Q : ascii -> bool) : forallb (fun n => Q (ascii_of_nat n)) (seq 0 256) = true -> forall c, Q c = true.
Proof.
  intros H c. rewrite forallb_forall in H. rewrite <- (ascii_nat_embedding c). apply H, in_seq. pose proof (nat_ascii_bounded c). lia.
Qed.
Definition dbyteb (c : ascii) : bool := match stoi16 (hex_byte c) with Ok v => ceqb (uchar v) c | _ => false end.
Lemma dbyte c : exists v, stoi16 (hex_byte c) = Ok v /\ uchar v = c.
Proof.
  pose proof (all_ascii dbyteb ltac:(vm_compute; reflexivity) c) as H. unfold dbyteb in H. destruct (stoi16 (hex_byte c)) as [v| |]; try discriminate. exists v. split; [reflexivity|]. apply ceqb_eq, H.
Qed.
(** decoding an encoded byte string gives it back *)
Theorem C29_round_trip (b : str) : decode (hex b) = Ok b.
Proof.
  induction b as [|c b IH]; [reflexivity|]. destruct (dbyte c) as [v [E U]]. unfold hex in *. cbn [flat_map]. unfold hex_byte in *. cbn [app decode]. rewrite E. cbn [rbind]. rewrite IH. cbn [rbind]. rewrite U. reflexivity.
Qed.
Lemma hexval_digval c v : hexval c v -> digval c = v /\ (v < 16)%N.
Proof.
  intros [d H|d H|d H]; unfold digval.
  - rewrite (proj2 (N.leb_le 48 _)), (proj2 (N.leb_le _ 57)) by lia. cbn [andb]. split; [reflexivity|lia].
  - rewrite (proj2 (N.leb_gt _ 57)) by lia. rewrite andb_false_r. rewrite (proj2 (N.leb_le 97 _)), (proj2 (N.leb_le _ 122)) by lia. cbn [andb]. split; [reflexivity|lia].
  - rewrite (proj2 (N.leb_gt _ 57)) by lia. rewrite andb_false_r. rewrite (proj2 (N.leb_gt 97 _)) by lia. cbn [andb]. rewrite (proj2 (N.leb_le 65 _)), (proj2 (N.leb_le _ 90)) by lia. cbn [andb]. split; [reflexivity|lia].
Qed.
Lemma hexval_range c v : hexval c v -> ((48 <= N_of_ascii c <= 57) \/ (97 <= N_of_ascii c <= 102) \/ (65 <= N_of_ascii c <= 70))%N.
Proof. intros [d H|d H|d H]; tauto. Qed.
Lemma hexval_plain c v : hexval c v -> is_space c = false /\ ceqb c "-" = false /\ ceqb c "+" = false /\ ceqb c "x" = false /\ ceqb c "X" = false /\ ceqb c zero = false.
Proof.
  intro H. apply hexval_range in H. split.
  { unfold is_space. apply orb_false_iff. split; [apply andb_false_iff; right; apply N.leb_gt; lia | apply N.eqb_neq; lia]. }
  split; [|split; [|split; [|split]]]; apply ceqb_neq; intros ->; cbn in H; lia.
Qed.
Lemma stoi16_two a b x y : hexval a x -> hexval b y -> stoi16 [a; b] = Ok (Z.of_N (16 * x + y)).
Proof.
  intros Ha Hb. destruct (hexval_plain a x Ha) as [A1 [A2 [A3 [A4 [A5 A6]]]]]. destruct (hexval_plain b y Hb) as [B1 [B2 [B3 [B4 [B5 B6]]]]].
  destruct (hexval_digval a x Ha) as [DA LA]. destruct (hexval_digval b y Hb) as [DB LB].
  unfold stoi16. assert (C : cstr [a; b] = [a; b]) by (apply cstr_nozero; intros [H|[H|[]]]; [rewrite H, ceqb_refl in A6|rewrite H, ceqb_refl in B6]; discriminate).
  rewrite C. cbn [drop_space]. rewrite A1. cbn [sign]. rewrite A2, A3. unfold prefix16. rewrite B4, B5. cbn [orb]. rewrite andb_false_r. cbn [andb has_digit num].
  rewrite DA, DB, (proj2 (N.ltb_lt x 16) LA), (proj2 (N.ltb_lt y 16) LB). cbn [negb]. replace ((0 * 16 + x) * 16 + y)%N with (16 * x + y)%N by lia.
  rewrite (proj2 (Z.ltb_ge _ _)) by lia. rewrite (proj2 (Z.leb_gt _ _)) by (change (2 ^ 31)%Z with 2147483648%Z; lia). reflexivity.
Qed.
(** Text made of pairs of hexadecimal digits, upper or lower case: byte i is 16 times the first digit of pair i plus the second. *)
Theorem C29_decode (s : str) : Forall hexdigit s -> Nat.even (length s) = true ->
  exists b, decode s = Ok b /\ length s = 2 * length b /\
    forall i c x y, nth_error b i = Some c -> hexval (nth (2 * i) s zero) x -> hexval (nth (2 * i + 1) s zero) y -> N_of_ascii c = (16 * x + y)%N.
Proof.
  intros F E. assert (W : exists n, length s <= n) by (exists (length s); lia). destruct W as [n Hn]. revert s F E Hn.
  induction n as [|n IH]; intros s F E Hn; destruct s as [|a [|b t]]; try (cbn in Hn; lia); try discriminate E.
  - exists []. split; [reflexivity|]. split; [reflexivity|]. intros [|i] c x y H; discriminate.
  - exists []. split; [reflexivity|]. split; [reflexivity|]. intros [|i] c x y H; discriminate.
  - inversion F as [|? ? [x Ha] F1]; subst. inversion F1 as [|? ? [y Hb] F2]; subst. destruct (IH t F2 E) as [r [Er [Lr Vr]]]; [cbn in Hn; lia|].
    exists (uchar (Z.of_N (16 * x + y)) :: r). cbn [decode]. rewrite (stoi16_two a b x y Ha Hb). cbn [rbind]. rewrite Er. cbn [rbind]. split; [reflexivity|]. split; [cbn [List.length]; lia|].
    intros [|i] c x' y' H Hx Hy.
    + cbn [nth_error] in H. assert (Ec : c = uchar (Z.of_N (16 * x + y))) by congruence. clear H. subst c. cbn in Hx, Hy. pose proof (hexval_digval a x Ha) as [D1 L1]. pose proof (hexval_digval a x' Hx) as [D2 _]. pose proof (hexval_digval b y Hb) as [D3 L3]. pose proof (hexval_digval b y' Hy) as [D4 _].
      unfold uchar. rewrite Z.mod_small by lia. rewrite N2Z.id, N_ascii_embedding by lia. lia.
    + cbn [nth_error] in H. replace (2 * S i) with (S (S (2 * i))) in Hx by lia. replace (2 * S i + 1) with (S (S (2 * i + 1))) in Hy by lia. cbn [nth] in Hx, Hy. exact (Vr i c x' y' H Hx Hy).
Qed.
(** a text with a character that cannot start a number at an even place, all places before being digits, is rejected *)
Theorem C29_rejected (u : str) (c d : ascii) (t : str) : Forall hexdigit u -> Nat.even (length u) = true -> ~ hexdigit c ->
  is_space c = false -> c <> "-"%char -> c <> "+"%char -> decode (u ++ c :: d :: t) = Throw.
Proof.
  intros F E Nc S1 M P. assert (W : exists n, length u <= n) by (exists (length u); lia). destruct W as [n Hn]. revert u F E Hn.
  assert (Dc : has_digit 16 [c] = false).
  { cbn [has_digit]. apply N.ltb_ge. destruct (N.lt_ge_cases (digval c) 16) as [Lt|Ge]; [|exact Ge]. exfalso. apply Nc. unfold digval in Lt. revert Lt.
    destruct ((48 <=? N_of_ascii c) && (N_of_ascii c <=? 57))%N eqn:A; [rewrite andb_true_iff, !N.leb_le in A; intros _; exists (N_of_ascii c - 48)%N; constructor; lia|].
    destruct ((97 <=? N_of_ascii c) && (N_of_ascii c <=? 122))%N eqn:B; [rewrite andb_true_iff, !N.leb_le in B; intro Lt; exists (N_of_ascii c - 87)%N; constructor 2; lia|].
    destruct ((65 <=? N_of_ascii c) && (N_of_ascii c <=? 90))%N eqn:C; [rewrite andb_true_iff, !N.leb_le in C; intro Lt; exists (N_of_ascii c - 55)%N; constructor 3; lia|]. intro Lt. lia. }
  assert (C0 : ceqb c "0" = false) by (apply ceqb_neq; intros ->; apply Nc; exists 0%N; apply (hv_num "0"%char); cbn; lia).
  assert (T : stoi16 [c; d] = Throw).
  { unfold stoi16. cbn [cstr]. destruct (ceqb c zero); [reflexivity|]. destruct (ceqb d zero); cbn [drop_space]; rewrite S1; cbn [sign];
      rewrite (proj2 (ceqb_neq c "-") M), (proj2 (ceqb_neq c "+") P); cbn [prefix16]; rewrite ?C0; cbn [andb has_digit] in Dc |- *; rewrite Dc; reflexivity. }
  induction n as [|n IH]; intros u F E Hn; destruct u as [|a [|b r]]; try (cbn in Hn; lia); try discriminate E.
  1,2: cbn [app decode]; rewrite T; reflexivity.
  inversion F as [|? ? [x Ha] F1]; subst. inversion F1 as [|? ? [y Hb] F2]; subst. cbn [app decode]. rewrite (stoi16_two a b x y Ha Hb). cbn [rbind]. rewrite (IH r F2 E) by (cbn in Hn; lia). reflexivity.
Qed.
(** An odd number of digits: the decoder writes behind its buffer. *)
Theorem C29_odd_refuted (s : str) : Forall hexdigit s -> Nat.even (length s) = false -> decode s = UB.
Proof.
  intros F E. assert (W : exists n, length s <= n) by (exists (length s); lia). destruct W as [n Hn]. revert s F E Hn.
  induction n as [|n IH]; intros s F E Hn; destruct s as [|a [|b t]]; try (cbn in Hn; lia); try discriminate E.
  - inversion F as [|? ? [x Ha] F1]; subst. cbn [decode]. destruct (hexval_plain a x Ha) as [A1 [A2 [A3 [A4 [A5 A6]]]]]. destruct (hexval_digval a x Ha) as [DA LA].
    unfold stoi16. cbn [cstr]. rewrite A6. cbn [drop_space]. rewrite A1. cbn [sign]. rewrite A2, A3. cbn [prefix16 has_digit num]. rewrite DA, (proj2 (N.ltb_lt x 16) LA). cbn [negb].
    rewrite (proj2 (Z.ltb_ge _ _)) by lia. rewrite (proj2 (Z.leb_gt _ _)) by (change (2 ^ 31)%Z with 2147483648%Z; lia). reflexivity.
  - inversion F as [|? ? [x Ha] F1]; subst. inversion F1 as [|? ? [y Hb] F2]; subst. cbn [decode]. rewrite (stoi16_two a b x y Ha Hb). cbn [rbind]. rewrite (IH t F2 E) by (cbn in Hn; lia). reflexivity.
Qed.
(** Text that is not hexadecimal can be accepted. *)
Theorem C29_lenient_refuted : decode (L "1g") = Ok [ascii_of_N 1] /\ decode (L "-1") = Ok [ascii_of_N 255] /\ decode (L " f+a") = Ok [ascii_of_N 15; ascii_of_N 10].
Proof. vm_compute. auto. Qed.
Example C29_witness : decode (L "00fFa7") = Ok [ascii_of_N 0; ascii_of_N 255; ascii_of_N 167] /\ decode (L "zz") = Throw /\ hex (L "A~") = L "417e" /\ Forall hexdigit (L "0Fa").
Proof.
  split; [vm_compute; reflexivity|]. split; [vm_compute; reflexivity|]. split; [vm_compute; reflexivity|].
  constructor; [exists 0%N; apply (hv_num "0"%char); cbn; lia|]. constructor; [exists 15%N; apply (hv_up "F"%char); cbn; lia|]. constructor; [exists 10%N; apply (hv_low "a"%char); cbn; lia|constructor].
Qed.
