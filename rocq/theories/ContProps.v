(** C40: the growable array. C41: the string class. *)
From Verif Require Import Base BaseProofs FsProofs ContModel.
From Coq Require Import ZArith NArith Lia.

(** ** C40 *)
Fixpoint pushed (ops : list vop) : list str := match ops with [] => [] | Push s :: t => s :: pushed t | Reserve _ :: t => pushed t end.
Lemma pushed_app a b : pushed (a ++ b) = pushed a ++ pushed b.
Proof. induction a as [|[s|n] t IH]; cbn; [reflexivity|rewrite IH; reflexivity|exact IH]. Qed.
Record vok (v : vec) (l : list str) : Prop := Vok { ok_size : v_size v = N.of_nat (length l); ok_cap : length (v_cells v) = N.to_nat (v_cap v); ok_le : (v_size v <= v_cap v)%N; ok_cells : exists r, v_cells v = map Some l ++ r }.
Lemma write_at {A} (a : list A) y b x : write (length a) x (a ++ y :: b) = Some (a ++ x :: b).
Proof. induction a as [|z t IH]; [reflexivity|]. cbn. rewrite IH. reflexivity. Qed.
Lemma vok_reserve v l n : vok v l -> vok (vec_reserve n v) l /\ (n <= v_cap (vec_reserve n v))%N /\ (v_cap v <= v_cap (vec_reserve n v))%N.
Proof.
  intros [A B C [r D]]. unfold vec_reserve. destruct (n <=? v_cap v)%N eqn:E.
  - apply N.leb_le in E. split; [constructor; eauto|]. split; lia.
  - apply N.leb_gt in E. cbn [v_cap]. split; [|split; lia]. constructor; cbn [v_size v_cells v_cap].
    + exact A.
    + rewrite app_length, repeat_length. lia.
    + lia.
    + rewrite D, <- app_assoc. eexists. reflexivity.
Qed.
Lemma vok_push v l s : vok v l -> (v_size v < 2 ^ 31)%N -> (0 < v_cap v)%N -> exists v', vec_push s v = Some v' /\ vok v' (l ++ [s]) /\ (0 < v_cap v')%N.
Proof.
  intros V L P. unfold vec_push. set (v1 := if (v_cap v =? v_size v)%N then vec_reserve (w32 (v_size v * 2)) v else v).
  assert (H : vok v1 l /\ (v_size v < v_cap v1)%N).
  { subst v1. destruct (v_cap v =? v_size v)%N eqn:E.
    - apply N.eqb_eq in E. destruct (vok_reserve v l (w32 (v_size v * 2)) V) as [V1 [G _]]. split; [exact V1|]. unfold w32 in G at 1. rewrite N.mod_small in G by lia. lia.
    - apply N.eqb_neq in E. split; [exact V|]. pose proof (ok_le _ _ V). lia. }
  destruct H as [[A B C [r D]] G]. clearbody v1. pose proof (ok_size _ _ V) as A0. assert (SZ : v_size v1 = v_size v) by congruence.
  assert (R : r <> []). { intros ->. rewrite app_nil_r in D. rewrite D, map_length in B. lia. }
  destruct r as [|y r]; [contradiction|].
  assert (W : write (N.to_nat (v_size v1)) (Some s) (v_cells v1) = Some (map Some l ++ Some s :: r)).
  { rewrite D, A, Nat2N.id. replace (length l) with (length (map (@Some str) l)) by apply map_length. apply write_at. }
  rewrite W. cbn [option_map]. eexists. split; [reflexivity|].
  assert (W1 : w32 (v_size v1 + 1) = (v_size v1 + 1)%N) by (unfold w32; apply N.mod_small; lia).
  split.
  - constructor; cbn [v_size v_cells v_cap].
    + rewrite W1, app_length. cbn [List.length]. lia.
    + rewrite D in B. rewrite <- B, !app_length. reflexivity.
    + rewrite W1. lia.
    + exists r. rewrite map_app, <- app_assoc. reflexivity.
  - cbn [v_cap]. lia.
Qed.
Lemma vec_run_ok cap ops : (0 < cap)%N -> (N.of_nat (length (pushed ops)) <= 2 ^ 31)%N -> exists v, vec_run cap ops = Some v /\ vok v (pushed ops) /\ (0 < v_cap v)%N.
Proof.
  intro P. induction ops as [|o t IH] using rev_ind; intro L.
  - exists (vec_new cap). split; [reflexivity|]. split; [|exact P]. constructor; cbn; [reflexivity|apply repeat_length|lia|eexists; reflexivity].
  - rewrite pushed_app, app_length in L. destruct IH as [v [R [V G]]]; [lia|]. unfold vec_run in *. rewrite fold_left_app, R. cbn [fold_left vec_step]. rewrite pushed_app. destruct o as [s|n]; cbn [pushed].
    + apply vok_push; [exact V| |exact G]. rewrite (ok_size _ _ V). cbn in L. lia.
    + exists (vec_reserve n v). rewrite app_nil_r. destruct (vok_reserve v (pushed t) n V) as [A [B C]]. split; [reflexivity|]. split; [exact A|lia].
Qed.
Lemma vok_at v l i : vok v l -> i < length l -> vec_at (N.of_nat i) v = nth_error l i.
Proof.
  intros [A B C [r D]] H. unfold vec_at. rewrite Nat2N.id, D, nth_error_app1 by (rewrite map_length; exact H). rewrite nth_error_map. destruct (nth_error l i) eqn:E; [reflexivity|]. apply nth_error_None in E. lia.
Qed.
(** up to 2^31 elements, starting from a capacity that is not 0: the array is the sequence of the values pushed *)
Theorem C40_sequence_partial : forall cap ops, (0 < cap)%N -> (N.of_nat (length (pushed ops)) <= 2 ^ 31)%N ->
  exists v, vec_run cap ops = Some v /\ v_size v = N.of_nat (length (pushed ops)) /\
    (forall i, i < length (pushed ops) -> vec_at (N.of_nat i) v = nth_error (pushed ops) i /\ vec_value (N.of_nat i) v = nth_error (pushed ops) i) /\
    (forall i x, length (pushed ops) <= i -> last (map Some (pushed ops)) None = Some x -> vec_value (N.of_nat i) v = Some x).
Proof.
  intros cap ops P L. destruct (vec_run_ok cap ops P L) as [v [R [V _]]]. exists v. split; [exact R|]. split; [exact (ok_size _ _ V)|].
  assert (Z : forall n, length (pushed ops) = S n -> w32 (v_size v + (2 ^ 32 - 1)) = N.of_nat n).
  { intros n E. rewrite (ok_size _ _ V), E in *. unfold w32. replace (N.of_nat (S n) + (2 ^ 32 - 1))%N with (N.of_nat n + 1 * 2 ^ 32)%N by lia. rewrite N.mod_add by lia. apply N.mod_small. lia. }
  split.
  - intros i H. split; [exact (vok_at v _ i V H)|]. unfold vec_value. destruct (pushed ops) as [|a t] eqn:E; [cbn in H; lia|]. rewrite (Z (length t) eq_refl). cbn [List.length] in H. destruct (N.of_nat (length t) <? N.of_nat i)%N eqn:B; [apply N.ltb_lt in B; lia|]. apply vok_at; [exact V|cbn; lia].
  - intros i x H X. unfold vec_value. destruct (exists_last (l := pushed ops)) as [t [y E]]; [intros E; rewrite E in X; discriminate|]. rewrite E, app_length in *. cbn [List.length] in *. rewrite (Z (length t) ltac:(lia)).
    destruct (N.of_nat (length t) <? N.of_nat i)%N eqn:B; [|apply N.ltb_ge in B; lia]. rewrite (vok_at v _ (length t) V) by (rewrite app_length; cbn; lia). rewrite nth_error_app2, Nat.sub_diag by lia. rewrite map_app in X. cbn [map] in X.
    assert (last (map Some t ++ [Some y]) None = Some y) as K by (clear; induction (map Some t) as [|a l IH]; [reflexivity|]; cbn; destruct (l ++ [Some y]) eqn:Q; [destruct l; discriminate|exact IH]). rewrite K in X. injection X as ->. reflexivity.
Qed.
(** a vector made with capacity 0: doubling 0 stays 0 and the first push writes outside *)
Theorem C40_zero_refuted : forall s, vec_run 0 [Push s] = None.
Proof. reflexivity. Qed.
(** the doubled size does not fit in 32 bits: with 2^31 elements or more in a full vector the next push writes outside *)
Theorem C40_wrap_refuted : forall s v l, vok v l -> v_size v = v_cap v -> (2 ^ 31 <= v_size v < 2 ^ 32)%N -> vec_push s v = None.
Proof.
  intros s v l V E H. unfold vec_push. rewrite <- E, N.eqb_refl.
  assert (R : vec_reserve (w32 (v_size v * 2)) v = v).
  { unfold vec_reserve. rewrite (proj2 (N.leb_le _ _)); [reflexivity|]. rewrite <- E. unfold w32. replace (v_size v * 2)%N with ((v_size v * 2 - 2 ^ 32) + 1 * 2 ^ 32)%N by lia. rewrite N.mod_add by lia. rewrite N.mod_small by lia. lia. }
  rewrite R. assert (W : write (N.to_nat (v_size v)) (Some s) (v_cells v) = None); [|rewrite W; reflexivity].
  assert (Len : length (v_cells v) <= N.to_nat (v_size v)) by (rewrite (ok_cap _ _ V); lia). revert Len. generalize (N.to_nat (v_size v)). clear. induction (v_cells v) as [|x t IH]; intros n L; [destruct n; reflexivity|]. destruct n as [|n]; [cbn in L; lia|]. cbn. rewrite IH by (cbn in L; lia). reflexivity.
Qed.
(** value() of an empty vector *)
Theorem C40_empty_refuted : forall cap i, (i < 2 ^ 32)%N -> vec_value i (vec_new cap) = None.
Proof.
  intros cap i H. unfold vec_value. cbn [vec_new v_size v_cells]. replace (w32 (0 + (2 ^ 32 - 1)))%N with (2 ^ 32 - 1)%N by reflexivity. destruct (2 ^ 32 - 1 <? i)%N eqn:B; [apply N.ltb_lt in B; lia|].
  unfold vec_at. cbn [vec_new v_cells]. destruct (nth_error (repeat (@None str) (N.to_nat cap)) (N.to_nat i)) as [[s|]|] eqn:E; [|reflexivity|reflexivity]. apply nth_error_In, repeat_spec in E. discriminate.
Qed.
Example C40_example : exists v, vec_run 2 [Push (L "a"); Push (L "b"); Push (L "c"); Reserve 3; Push (L "d")] = Some v /\ v_size v = 4%N /\ map (fun i => vec_value i v) [0; 1; 2; 3; 9]%N = map Some [L "a"; L "b"; L "c"; L "d"; L "d"].
Proof. eexists. split; [vm_compute; reflexivity|]. split; reflexivity. Qed.

(** ** C41 *)
Lemma cells_reserve n z : (0 < n)%N -> length (cells (cs_reserve n z)) = N.to_nat (8 * n).
Proof. intro P. unfold cs_reserve. rewrite (proj2 (N.leb_gt _ _) P). unfold cells at 1. cbn [z_mem]. rewrite app_length, firstn_length, repeat_length. lia. Qed.
Lemma assign_n_spec s n z : (0 < n)%N -> (n <= N.of_nat (length s))%N -> exists z' r, cs_assign_n s n z = Some z' /\ z_mem z' = Some (map Some (firstn (N.to_nat n) s) ++ Some zero :: r) /\ z_size z' = n.
Proof.
  intros P Le. unfold cs_assign_n. rewrite (proj2 (N.ltb_lt _ _) P). pose proof (cells_reserve n z P) as C. unfold put_chars. rewrite (proj2 (Nat.leb_le _ _)) by (rewrite C, firstn_length; lia).
  assert (Lf : length (firstn (N.to_nat n) s) = N.to_nat n) by (rewrite firstn_length; lia). rewrite Lf. set (m := cells (cs_reserve n z)) in *.
  destruct (skipn (N.to_nat n) m) as [|y r] eqn:E; [apply (f_equal (@List.length _)) in E; rewrite skipn_length in E; cbn in E; lia|].
  assert (W : write (N.to_nat n) (Some zero) (map Some (firstn (N.to_nat n) s) ++ y :: r) = Some (map Some (firstn (N.to_nat n) s) ++ Some zero :: r)).
  { replace (N.to_nat n) with (length (map (@Some ascii) (firstn (N.to_nat n) s))) at 1 by (rewrite map_length; exact Lf). apply write_at. }
  rewrite W. cbn [option_map]. eexists; exists r. split; [reflexivity|]. split; reflexivity.
Qed.
Lemma read_text_ok s r : ~ In zero s -> read_text (map Some s ++ Some zero :: r) = Some s.
Proof.
  induction s as [|c t IH]; intro N; cbn [map List.app read_text]; [rewrite ceqb_refl; reflexivity|]. assert (E : ceqb c zero = false) by (apply ceqb_neq; intros ->; apply N; left; reflexivity). rewrite E, IH; [reflexivity|]. intro I. apply N. right. exact I.
Qed.
(** no sequence of operations accesses anything outside the storage *)
Theorem C41_safe : forall ops, (forall s n, In (AssignN s n) ops -> (n <= N.of_nat (length s))%N) -> exists z, cs_run ops = Some z.
Proof.
  intro ops. induction ops as [|o t IH] using rev_ind; intro H; [exists cs_new; reflexivity|]. destruct IH as [z R]; [intros s n I; apply H, in_app_iff; left; exact I|]. unfold cs_run in *. rewrite fold_left_app, R. cbn [fold_left cs_step].
  assert (A : forall s n, (n <= N.of_nat (length s))%N -> exists z', cs_assign_n s n z = Some z').
  { intros s n Le. destruct (N.eq_dec n 0) as [->|N0]; [exists (cs_reserve 0 z); reflexivity|]. destruct (assign_n_spec s n z ltac:(lia) Le) as [z' [r [E _]]]. eauto. }
  destruct o as [s|s n|n|]; [| |eauto|eauto].
  - unfold cs_assign. destruct (cstr s) as [|c u]; [eauto|]. apply A. unfold w32. apply N.mod_le. lia.
  - assert (Le : (n <= N.of_nat (length s))%N) by (apply H, in_app_iff; right; left; reflexivity). rewrite (proj2 (N.leb_le _ _) Le). apply A, Le.
Qed.
Lemma cstr_id s : ~ In zero s -> cstr s = s.
Proof. apply cstr_nozero. Qed.
(** after any operations, assigning a text that is not empty makes the string hold it *)
Theorem C41_assign_partial : forall ops s z, cs_run ops = Some z -> s <> [] -> ~ In zero s -> (N.of_nat (length s) < 2 ^ 32)%N ->
  exists z', cs_run (ops ++ [Assign s]) = Some z' /\ cs_text z' = Some s /\ z_size z' = N.of_nat (length s).
Proof.
  intros ops s z R Ne Nz Ls. unfold cs_run in *. rewrite fold_left_app, R. cbn [fold_left cs_step]. unfold cs_assign. rewrite (cstr_id s Nz). destruct s as [|c t]; [contradiction|]. set (s := c :: t) in *. unfold w32. rewrite N.mod_small by exact Ls.
  destruct (assign_n_spec s (N.of_nat (length s)) z) as [z' [r [E [M Z]]]]; [cbn; lia|lia|]. exists z'. split; [exact E|]. split; [|exact Z]. unfold cs_text, cs_data. rewrite M. unfold cells. rewrite M, Nat2N.id, firstn_all. apply read_text_ok, Nz.
Qed.
(** a reservation of at least an eighth of the text (and one more character) keeps it *)
Theorem C41_reserve_partial : forall ops s z n, cs_run ops = Some z -> s <> [] -> ~ In zero s -> (N.of_nat (length s) < 2 ^ 32)%N -> (N.of_nat (length s) < 8 * n)%N ->
  exists z', cs_run (ops ++ [Assign s; ReserveZ n]) = Some z' /\ cs_text z' = Some s /\ z_size z' = N.of_nat (length s).
Proof.
  intros ops s z n R Ne Nz Ls Ln. unfold cs_run in *. rewrite fold_left_app, R. cbn [fold_left cs_step]. unfold cs_assign. rewrite (cstr_id s Nz). destruct s as [|c t]; [contradiction|]. set (s := c :: t) in *. unfold w32. rewrite N.mod_small by exact Ls.
  destruct (assign_n_spec s (N.of_nat (length s)) z) as [z' [r [E [M Z]]]]; [cbn; lia|lia|]. rewrite E. exists (cs_reserve n z'). split; [reflexivity|]. unfold cs_reserve. assert (Pn : (0 < n)%N) by lia. rewrite (proj2 (N.leb_gt _ _) Pn). cbv zeta. split; [|exact Z].
  unfold cs_text, cs_data. cbn [z_mem]. unfold cells at 1. cbn [z_mem]. unfold cells. rewrite M, Nat2N.id, firstn_all. rewrite firstn_app, map_length. rewrite (firstn_all2 (n := N.to_nat (8 * n)) (map Some s)) by (rewrite map_length; lia).
  destruct (N.to_nat (8 * n) - length s) as [|k] eqn:K; [lia|]. cbn [firstn]. rewrite <- app_assoc. cbn [List.app]. apply read_text_ok, Nz.
Qed.
(** assigning the empty text keeps the old one *)
Theorem C41_empty_refuted : forall ops s z, cs_run ops = Some z -> s <> [] -> ~ In zero s -> (N.of_nat (length s) < 2 ^ 32)%N ->
  exists z', cs_run (ops ++ [Assign s; Assign []]) = Some z' /\ cs_text z' = Some s.
Proof.
  intros ops s z R Ne Nz Ls. destruct (C41_assign_partial ops s z R Ne Nz Ls) as [z1 [R1 [T1 Z1]]]. unfold cs_run in *. rewrite fold_left_app in *. cbn [fold_left] in *. rewrite R1. cbn [cs_step cs_assign cstr]. eexists. split; [reflexivity|].
  unfold cs_text, cs_data, cs_reserve in *. cbn [N.leb N.compare z_mem]. unfold cells in *. destruct (z_mem z1) as [m|] eqn:M; cbn [z_mem]; [rewrite M in T1; exact T1|]. cbn in T1. discriminate.
Qed.
(** reserving a small capacity cuts the text: reading it runs outside the storage *)
Theorem C41_shrink_refuted : forall ops s z, cs_run ops = Some z -> 8 <= length s -> ~ In zero s -> (N.of_nat (length s) < 2 ^ 32)%N ->
  exists z', cs_run (ops ++ [Assign s; ReserveZ 1]) = Some z' /\ cs_text z' = None /\ z_size z' = N.of_nat (length s).
Proof.
  intros ops s z R L8 Nz Ls. unfold cs_run in *. rewrite fold_left_app, R. cbn [fold_left cs_step]. unfold cs_assign. rewrite (cstr_id s Nz). destruct s as [|c t] eqn:Es; [cbn in L8; lia|]. rewrite <- Es in *. unfold w32. rewrite N.mod_small by exact Ls.
  destruct (assign_n_spec s (N.of_nat (length s)) z) as [z' [r [E [M Z]]]]; [rewrite Es; cbn; lia|lia|]. rewrite E. exists (cs_reserve 1 z'). split; [reflexivity|]. split; [|exact Z].
  unfold cs_text, cs_data, cs_reserve. cbn [N.leb N.compare Pos.compare z_mem]. unfold cells at 1. cbn [z_mem]. unfold cells. rewrite M, Nat2N.id, firstn_all. change (N.to_nat (8 * 1)) with 8. rewrite firstn_app, map_length, app_length, map_length.
  replace (8 - length s) with 0 by lia. replace (8 - (length s + length (Some zero :: r))) with 0 by (cbn [List.length]; lia). rewrite firstn_O. change (repeat (@None ascii) 0) with (@nil (option ascii)). rewrite !app_nil_r.
  assert (K : forall k u, length u >= k -> ~ In zero u -> read_text (firstn k (map Some u)) = None).
  { clear. induction k as [|k IH]; intros u Lu N; [reflexivity|]. destruct u as [|x u]; [cbn in Lu; lia|]. cbn [map firstn read_text]. assert (Ex : ceqb x zero = false) by (apply ceqb_neq; intros ->; apply N; left; reflexivity). rewrite Ex, IH; [reflexivity|cbn in Lu; lia|]. intro I. apply N. right. exact I. }
  apply K; [lia|exact Nz].
Qed.
(** the text of a new string is never initialised *)
Theorem C41_new_refuted : cs_text cs_new = None.
Proof. reflexivity. Qed.
Example C41_example : exists z, cs_run [Data; Assign (L "hello"); ReserveZ 3; AssignN (L "abcdef") 4] = Some z /\ cs_text z = Some (L "abcd") /\ z_size z = 4%N.
Proof. eexists. split; [vm_compute; reflexivity|]. split; reflexivity. Qed.
