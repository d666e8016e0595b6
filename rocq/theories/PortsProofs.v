(** Build levels: the rounds of generate_level. *)
From Verif Require Import Base BaseProofs StrModel StrProofs Graph PortsModel.
From Coq Require Import ZArith Lia.

Lemma bump_fst i e : fst (bump i e) = fst e.
Proof. destruct e as [n q]. cbn. destruct (seqb n i); [reflexivity|]. destruct (0 <? q_count q)%Z; reflexivity. Qed.
Lemma mget_map_snd {A B} (g : str -> A -> B) k (m : list (str * A)) :
  mget k (map (fun e => (fst e, g (fst e) (snd e))) m) = option_map (g k) (mget k m).
Proof.
  induction m as [|[n a] t IH]; [reflexivity|]. cbn. destruct (seqb k n) eqn:E; [|exact IH]. apply seqb_eq in E. subst. reflexivity.
Qed.
Definition bump1 (i n : str) (q : port) : port :=
  if seqb n i then q else if (0 <? q_count q)%Z then Port (q_deps q) (q_idx q) (q_count q) (q_level q) (q_dec q + occ i (filter (fun k => negb (seqb k n)) (q_idx q))) else q.
Lemma bump_map i s : map (bump i) s = map (fun e => (fst e, bump1 i (fst e) (snd e))) s.
Proof. apply map_ext. intros [n q]. cbn. unfold bump1. destruct (seqb n i); [reflexivity|]. destruct (0 <? q_count q)%Z; reflexivity. Qed.
Definition settle1 (q : port) : port := if 0 <? q_dec q then Port (q_deps q) (q_idx q) (q_count q - Z.of_nat (q_dec q)) (q_level q) 0 else q.
Lemma settle_map s : map settle s = map (fun e => (fst e, (fun _ => settle1) (fst e) (snd e))) s.
Proof. apply map_ext. intros [n q]. unfold settle, settle1. cbn [fst snd]. destruct (0 <? q_dec q); reflexivity. Qed.

(** the effect of the loop over the ports [ns] on each port *)
Definition dones (s : ports) (ns : list str) : list str := filter (fun i => match mget i s with Some q => (q_count q =? 0)%Z | None => false end) ns.
Definition total (n : str) (q : port) (ds : list str) : nat := fold_right (fun i a => occ i (filter (fun k => negb (seqb k n)) (q_idx q)) + a) 0 ds.
Definition looped (lv : nat) (s : ports) (ns : list str) (n : str) (q : port) : port :=
  if (q_count q =? 0)%Z then if smem n ns then Port (q_deps q) (q_idx q) (-1) lv (q_dec q) else q
  else if (0 <? q_count q)%Z then Port (q_deps q) (q_idx q) (q_count q) (q_level q) (q_dec q + total n q (dones s ns)) else q.
Lemma finish_get lv s i n : mget n (finish lv s i) =
  option_map (fun q => if (match mget i s with Some p => (q_count p =? 0)%Z | None => false end) then
                         if seqb n i then Port (q_deps q) (q_idx q) (-1) lv (q_dec q) else bump1 i n q else q) (mget n s).
Proof.
  unfold finish. destruct (mget i s) as [p|] eqn:E; [|destruct (mget n s); reflexivity]. destruct (q_count p =? 0)%Z eqn:C; [|destruct (mget n s); reflexivity].
  rewrite bump_map, mget_map_snd, mget_mset. destruct (seqb n i) eqn:B.
  - apply seqb_eq in B. subst n. rewrite E. cbn. unfold bump1. rewrite seqb_refl. reflexivity.
  - destruct (mget n s); reflexivity.
Qed.
Lemma loop_get lv s0 ns : NoDup ns -> forall n, mget n (fold_left (finish lv) ns s0) = option_map (looped lv s0 ns n) (mget n s0).
Proof.
  intro N. revert s0. induction ns as [|i t IH] using rev_ind; intros s0 n.
  - cbn. destruct (mget n s0) as [q|]; [|reflexivity]. cbn. unfold looped. cbn. destruct (q_count q =? 0)%Z; [reflexivity|]. destruct (0 <? q_count q)%Z; [|reflexivity]. rewrite Nat.add_0_r. destruct q; reflexivity.
  - apply NoDup_remove in N as [N Ni]. rewrite app_nil_r in N, Ni. rewrite fold_left_app. cbn [fold_left]. rewrite finish_get, !(IH N).
    destruct (mget n s0) as [q|] eqn:Gn; [|reflexivity]. cbn [option_map]. f_equal.
    assert (Ci : (match option_map (looped lv s0 t i) (mget i s0) with Some p => (q_count p =? 0)%Z | None => false end) = (match mget i s0 with Some p => (q_count p =? 0)%Z | None => false end)).
    { destruct (mget i s0) as [p|]; [|reflexivity]. cbn. unfold looped. destruct (q_count p =? 0)%Z eqn:C.
      - rewrite (proj2 (smem_nIn i t) Ni). exact C.
      - destruct (0 <? q_count p)%Z; exact C. }
    rewrite Ci. clear Ci. set (z := match mget i s0 with Some p => (q_count p =? 0)%Z | None => false end).
    assert (D : dones s0 (t ++ [i]) = dones s0 t ++ (if z then [i] else [])).
    { unfold dones. rewrite filter_app. cbn. reflexivity. }
    assert (Tot : forall a b, total n q (a ++ b) = total n q a + total n q b).
    { clear. intros a b. induction a as [|x t IH]; [reflexivity|]. unfold total in *. cbn [List.app fold_right]. rewrite IH. lia. }
    destruct (seqb n i) eqn:B.
    + apply seqb_eq in B. subst n. unfold looped. assert (Hz : z = (q_count q =? 0)%Z) by (unfold z; rewrite Gn; reflexivity). rewrite Hz. destruct (q_count q =? 0)%Z eqn:C.
      * rewrite (proj2 (smem_nIn i t) Ni). rewrite (proj2 (smem_In i (t ++ [i]))) by (apply in_app_iff; right; left; reflexivity). reflexivity.
      * destruct (0 <? q_count q)%Z; [|reflexivity]. rewrite D, Hz, app_nil_r. reflexivity.
    + assert (Bn : smem n (t ++ [i]) = smem n t).
      { apply eq_true_iff_eq. rewrite !smem_In, in_app_iff. apply seqb_neq in B. cbn. split; [intros [H|[H|[]]]; [exact H|subst; contradiction]|auto]. }
      unfold looped. rewrite Bn. unfold bump1. rewrite B. destruct (q_count q =? 0)%Z eqn:C.
      * destruct z; [|reflexivity]. destruct (smem n t); cbn [q_count]; [reflexivity|]. apply Z.eqb_eq in C. rewrite C. reflexivity.
      * destruct (0 <? q_count q)%Z eqn:C2; [|destruct z; rewrite ?C2; reflexivity]. rewrite D, Tot. destruct z; cbn [q_count q_deps q_idx q_level q_dec]; rewrite ?C2; cbn [q_count q_deps q_idx q_level q_dec].
        -- cbn [total fold_right]. f_equal. lia.
        -- cbn [total fold_right]. f_equal. lia.
Qed.
Lemma round_get lv s n : NoDup (keys s) -> mget n (round lv s) = option_map (fun q => settle1 (looped lv s (keys s) n q)) (mget n s).
Proof. intro N. unfold round. rewrite settle_map, (mget_map_snd (fun _ => settle1)), (loop_get lv s (keys s) N n). destruct (mget n s); reflexivity. Qed.
Lemma finish_keys lv s i : In i (keys s) -> ssorted (keys s) -> keys (finish lv s i) = keys s.
Proof.
  intros I S. unfold finish. destruct (mget i s) as [q|]; [|reflexivity]. destruct (q_count q =? 0)%Z; [|reflexivity]. unfold keys at 1. rewrite map_map.
  rewrite (map_ext _ fst) by (intro e; apply bump_fst). fold (keys (mset i (Port (q_deps q) (q_idx q) (-1) lv (q_dec q)) s)). rewrite mset_keys.
  apply ssorted_ext; [apply sins_sorted, S|exact S|]. intro x. rewrite sins_In. split; [intros [->|H]; auto|auto].
Qed.
Lemma round_keys lv s : ssorted (keys s) -> keys (round lv s) = keys s.
Proof.
  intro S. unfold round. unfold keys at 1. rewrite map_map. rewrite (map_ext _ fst) by (intros [n q]; unfold settle; destruct (0 <? q_dec q); reflexivity).
  assert (G : forall ns s', incl ns (keys s) -> keys s' = keys s -> keys (fold_left (finish lv) ns s') = keys s).
  { induction ns as [|i t IH]; intros s' I E; cbn [fold_left]; [exact E|]. apply IH; [intros x X; apply I; right; exact X|]. rewrite finish_keys; [exact E| |rewrite E; exact S]. rewrite E. apply I. left. reflexivity. }
  exact (G (keys s) s (incl_refl _) eq_refl).
Qed.

(** ** counting *)
Definition donep (s : ports) (d : str) : bool := match mget d s with Some q => (q_count q <? 0)%Z | None => false end.
Definition open_deps (s : ports) (q : port) : list str := filter (fun d => negb (donep s d)) (q_idx q).
Lemma filter_all {A} (f : A -> bool) l : (forall x, In x l -> f x = true) -> filter f l = l.
Proof. induction l as [|x t IH]; intro H; [reflexivity|]. cbn. rewrite (H x (or_introl eq_refl)). f_equal. apply IH. intros y Y. apply H. right. exact Y. Qed.
Lemma smem_cons_filter (i : str) (t idx : list str) : smem i t = false ->
  length (filter (fun d => smem d (i :: t)) idx) = occ i idx + length (filter (fun d => smem d t) idx).
Proof.
  intro Ni. unfold occ. induction idx as [|x r IHr]; [reflexivity|]. cbn [filter]. replace (smem x (i :: t)) with (seqb x i || smem x t) by reflexivity. rewrite (seqb_sym i x). destruct (seqb x i) eqn:B.
  - apply seqb_eq in B. subst x. rewrite Ni. cbn [orb List.length]. rewrite IHr. lia.
  - cbn [orb]. destruct (smem x t); cbn [List.length]; rewrite IHr; lia.
Qed.
Lemma total_filter (idx ds : list str) : NoDup ds -> fold_right (fun i a => occ i idx + a) 0 ds = length (filter (fun d => smem d ds) idx).
Proof.
  induction ds as [|i t IH]; intro N; cbn [fold_right].
  - induction idx as [|x r IHr]; [reflexivity|]. cbn. exact IHr.
  - inversion N as [|? ? Ni Nt]; subst. rewrite (IH Nt), smem_cons_filter; [reflexivity|]. apply (proj2 (smem_nIn i t) Ni).
Qed.

Record inv (lv : nat) (s : ports) : Prop := Inv {
  v_sorted : ssorted (keys s);
  v_dec : forall n q, mget n s = Some q -> q_dec q = 0;
  v_idx : forall n q, mget n s = Some q -> forall d, In d (q_idx q) -> d <> n /\ In d (keys s);
  v_open : forall n q, mget n s = Some q -> (0 <= q_count q)%Z -> q_count q = Z.of_nat (length (open_deps s q)) /\ q_level q = 0 /\
             (q_count q = 0%Z -> lv = 0 \/ exists d r, In d (q_idx q) /\ mget d s = Some r /\ (q_count r < 0)%Z /\ S (q_level r) = lv);
  v_done : forall n q, mget n s = Some q -> (q_count q < 0)%Z -> q_count q = (-1)%Z /\ q_level q < lv /\
             (forall d, In d (q_idx q) -> exists r, mget d s = Some r /\ (q_count r < 0)%Z /\ q_level r < q_level q) /\
             (q_level q = 0 \/ exists d r, In d (q_idx q) /\ mget d s = Some r /\ S (q_level r) = q_level q) }.

Lemma inv_round lv s : inv lv s -> inv (S lv) (round lv s) /\ (forall n q, mget n s = Some q -> exists q', mget n (round lv s) = Some q' /\ q_idx q' = q_idx q /\ q_deps q' = q_deps q /\
  ((q_count q < 0)%Z -> q' = q) /\ (q_count q = 0%Z -> (q_count q' < 0)%Z /\ q_level q' = lv) /\ ((0 < q_count q)%Z -> (0 <= q_count q')%Z)).
Proof.
  intros [S0 D X O Dn]. pose proof (ssorted_NoDup _ S0) as N.
  (* what happens to each port *)
  assert (A : forall n q, mget n s = Some q -> exists q', mget n (round lv s) = Some q' /\ q_idx q' = q_idx q /\ q_deps q' = q_deps q /\ q_dec q' = 0 /\
     ((q_count q < 0)%Z -> q' = q) /\
     (q_count q = 0%Z -> q_count q' = (-1)%Z /\ q_level q' = lv) /\
     ((0 < q_count q)%Z -> q_level q' = q_level q /\ q_count q' = (q_count q - Z.of_nat (length (filter (fun d => smem d (dones s (keys s))) (q_idx q))))%Z)).
  { intros n q G. assert (M : smem n (keys s) = true) by (apply smem_In; apply mget_In in G; apply (in_map fst) in G; exact G).
    rewrite (round_get lv s n N), G. cbn [option_map]. eexists. split; [reflexivity|]. unfold looped. rewrite M. pose proof (D n q G) as D0.
    assert (Tt : total n q (dones s (keys s)) = length (filter (fun d => smem d (dones s (keys s))) (q_idx q))).
    { unfold total. rewrite total_filter by (apply NoDup_filter, N). rewrite (filter_all (fun k => negb (seqb k n))); [reflexivity|]. intros k K. apply negb_true_iff, seqb_neq. exact (proj1 (X n q G k K)). }
    rewrite D0, Tt. destruct (q_count q =? 0)%Z eqn:C.
    - apply Z.eqb_eq in C. unfold settle1. cbn. rewrite C. split; [reflexivity|]. split; [reflexivity|]. split; [reflexivity|]. split; [lia|]. split; [auto|lia].
    - apply Z.eqb_neq in C. destruct (0 <? q_count q)%Z eqn:C2.
      + apply Z.ltb_lt in C2. unfold settle1. cbn [q_dec]. set (k := length (filter (fun d => smem d (dones s (keys s))) (q_idx q))). destruct (0 <? 0 + k) eqn:K; cbn.
        * split; [reflexivity|]. split; [reflexivity|]. split; [reflexivity|]. split; [lia|]. split; [lia|]. auto.
        * apply Nat.ltb_ge in K. split; [reflexivity|]. split; [reflexivity|]. split; [lia|]. split; [lia|]. split; [lia|]. intros _. split; [reflexivity|lia].
      + apply Z.ltb_ge in C2. unfold settle1. rewrite D0. cbn. split; [reflexivity|]. split; [reflexivity|]. split; [exact D0|]. split; [auto|]. split; lia. }
  assert (Back : forall n q', mget n (round lv s) = Some q' -> exists q, mget n s = Some q).
  { intros n q' G. rewrite (round_get lv s n N) in G. destruct (mget n s) as [q|]; [eauto|discriminate]. }
  (* done afterwards: done before or counter 0 before *)
  assert (Dd : forall d, donep (round lv s) d = true <-> exists r, mget d s = Some r /\ (q_count r <= 0)%Z).
  { intro d. unfold donep. split.
    - destruct (mget d (round lv s)) as [r'|] eqn:G; [|discriminate]. intro H. apply Z.ltb_lt in H. destruct (Back d r' G) as [r Gr]. exists r. split; [exact Gr|].
      destruct (Z.le_gt_cases (q_count r) 0) as [K|K]; [exact K|]. exfalso. destruct (A d r Gr) as [q' [G' [_ [_ [_ [_ [_ P]]]]]]]. rewrite G in G'. inversion G'; subst q'. destruct (P K) as [_ P2].
      destruct (O d r Gr ltac:(lia)) as [P3 _]. rewrite P2, P3 in H.
      assert (Le : length (filter (fun d0 => smem d0 (dones s (keys s))) (q_idx r)) <= length (open_deps s r)).
      { unfold open_deps. clear. induction (q_idx r) as [|x t IH]; [auto|]. cbn [filter]. destruct (smem x (dones s (keys s))) eqn:E.
        - assert (negb (donep s x) = true) as ->; [|cbn; lia]. unfold dones in E. apply smem_In, filter_In in E as [_ E]. unfold donep. destruct (mget x s) as [p|]; [|discriminate]. apply Z.eqb_eq in E. rewrite E. reflexivity.
        - destruct (negb (donep s x)); cbn; lia. }
      lia.
    - intros [r [Gr Le]]. destruct (A d r Gr) as [q' [G' [_ [_ [_ [P1 [P2 _]]]]]]]. rewrite G'. apply Z.ltb_lt. destruct (Z.eq_dec (q_count r) 0) as [E|E]; [destruct (P2 E); lia|]. rewrite (P1 ltac:(lia)). lia. }
  assert (Cnt : forall n q q', mget n s = Some q -> mget n (round lv s) = Some q' -> (0 < q_count q)%Z -> q_count q' = Z.of_nat (length (open_deps (round lv s) q'))).
  { intros n q q' G G' P. destruct (A n q G) as [q2 [G2 [I2 [_ [_ [_ [_ P2]]]]]]]. rewrite G' in G2. inversion G2; subst q2. destruct (P2 P) as [_ C2]. destruct (O n q G ltac:(lia)) as [C1 _].
    rewrite C2, C1. unfold open_deps. rewrite I2. pose proof (fun d H => proj2 (X n q G d H)) as Kn. revert Kn. clear -Dd.
    induction (q_idx q) as [|x t IH]; intro Kn; [reflexivity|]. cbn [filter]. specialize (IH (fun d H => Kn d (or_intror H))). pose proof (Kn x (or_introl eq_refl)) as Kx.
    assert (E : donep (round lv s) x = donep s x || smem x (dones s (keys s))).
    { apply eq_true_iff_eq. rewrite (Dd x), orb_true_iff, smem_In. unfold dones. rewrite filter_In. unfold donep. split.
      - intros [r [-> Le]]. destruct (Z.eq_dec (q_count r) 0) as [E|E]; [right; split; [exact Kx|apply Z.eqb_eq, E]|left; apply Z.ltb_lt; lia].
      - destruct (mget x s) as [r|]; [|intros [H|[_ H]]; discriminate]. intro H. exists r. split; [reflexivity|]. destruct H as [H|[_ H]]; [apply Z.ltb_lt in H; lia|apply Z.eqb_eq in H; lia]. }
    rewrite E. destruct (donep s x) eqn:Dx; cbn [orb negb].
    - destruct (smem x (dones s (keys s))) eqn:M; [|exact IH]. exfalso. unfold dones in M. apply smem_In, filter_In in M as [_ M]. unfold donep in Dx. destruct (mget x s) as [r|]; [|discriminate]. apply Z.ltb_lt in Dx. apply Z.eqb_eq in M. lia.
    - destruct (smem x (dones s (keys s))); cbn [negb List.length]; lia. }
  split.
  - constructor.
    + rewrite round_keys; exact S0.
    + intros n q' G. destruct (Back n q' G) as [q Gq]. destruct (A n q Gq) as [q2 [G2 [_ [_ [E _]]]]]. congruence.
    + intros n q' G d I. destruct (Back n q' G) as [q Gq]. destruct (A n q Gq) as [q2 [G2 [E _]]]. rewrite G in G2. inversion G2; subst q2. rewrite (round_keys lv s S0). apply (X n q Gq). rewrite <- E. exact I.
    + intros n q' G P. destruct (Back n q' G) as [q Gq]. destruct (A n q Gq) as [q2 [G2 [Ei [_ [_ [P1 [P2 P3]]]]]]]. rewrite G in G2. inversion G2; subst q2.
      assert (Q : (0 < q_count q)%Z). { destruct (Z.lt_trichotomy (q_count q) 0) as [H|[H|H]]; [rewrite (P1 H) in P; lia|destruct (P2 H); lia|exact H]. }
      destruct (P3 Q) as [E1 E2]. destruct (O n q Gq ltac:(lia)) as [C1 [L1 _]]. split; [exact (Cnt n q q' Gq G Q)|]. split; [congruence|]. intro Z0. right.
      (* some dependency was finished in this round *)
      assert (Ne : length (filter (fun d => smem d (dones s (keys s))) (q_idx q)) <> 0) by lia.
      destruct (filter (fun d => smem d (dones s (keys s))) (q_idx q)) as [|d t] eqn:F; [cbn in Ne; lia|].
      assert (Id : In d (d :: t)) by (left; reflexivity). rewrite <- F in Id. apply filter_In in Id as [Id Md]. apply smem_In, filter_In in Md as [_ Md]. destruct (mget d s) as [r|] eqn:Gd; [|discriminate]. apply Z.eqb_eq in Md.
      destruct (A d r Gd) as [r' [Gr' [_ [_ [_ [_ [R2 _]]]]]]]. destruct (R2 Md) as [R3 R4]. exists d, r'. rewrite Ei. split; [exact Id|]. split; [exact Gr'|]. split; lia.
    + intros n q' G P. destruct (Back n q' G) as [q Gq]. destruct (A n q Gq) as [q2 [G2 [Ei [_ [_ [P1 [P2 P3]]]]]]]. rewrite G in G2. inversion G2; subst q2. clear G2.
      destruct (Z.lt_trichotomy (q_count q) 0) as [H|[H|H]].
      * rewrite (P1 H). destruct (Dn n q Gq H) as [E1 [E2 [E3 E4]]]. split; [exact E1|]. split; [lia|].
        assert (K : forall d r, mget d s = Some r -> (q_count r < 0)%Z -> mget d (round lv s) = Some r).
        { intros d r Gr Hr. destruct (A d r Gr) as [r' [Gr' [_ [_ [_ [R1 _]]]]]]. rewrite (R1 Hr) in Gr'. exact Gr'. }
        split; [intros d I; destruct (E3 d I) as [r [R1 [R2 R3]]]; exists r; auto|]. destruct E4 as [E4|[d [r [I [R1 R2]]]]]; [left; exact E4|]. right. exists d, r. split; [exact I|]. split; [|exact R2].
        destruct (E3 d I) as [r' [R1' [R2' _]]]. rewrite R1 in R1'. inversion R1'; subst r'. exact (K d r R1 R2').
      * destruct (P2 H) as [E1 E2]. destruct (O n q Gq ltac:(lia)) as [C1 [_ C3]]. split; [exact E1|]. split; [lia|]. rewrite Ei, E2. split.
        -- intros d I. assert (Op : open_deps s q = []) by (destruct (open_deps s q); [reflexivity|cbn in C1; lia]).
           assert (Dp : donep s d = true). { destruct (donep s d) eqn:E; [reflexivity|]. exfalso. assert (K : In d (open_deps s q)) by (apply filter_In; rewrite E; auto). rewrite Op in K. destruct K. }
           unfold donep in Dp. destruct (mget d s) as [r|] eqn:Gr; [|discriminate]. apply Z.ltb_lt in Dp. destruct (A d r Gr) as [r' [Gr' [_ [_ [_ [R1 _]]]]]]. rewrite (R1 Dp) in Gr'. exists r. split; [exact Gr'|]. split; [exact Dp|]. exact (proj1 (proj2 (Dn d r Gr Dp))).
        -- destruct (C3 H) as [E|[d [r [I [Gr [Hr El]]]]]]; [left; exact E|]. right. exists d, r. split; [exact I|]. split; [|exact El]. destruct (A d r Gr) as [r' [Gr' [_ [_ [_ [R1 _]]]]]]. rewrite (R1 Hr) in Gr'. exact Gr'.
      * exfalso. pose proof (Cnt n q q' Gq G H). lia.
  - intros n q G. destruct (A n q G) as [q' [G' [E1 [E2 [_ [P1 [P2 _]]]]]]]. exists q'. split; [exact G'|]. split; [exact E1|]. split; [exact E2|]. split; [exact P1|]. split; [intro H; destruct (P2 H); split; lia|]. intro H. pose proof (Cnt n q q' G G' H). lia.
Qed.

(** ** all the rounds *)
Definition open_ports (s : ports) : nat := length (filter (fun n => negb (donep s n)) (keys s)).
Lemma found_spec s : ssorted (keys s) -> (found s = true <-> exists n q, mget n s = Some q /\ q_count q = 0%Z).
Proof.
  intro S0. unfold found. rewrite existsb_exists. split.
  - intros [[n q] [I E]]. exists n, q. split; [apply In_mget; [apply ssorted_NoDup, S0|exact I]|apply Z.eqb_eq in E; exact E].
  - intros [n [q [G E]]]. exists (n, q). split; [apply mget_In, G|apply Z.eqb_eq, E].
Qed.
Lemma mget_keys {A} n (q : A) s : mget n s = Some q -> In n (keys s).
Proof. intro G. apply mget_In in G. apply (in_map fst) in G. exact G. Qed.
Lemma keys_mget {A} n (s : list (str * A)) : In n (keys s) -> exists q, mget n s = Some q.
Proof. intro I. destruct (mget n s) as [q|] eqn:G; [eauto|]. apply mget_None in G. contradiction. Qed.
Lemma filter_less {A} (f g : A -> bool) l : (forall x, In x l -> g x = true -> f x = true) -> (exists x, In x l /\ f x = true /\ g x = false) -> length (filter g l) < length (filter f l).
Proof.
  induction l as [|x t IH]; intros H [y [I [F G]]]; [destruct I|]. cbn [filter].
  assert (Le : length (filter g t) <= length (filter f t)).
  { assert (Ht : forall y, In y t -> g y = true -> f y = true) by (intros z Z; apply H; right; exact Z). clear -Ht. induction t as [|z t IH]; [auto|]. cbn [filter].
    assert (IH' : length (filter g t) <= length (filter f t)) by (apply IH; intros; apply Ht; [right; assumption|assumption]). destruct (g z) eqn:E.
    - rewrite (Ht z (or_introl eq_refl) E). cbn. lia.
    - destruct (f z); cbn; lia. }
  destruct I as [->|I].
  - rewrite F, G. cbn. lia.
  - assert (K : length (filter g t) < length (filter f t)) by (apply IH; [intros z Z; apply H; right; exact Z|eauto]). destruct (g x) eqn:E.
    + rewrite (H x (or_introl eq_refl) E). cbn. lia.
    + destruct (f x); cbn; lia.
Qed.
Lemma round_less lv s : inv lv s -> found s = true -> open_ports (round lv s) < open_ports s.
Proof.
  intros V F. pose proof (v_sorted _ _ V) as S0. destruct (inv_round lv s V) as [V' R]. unfold open_ports. rewrite (round_keys lv s S0). apply filter_less.
  - intros n I H. apply keys_mget in I as [q G]. destruct (R n q G) as [q' [G' [_ [_ [P1 _]]]]]. unfold donep in *. rewrite G, G' in *. apply negb_true_iff in H. apply negb_true_iff. apply Z.ltb_ge in H. apply Z.ltb_ge.
    destruct (Z.lt_ge_cases (q_count q) 0) as [K|K]; [rewrite (P1 K) in H; lia|exact K].
  - apply (found_spec s S0) in F as [n [q [G E]]]. exists n. split; [exact (mget_keys n q s G)|]. destruct (R n q G) as [q' [G' [_ [_ [_ [P2 _]]]]]]. unfold donep. rewrite G, G'. destruct (P2 E) as [P3 _]. split.
    + rewrite E. reflexivity.
    + apply negb_false_iff, Z.ltb_lt, P3.
Qed.
Lemma open_pos s : ssorted (keys s) -> found s = true -> 0 < open_ports s.
Proof.
  intros S0 F. apply (found_spec s S0) in F as [n [q [G E]]]. unfold open_ports.
  assert (I : In n (filter (fun n => negb (donep s n)) (keys s))).
  { apply filter_In. split; [exact (mget_keys n q s G)|]. unfold donep. rewrite G, E. reflexivity. }
  destruct (filter _ (keys s)); [destruct I|cbn; lia].
Qed.
Lemma levels_total fuel : forall lv s, inv lv s -> open_ports s < fuel -> exists s', levels fuel lv s = Some s'.
Proof.
  induction fuel as [|f IH]; intros lv s V L; [lia|]. cbn [levels]. destruct (found s) eqn:F; [|eauto]. apply IH; [exact (proj1 (inv_round lv s V))|]. pose proof (round_less lv s V F). lia.
Qed.
Lemma levels_end fuel : forall lv s s', inv lv s -> levels fuel lv s = Some s' ->
  exists lv', inv lv' s' /\ keys s' = keys s /\ (forall n q, mget n s' = Some q -> q_count q <> 0%Z) /\
  (forall n q, mget n s = Some q -> exists q', mget n s' = Some q' /\ q_idx q' = q_idx q /\ q_deps q' = q_deps q).
Proof.
  induction fuel as [|f IH]; intros lv s s' V E; [discriminate|]. cbn [levels] in E. destruct (inv_round lv s V) as [V' R]. pose proof (v_sorted _ _ V) as S0. destruct (found s) eqn:F.
  - destruct (IH (S lv) (round lv s) s' V' E) as [lv' [A [B [C D]]]]. exists lv'. split; [exact A|]. split; [rewrite B; apply round_keys, S0|]. split; [exact C|].
    intros n q G. destruct (R n q G) as [q1 [G1 [I1 [D1 _]]]]. destruct (D n q1 G1) as [q2 [G2 [I2 D2]]]. exists q2. split; [exact G2|]. split; congruence.
  - injection E as E. subst s'. exists (S lv). split; [exact V'|]. split; [apply round_keys, S0|]. split.
    + intros n q G Z0. assert (Nf : forall n q, mget n s = Some q -> q_count q <> 0%Z).
      { intros n0 q0 G0 H0. assert (K : found s = true) by (apply (found_spec s S0); eauto). congruence. }
      destruct (v_open _ _ V' n q G ltac:(lia)) as [_ [_ H]]. destruct (H Z0) as [K|[d [r [_ [Gr [Cr Lr]]]]]]; [discriminate|].
      assert (Kd : In d (keys s)) by (rewrite <- (round_keys lv s S0); exact (mget_keys d r _ Gr)). apply keys_mget in Kd as [r0 Gr0]. destruct (R d r0 Gr0) as [r1 [Gr1 [_ [_ [P1 [_ P3]]]]]]. rewrite Gr in Gr1. injection Gr1 as <-.
      destruct (Z.lt_trichotomy (q_count r0) 0) as [K|[K|K]].
      * rewrite (P1 K) in Lr. pose proof (proj1 (proj2 (v_done _ _ V d r0 Gr0 K))). lia.
      * exact (Nf d r0 Gr0 K).
      * specialize (P3 K). lia.
    + intros n q G. destruct (R n q G) as [q1 [G1 [I1 [D1 _]]]]. eauto.
Qed.

(** ** the start *)
Lemma confirm_get s n : mget n (confirm s) = option_map (fun q => let ks := known_deps (keys s) n (q_deps q) in Port (q_deps q) ks (Z.of_nat (length ks)) (q_level q) (q_dec q)) (mget n s).
Proof.
  unfold confirm. rewrite <- (mget_map_snd (fun n q => let ks := known_deps (keys s) n (q_deps q) in Port (q_deps q) ks (Z.of_nat (length ks)) (q_level q) (q_dec q))). f_equal.
  apply map_ext. intros [m q]. reflexivity.
Qed.
Lemma confirm_keys s : keys (confirm s) = keys s.
Proof. unfold confirm, keys at 1. rewrite map_map. apply map_ext. intros [n q]. reflexivity. Qed.
Lemma read_ports_inv l : ssorted (keys (read_ports l)) /\ (forall n q, mget n (read_ports l) = Some q -> q_dec q = 0 /\ q_level q = 0).
Proof.
  unfold read_ports. assert (G : forall l m, ssorted (keys m) -> (forall n q, mget n m = Some q -> q_dec q = 0 /\ q_level q = 0) ->
    let m' := fold_left (fun m e => mset (fst e) (fresh_port (set_of (snd e))) m) l m in
    ssorted (keys m') /\ (forall n q, mget n m' = Some q -> q_dec q = 0 /\ q_level q = 0)).
  { clear. induction l as [|[k ds] t IH]; intros m S0 H; [exact (conj S0 H)|]. cbn [fold_left fst snd]. apply IH; [apply mset_keys_sorted, S0|]. intros n q. rewrite mget_mset. destruct (seqb n k); [intro E; injection E as <-; split; reflexivity|apply H]. }
  apply G; [constructor|]. intros n q E. discriminate.
Qed.
Lemma inv_start l : inv 0 (confirm (read_ports l)).
Proof.
  destruct (read_ports_inv l) as [S0 H]. set (s := read_ports l) in *. constructor.
  - rewrite confirm_keys. exact S0.
  - intros n q. rewrite confirm_get. destruct (mget n s) as [p|] eqn:G; [|discriminate]. cbn [option_map]. intro E. injection E as <-. exact (proj1 (H n p G)).
  - intros n q. rewrite confirm_get. destruct (mget n s) as [p|] eqn:G; [|discriminate]. cbn [option_map]. intro E. injection E as <-. cbn [q_idx]. intros d I. rewrite confirm_keys. unfold known_deps in I. apply filter_In in I as [_ I].
    apply andb_true_iff in I as [I1 I2]. split; [|apply smem_In, I1]. apply negb_true_iff, seqb_neq in I2. exact I2.
  - intros n q. rewrite confirm_get. destruct (mget n s) as [p|] eqn:G; [|discriminate]. cbn [option_map]. intro E. injection E as <-. cbn [q_count q_level q_idx]. intros _. split; [|split; [exact (proj2 (H n p G))|left; reflexivity]].
    unfold open_deps. cbn [q_idx]. rewrite filter_all; [reflexivity|]. intros d _. unfold donep. rewrite confirm_get. destruct (mget d s) as [r|]; [|reflexivity]. cbn [option_map q_count]. apply negb_true_iff, Z.ltb_ge. lia.
  - intros n q. rewrite confirm_get. destruct (mget n s) as [p|] eqn:G; [|discriminate]. cbn [option_map]. intro E. injection E as <-. cbn [q_count]. lia.
Qed.
Lemma tree_total l : exists s, tree l = Some s.
Proof.
  apply levels_total; [apply inv_start|]. unfold open_ports. rewrite confirm_keys. pose proof (filter_length_le (fun n => negb (donep (confirm (read_ports l)) n)) (keys (read_ports l))). unfold keys in *. rewrite map_length in *. lia.
Qed.
Lemma tree_end l s : tree l = Some s -> exists lv, inv lv s /\ keys s = keys (read_ports l) /\ (forall n q, mget n s = Some q -> q_count q <> 0%Z) /\
  (forall n p, mget n (read_ports l) = Some p -> exists q, mget n s = Some q /\ q_idx q = known_deps (keys (read_ports l)) n (q_deps p) /\ q_deps q = q_deps p).
Proof.
  intro T. destruct (levels_end _ _ _ _ (inv_start l) T) as [lv [A [B [C D]]]]. exists lv. split; [exact A|]. split; [rewrite B; apply confirm_keys|]. split; [exact C|].
  intros n p G. destruct (D n (let ks := known_deps (keys (read_ports l)) n (q_deps p) in Port (q_deps p) ks (Z.of_nat (length ks)) (q_level p) (q_dec p))) as [q [Gq [I1 I2]]].
  - rewrite confirm_get, G. reflexivity.
  - exists q. split; [exact Gq|]. split; [exact I1|exact I2].
Qed.
