(** C43: exit status of scripts. C46: status flags. *)
From Verif Require Import Base BaseProofs ProcModel.
From Coq Require Import ZArith Lia.

(** ** C43 *)
(** a script that exits: the value is its exit status, so it is reported as failed iff that is not 0 *)
Theorem C43_exited_partial : forall n, (0 <= n < 256)%Z -> run_status (Ended (Exited n)) = n /\ (reported_failed (Ended (Exited n)) = true <-> n <> 0%Z).
Proof.
  intros n H. assert (E : run_status (Ended (Exited n)) = n) by (unfold run_status, wait_status; apply Z.quot_mul; lia). split; [exact E|]. unfold reported_failed. rewrite E, negb_true_iff, Z.eqb_neq. reflexivity.
Qed.
(** everything else is reported as successful *)
Theorem C43_other_ends_refuted : forall o, match o with Ended (Exited _) => False | Ended c => child_ok c | _ => True end -> reported_failed o = false.
Proof.
  intros [| |[n|s core]] H; [reflexivity|reflexivity|destruct H|]. unfold reported_failed, run_status, wait_status. cbn in H. rewrite Z.quot_small; [reflexivity|]. destruct core; lia.
Qed.
(** success is reported iff the script exited with 0, was killed, or could not be run or waited for *)
Theorem C43_success_iff : forall o, (match o with Ended c => child_ok c | _ => True end) -> (reported_failed o = false <-> ~ exists n, o = Ended (Exited n) /\ n <> 0%Z).
Proof.
  intros o H. destruct o as [| |[n|s core]].
  - split; [intros _ [n [E _]]; discriminate|reflexivity].
  - split; [intros _ [n [E _]]; discriminate|reflexivity].
  - destruct (C43_exited_partial n H) as [_ E]. split.
    + intros F [m [E2 N]]. injection E2 as <-. apply E in N. congruence.
    + intro N. destruct (reported_failed (Ended (Exited n))) eqn:R; [|reflexivity]. exfalso. apply N. exists n. split; [reflexivity|]. apply E. reflexivity.
  - split; [intros _ [n [E _]]; discriminate|]. intros _. apply C43_other_ends_refuted. exact H.
Qed.
Example C43_killed_example : reported_failed (Ended (Killed 11 true)) = false /\ reported_failed (Ended (Exited 1)) = true /\ reported_failed ForkFailed = false.
Proof. split; [reflexivity|]. split; reflexivity. Qed.

(** ** C46 *)
(** bits of any word and any flag word *)
Theorem C46_bits : forall w f i, (i < 32)%N ->
  N.testbit (set_status w f) i = N.testbit w i || N.testbit f i /\ N.testbit (unset_status w f) i = N.testbit w i && negb (N.testbit f i).
Proof.
  intros w f i H. unfold set_status, unset_status. rewrite N.lor_spec, N.land_spec, N.lxor_spec, N.ones_spec_low by exact H. split; [reflexivity|]. rewrite xorb_true_l. reflexivity.
Qed.
Lemma has_flag_bit w f : has_flag w f = N.testbit w (match f with Installed => 0 | ToInstall => 1 | ToRemove => 2 | ToUpgrade => 3 end)%N.
Proof.
  unfold has_flag. set (i := (match f with Installed => 0 | ToInstall => 1 | ToRemove => 2 | ToUpgrade => 3 end)%N). assert (E : flag_value f = (2 ^ i)%N) by (destruct f; reflexivity). rewrite E.
  destruct (N.testbit w i) eqn:B.
  - apply negb_true_iff, N.eqb_neq. intro Z. assert (K : N.testbit (N.land w (2 ^ i)) i = true) by (rewrite N.land_spec, B, N.pow2_bits_true; reflexivity). rewrite Z in K. rewrite N.bits_0 in K. discriminate.
  - apply negb_false_iff, N.eqb_eq. apply N.bits_inj. intro j. rewrite N.land_spec, N.bits_0. destruct (N.eq_dec i j) as [<-|N0]; [rewrite B; reflexivity|]. rewrite N.pow2_bits_false by exact N0. apply andb_false_r.
Qed.
Definition touches (o : sop) : flag := match o with SetF f | UnsetF f => f end.
Definition sets (o : sop) : bool := match o with SetF _ => true | UnsetF _ => false end.
(** after any history a flag is what the last operation on that flag made it; without one it is clear *)
Inductive last_on (g : flag) : list sop -> bool -> Prop :=
| lo_none : last_on g [] false
| lo_this ops o : touches o = g -> last_on g (ops ++ [o]) (sets o)
| lo_other ops o b : touches o <> g -> last_on g ops b -> last_on g (ops ++ [o]) b.
Lemma flag_eq_dec (a b : flag) : {a = b} + {a <> b}. Proof. decide equality. Qed.
Theorem C46_history : forall ops g, last_on g ops (has_flag (fold_left sapply ops sstart) g).
Proof.
  intros ops g. induction ops as [|o t IH] using rev_ind; [constructor|]. rewrite fold_left_app. cbn [fold_left]. set (w := fold_left sapply t sstart) in *.
  assert (E : forall f i, (i < 32)%N -> N.testbit (sapply w (SetF f)) i = N.testbit w i || N.testbit (flag_value f) i) by (intros f i H; exact (proj1 (C46_bits w (flag_value f) i H))).
  assert (E2 : forall f i, (i < 32)%N -> N.testbit (sapply w (UnsetF f)) i = N.testbit w i && negb (N.testbit (flag_value f) i)) by (intros f i H; exact (proj2 (C46_bits w (flag_value f) i H))).
  destruct (flag_eq_dec (touches o) g) as [T|T].
  - replace (has_flag (sapply w o) g) with (sets o); [apply lo_this, T|]. rewrite has_flag_bit. destruct o as [f|f]; cbn [touches] in T; subst f; [rewrite E by (destruct g; reflexivity); destruct g; cbn; apply eq_sym, orb_true_r|rewrite E2 by (destruct g; reflexivity); destruct g; cbn; apply eq_sym, andb_false_r].
  - apply lo_other; [exact T|]. replace (has_flag (sapply w o) g) with (has_flag w g); [exact IH|]. rewrite !has_flag_bit. destruct o as [f|f]; cbn [touches] in T; [rewrite E by (destruct g; reflexivity)|rewrite E2 by (destruct g; reflexivity)]; destruct f, g; try contradiction; cbn; rewrite ?orb_false_r, ?andb_true_r; reflexivity.
Qed.
Definition flag_bit (g : flag) : N := (match g with Installed => 0 | ToInstall => 1 | ToRemove => 2 | ToUpgrade => 3 end)%N.
Theorem C46_others_kept : forall w o g, touches o <> g -> has_flag (sapply w o) g = has_flag w g.
Proof.
  intros w o g T. rewrite !has_flag_bit. fold (flag_bit g). destruct o as [f|f]; cbn [touches] in T.
  - cbn [sapply]. rewrite (proj1 (C46_bits w (flag_value f) (flag_bit g) ltac:(destruct g; reflexivity))). destruct f, g; try contradiction; cbn; rewrite ?orb_false_r; reflexivity.
  - cbn [sapply]. rewrite (proj2 (C46_bits w (flag_value f) (flag_bit g) ltac:(destruct g; reflexivity))). destruct f, g; try contradiction; cbn; rewrite ?andb_true_r; reflexivity.
Qed.
Example C46_example : map (has_flag (fold_left sapply [SetF Installed; SetF ToRemove; UnsetF Installed; SetF ToUpgrade] sstart)) [Installed; ToInstall; ToRemove; ToUpgrade] = [false; false; true; true].
Proof. reflexivity. Qed.
