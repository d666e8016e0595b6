(** C107: the progress shown. *)
From Verif Require Import Base MetaModel ProgressModel.
From Coq Require Import NArith Lia.
Open Scope N_scope.

(** ** specification *)
(** a percentage that grows: numbers from 0 to 100, each at least the one before, the last one 100 *)
Definition percentage (vs : list N) : Prop :=
  Forall (fun v => v <= 100) vs /\ (forall u a b t, vs = u ++ a :: b :: t -> a <= b) /\ exists u, vs = u ++ [100].
(** the work of a command: packages removed and archives installed, with the numbers of files; [Put]: the entries of the archive and the lines of
    its list of files *)
Inductive job := Put (entries : nat) (files : N) | Drop (n : nat) (files : N).
Definition calls (b : job) : list call := match b with Put e f => adding e f | Drop n f => removing n f end.
(** what a machine can hold *)
Definition small (b : job) : Prop := match b with Put e f => f <> 0 /\ N.of_nat e * 100 < 4294967296 | Drop n _ => N.of_nat n * 100 <= INT_MAX end.

(** ** proofs *)
Lemma shown_app st a b j : shown st (a ++ b) j =
  rbind (shown st a j) (fun p => rbind (shown st b (fst p)) (fun q => Ok (fst q, snd p ++ snd q))).
Proof.
  revert j. induction a as [|c a IH]; intro j; cbn [shown app].
  - cbn [rbind fst snd app]. destruct (shown st b j) as [[j' l]| |]; reflexivity.
  - destruct (st c j) as [[j1 v]| |]; cbn [rbind fst snd]; [|reflexivity..]. rewrite IH. destruct (shown st a j1) as [[j2 l]| |]; cbn [rbind fst snd]; [|reflexivity..].
    destruct (shown st b j2) as [[j3 l']| |]; cbn [rbind fst snd]; [|reflexivity..]. destruct v; reflexivity.
Qed.
Lemma counting (n : N) (c : call) k : forall j, n <> 0 -> (forall i, cli_step c i = rbind (hundred (i + 1)) (fun a => rbind (quot a n) (fun v => Ok (i + 1, Some v)))) ->
  (j + N.of_nat k) * 100 <= INT_MAX ->
  shown cli_step (repeat c k) j = Ok (j + N.of_nat k, map (fun i => (j + N.of_nat i) * 100 / n) (seq 1 k)).
Proof.
  induction k as [|k IH]; intros j Nz Hc B; cbn [repeat shown seq map].
  - rewrite N.add_0_r. reflexivity.
  - rewrite Hc. unfold hundred. destruct (N.ltb_spec INT_MAX ((j + 1) * 100)) as [Z|_]; [lia|]. cbn [rbind]. unfold quot. destruct (N.eqb_spec n 0) as [Z|_]; [contradiction|]. cbn [rbind fst snd].
    rewrite IH; [|exact Nz|exact Hc|lia]. cbn [rbind fst snd]. f_equal. f_equal; [lia|]. f_equal.
    rewrite <- (seq_shift k 1), map_map. apply map_ext. intro i. f_equal. lia.
Qed.
Lemma rising_map (f : N -> N) k : forall s, (forall a b, a <= b -> f a <= f b) -> forall u a b t, map (fun i => f (N.of_nat i)) (seq s k) = u ++ a :: b :: t -> a <= b.
Proof.
  induction k as [|k IH]; intros s M u a b t E; cbn [seq map] in E; [destruct u; discriminate E|].
  destruct u as [|x u]; cbn [app] in E.
  - destruct k as [|k]; cbn [seq map] in E; [discriminate E|]. injection E as <- <- _. apply M. lia.
  - injection E as _ E. exact (IH (Datatypes.S s) M u a b t E).
Qed.
Lemma close_percent l : Forall (fun v => v <= 100) l -> (forall u a b t, l = u ++ a :: b :: t -> a <= b) -> percentage (l ++ [100]).
Proof.
  intros F M. split; [|split].
  - apply Forall_app. split; [exact F|]. constructor; [lia|constructor].
  - intros u a b t E. destruct (@exists_last _ (b :: t) ltac:(discriminate)) as (t' & z & Et). rewrite Et in E.
    replace (u ++ a :: t' ++ [z]) with ((u ++ a :: t') ++ [z]) in E by (rewrite <- app_assoc; reflexivity). apply app_inj_tail in E as [El Ez]. subst z.
    destruct t' as [|b' t'].
    + cbn [app] in Et. injection Et as -> _. rewrite Forall_forall in F. apply F. rewrite El. apply in_elt.
    + cbn [app] in Et. injection Et as -> _. exact (M u a b' t' El).
  - exists l. reflexivity.
Qed.
Lemma counted_percent (n : nat) : percentage (map (fun i => (0 + N.of_nat i) * 100 / N.of_nat n) (seq 1 n) ++ [100]).
Proof.
  apply close_percent.
  - apply Forall_forall. intros v J. apply in_map_iff in J as (i & <- & J). apply in_seq in J. apply N.lt_succ_r. apply N.div_lt_upper_bound; lia.
  - apply (rising_map (fun x => (0 + x) * 100 / N.of_nat n)). intros a b L. destruct (N.of_nat n) as [|p] eqn:E; [destruct ((0 + a) * 100), ((0 + b) * 100); cbn; lia|]. apply N.div_le_mono; lia.
Qed.

(** Opening the database: the percentage grows to 100. *)
Theorem C107_open n : N.of_nat n * 100 <= INT_MAX -> exists vs, shown cli_step (opening n) 0 = Ok (0, vs) /\ percentage vs /\ length vs = Datatypes.S n.
Proof.
  intro B. unfold opening. cbn [shown cli_step rbind fst snd]. rewrite shown_app. destruct n as [|n].
  { exists [100]. split; [reflexivity|]. split; [exact (counted_percent 0)|reflexivity]. }
  rewrite (counting (N.of_nat (Datatypes.S n)) (OpenRun (N.of_nat (Datatypes.S n))) (Datatypes.S n) 0); [|lia|reflexivity|lia]. cbn [rbind fst snd shown cli_step].
  eexists. split; [reflexivity|]. split; [apply counted_percent|]. rewrite app_length, map_length, seq_length. cbn [length]. lia.
Qed.
(** Removing a package. *)
Lemma remove_shown n f j : N.of_nat n * 100 <= INT_MAX -> exists j' vs, shown cli_step (removing n f) j = Ok (j', vs) /\ percentage vs.
Proof.
  intro B. unfold removing. cbn [shown cli_step rbind fst snd]. rewrite shown_app. destruct n as [|n].
  { exists 0, [100]. split; [reflexivity|]. exact (counted_percent 0). }
  rewrite (counting (N.of_nat (Datatypes.S n)) (RmRun (N.of_nat (Datatypes.S n)) f) (Datatypes.S n) 0); [|lia|reflexivity|lia]. cbn [rbind fst snd shown cli_step].
  eexists. eexists. split; [reflexivity|]. apply counted_percent.
Qed.
Lemma extracting f k : forall s j, f <> 0 -> N.of_nat (s + k) * 100 < 4294967296 ->
  shown cli_step (map (fun d => AddRun (N.of_nat d) f) (seq s k)) j = Ok (j + N.of_nat k, map (fun d => N.of_nat d * 100 / f) (seq s k)).
Proof.
  induction k as [|k IH]; intros s j Nz B; cbn [seq map shown].
  - rewrite N.add_0_r. reflexivity.
  - cbn [cli_step]. unfold u32, quot. rewrite N.mod_small by lia. destruct (N.eqb_spec f 0) as [Z|_]; [contradiction|]. cbn [rbind fst snd]. rewrite (IH (Datatypes.S s)); [|exact Nz|lia]. cbn [rbind fst snd]. f_equal. f_equal. lia.
Qed.
(** Installing an archive: the numbers grow; they are percentages exactly as long as the archive has at most (about) as many entries as its list
    of files has lines. *)
Lemma add_shown e f j : f <> 0 -> N.of_nat e * 100 < 4294967296 ->
  exists j' , shown cli_step (adding e f) j = Ok (j', map (fun d => N.of_nat d * 100 / f) (seq 0 e) ++ [100]).
Proof.
  intros Nz B. unfold adding. cbn [shown cli_step rbind fst snd]. rewrite shown_app, (extracting f e 0 0 Nz B). cbn [rbind fst snd shown cli_step]. eexists. reflexivity.
Qed.
Theorem C107_put e f j : f <> 0 -> N.of_nat e * 100 < 4294967296 ->
  exists j' vs, shown cli_step (adding e f) j = Ok (j', vs) /\
    (percentage vs <-> e = 0%nat \/ (N.of_nat e - 1) * 100 < f * 101) /\ exists vs', vs = vs' ++ [100] /\ forall u a b t, vs' = u ++ a :: b :: t -> a <= b.
Proof.
  intros Nz B. destruct (add_shown e f j Nz B) as [j' E]. exists j'. eexists. split; [exact E|].
  assert (R : forall u a b t, map (fun d => N.of_nat d * 100 / f) (seq 0 e) = u ++ a :: b :: t -> a <= b).
  { apply (rising_map (fun x => x * 100 / f)). intros a b L. apply N.div_le_mono; lia. }
  split; [|eexists; split; [reflexivity|exact R]]. split.
  - intros [F _]. destruct e as [|e]; [left; reflexivity|right]. rewrite Forall_forall in F.
    assert (J : In (N.of_nat e * 100 / f) (map (fun d => N.of_nat d * 100 / f) (seq 0 (Datatypes.S e)) ++ [100])) by (apply in_or_app; left; apply (in_map (fun d => N.of_nat d * 100 / f)); apply in_seq; lia).
    apply F in J. replace (N.of_nat (Datatypes.S e) - 1) with (N.of_nat e) by lia. pose proof (N.div_mod (N.of_nat e * 100) f Nz) as D. pose proof (N.mod_lt (N.of_nat e * 100) f Nz). nia.
  - intro H. apply close_percent; [|exact R]. apply Forall_forall. intros v J. apply in_map_iff in J as (d & <- & J). apply in_seq in J. destruct H as [->|H]; [lia|]. apply N.lt_succ_r. apply N.div_lt_upper_bound; lia.
Qed.
(** The whole of a command: no number leads to a crash. *)
Theorem C107_never_fatal n bs : N.of_nat n * 100 <= INT_MAX -> Forall small bs -> exists j vs, shown cli_step (opening n ++ concat (map calls bs)) 0 = Ok (j, vs).
Proof.
  intros B F. rewrite shown_app. destruct (C107_open n B) as (vs & E & _). rewrite E. cbn [rbind fst snd].
  assert (G : forall j, exists j' ws, shown cli_step (concat (map calls bs)) j = Ok (j', ws)).
  { induction F as [|b bs Fb F IH]; intro j; cbn [map concat]; [eexists; eexists; reflexivity|]. rewrite shown_app.
    assert (H : exists j1 us, shown cli_step (calls b) j = Ok (j1, us)).
    { destruct b as [e f|k f]; cbn [calls small] in *; [destruct Fb as [Nz Fb]; destruct (add_shown e f j Nz Fb) as [j1 H]; eauto|destruct (remove_shown k f j Fb) as (j1 & us & H & _); eauto]. }
    destruct H as (j1 & us & ->). cbn [rbind fst snd]. destruct (IH j1) as (j2 & ws & ->). cbn [rbind fst snd]. eauto. }
  destruct (G 0) as (j & ws & ->). cbn [rbind fst snd]. eauto.
Qed.
Theorem C107_drop n f j : N.of_nat n * 100 <= INT_MAX -> exists j' vs, shown cli_step (removing n f) j = Ok (j', vs) /\ percentage vs.
Proof. exact (remove_shown n f j). Qed.

(** ** flcards *)
(** With one to 99 installed packages flcards dies at the first package it reads, whatever it was asked to do and did before; *)
Theorem C107_window_dies n rest j : (0 < n < 100)%nat -> shown gui_step (opening n ++ rest) j = UB.
Proof.
  intro H. destruct n as [|n]; [lia|]. unfold opening. cbn [app shown gui_step rbind fst snd repeat]. unfold quot. rewrite (N.div_small (N.of_nat (Datatypes.S n)) 100) by lia. reflexivity.
Qed.
(** with none, or a hundred or more, no number ever leads to that. *)
Theorem C107_window_lives n bs j : n = 0%nat \/ (100 <= n)%nat -> exists j' vs, shown gui_step (opening n ++ concat (map calls bs)) j = Ok (j', vs).
Proof.
  intro H. assert (St : forall cs j, (forall c i, In c cs -> exists p, gui_step c i = Ok p) -> exists q, shown gui_step cs j = Ok q).
  { induction cs as [|c cs IH]; intros i Hc; cbn [shown]; [eexists; reflexivity|]. destruct (Hc c i (or_introl eq_refl)) as [p ->]. cbn [rbind].
    destruct (IH (fst p)) as [q ->]; [intros c' i' J; apply Hc; right; exact J|]. cbn [rbind]. eexists. reflexivity. }
  destruct (St (opening n ++ concat (map calls bs)) j) as [[j' vs] ->]; [|eauto].
  assert (Qt : forall a f, exists v, (if 100 <? f then rbind (quot a (f / 100)) (fun v => Ok (u32 (a + 1), Some v)) else Ok (u32 (a + 1), Some a)) = Ok v).
  { intros a f. destruct (N.ltb_spec 100 f) as [L|L]; [|eexists; reflexivity]. unfold quot. destruct (N.eqb_spec (f / 100) 0) as [Z|_]; [|eexists; reflexivity]. apply N.div_small_iff in Z; lia. }
  intros c i J. apply in_app_or in J as [J|J].
  - destruct J as [<-|J]; [eexists; reflexivity|]. apply in_app_or in J as [J|[<-|[]]]; [|eexists; reflexivity]. destruct H as [->|H]; [destruct J|]. apply repeat_spec in J as ->. cbn [gui_step]. unfold quot.
    destruct (N.eqb_spec (N.of_nat n / 100) 0) as [Z|_]; [apply N.div_small_iff in Z; lia|eexists; reflexivity].
  - apply in_concat in J as (l & J & Jc). apply in_map_iff in J as (b & <- & _). destruct b as [e f|k f]; cbn [calls adding removing] in Jc.
    + destruct Jc as [<-|Jc]; [eexists; reflexivity|]. apply in_app_or in Jc as [Jc|[<-|[]]]; [|eexists; reflexivity]. apply in_map_iff in Jc as (d & <- & _). cbn [gui_step].
      destruct (N.ltb_spec 100 f) as [L|L]; [|eexists; reflexivity]. unfold quot. destruct (N.eqb_spec (f / 100) 0) as [Z|_]; [|eexists; reflexivity]. apply N.div_small_iff in Z; lia.
    + destruct Jc as [<-|Jc]; [eexists; reflexivity|]. apply in_app_or in Jc as [Jc|[<-|[]]]; [|eexists; reflexivity]. apply repeat_spec in Jc as ->. exact (Qt i f).
Qed.

(** ** cases *)
(** an archive of pkgmk has the lines of its list and two or more entries besides (.META, .MTREE): with ten files the terminal shows 110 *)
Theorem C107_terminal_over_refuted : exists j vs, shown cli_step (adding 12 10) 0 = Ok (j, vs) /\ In 110 vs /\ ~ percentage vs.
Proof.
  eexists. eexists. split; [vm_compute; reflexivity|]. split; [vm_compute; tauto|]. intros [F _]. rewrite Forall_forall in F.
  assert (Z : 110 <= 100) by (apply F; vm_compute; tauto). lia.
Qed.
(** with 150 packages the window shows up to 149 while it opens the database, and goes on from 150 when it installs a small package *)
Theorem C107_window_over_refuted : exists j vs, shown gui_step (opening 150 ++ adding 5 3) 0 = Ok (j, vs) /\ In 149 vs /\ In 154 vs /\ ~ percentage vs.
Proof.
  eexists. eexists. split; [vm_compute; reflexivity|]. split; [vm_compute; tauto|]. split; [vm_compute; tauto|]. intros [F _]. rewrite Forall_forall in F.
  assert (Z : 149 <= 100) by (apply F; vm_compute; tauto). lia.
Qed.
Example C107_case : shown cli_step (opening 3) 0 = Ok (0, [33; 66; 100; 100]) /\ shown cli_step (removing 4 77) 9 = Ok (4, [25; 50; 75; 100; 100]) /\
  shown cli_step (adding 3 4) 9 = Ok (3, [0; 25; 50; 100]) /\ Forall small [Drop 4 77; Put 3 4] /\ shown gui_step (opening 99) 5 = UB.
Proof.
  split; [vm_compute; reflexivity|]. split; [vm_compute; reflexivity|]. split; [vm_compute; reflexivity|]. split; [|vm_compute; reflexivity].
  constructor; [cbn; discriminate|]. constructor; [split; [discriminate|reflexivity]|constructor].
Qed.
(** In the window a removal starts from 0 whatever was shown before: one number per file, the number of files already deleted, divided by the
    hundredth part of what the program takes for their number when that is more than a hundred; and 0 at the end. *)
Lemma window_counting (n f : N) k : forall j, j + N.of_nat k < 4294967296 ->
  shown gui_step (repeat (RmRun n f) k) j = Ok (j + N.of_nat k, map (fun i => if 100 <? f then (j + N.of_nat i) / (f / 100) else j + N.of_nat i) (seq 0 k)).
Proof.
  induction k as [|k IH]; intros j B; cbn [repeat shown seq map].
  - rewrite N.add_0_r. reflexivity.
  - assert (E : gui_step (RmRun n f) j = Ok (j + 1, Some (if 100 <? f then j / (f / 100) else j))).
    { cbn [gui_step]. unfold u32. rewrite N.mod_small by lia. destruct (N.ltb_spec 100 f) as [L|L]; [|reflexivity]. unfold quot. destruct (N.eqb_spec (f / 100) 0) as [Z|_]; [apply N.div_small_iff in Z; lia|reflexivity]. }
    rewrite E. cbn [rbind fst snd]. rewrite IH by lia. cbn [rbind fst snd]. f_equal. f_equal; [lia|]. change (N.of_nat 0) with 0. rewrite N.add_0_r. f_equal.
    rewrite <- seq_shift, map_map. apply map_ext. intro i. replace (j + 1 + N.of_nat i) with (j + N.of_nat (Datatypes.S i)) by lia. reflexivity.
Qed.
Theorem C107_window_drop n f j : N.of_nat n < 4294967296 ->
  shown gui_step (removing n f) j = Ok (N.of_nat n, 0 :: map (fun i => if 100 <? f then N.of_nat i / (f / 100) else N.of_nat i) (seq 0 n) ++ [0]).
Proof.
  intro B. unfold removing. cbn [shown gui_step rbind fst snd]. rewrite shown_app. rewrite (window_counting (N.of_nat n) f n 0) by lia. cbn [rbind fst snd shown gui_step].
  rewrite N.add_0_l. f_equal.
Qed.
(** with too many files the product overflows on the terminal *)
Theorem C107_too_many n f j k : (k < n)%nat -> N.of_nat k * 100 <= INT_MAX -> INT_MAX < (N.of_nat k + 1) * 100 -> shown cli_step (removing n f) j = UB.
Proof.
  intros Hk Hl Hu. unfold removing. cbn [shown cli_step rbind fst snd]. replace n with (k + Datatypes.S (n - k - 1))%nat at 2 by lia. rewrite repeat_app, <- app_assoc, shown_app.
  rewrite (counting (N.of_nat n) (RmRun (N.of_nat n) f) k 0); [|lia|reflexivity|lia]. cbn [rbind fst snd repeat app shown cli_step]. unfold hundred.
  destruct (N.ltb_spec INT_MAX ((0 + N.of_nat k + 1) * 100)) as [_|Z]; [reflexivity|lia].
Qed.
Print Assumptions C107_window_drop. Print Assumptions C107_too_many.
Example C107_window_drop_case : shown gui_step (removing 3 250) 70 = Ok (3, [0; 0; 0; 1; 0]).
Proof. vm_compute. reflexivity. Qed.
