(** C104: every message reaches every subscriber once and in order, up to 50 waiting ones. *)
From Verif Require Import Base BaseProofs StrModel LoggerModel.
From Coq Require Import Lia.

(** what a subscriber has been told *)
Definition told (s : nat) (l : list act) : list str := map snd (filter (fun e => fst e =? s) (l_out (run l))).
(** who subscribes: the last word on s is a subscription *)
Definition subscribed (s : nat) (l : list act) : Prop := exists a b, l = a ++ Sub s :: b /\ ~ In (Unsub s) b.
(** the messages of other threads since the last delivery *)
Fixpoint waiting (l : list act) (acc : list str) : list str :=
  match l with [] => acc | Log false v m :: t => waiting t (acc ++ [line_of v m]) | Loop :: t => waiting t [] | _ :: t => waiting t acc end.
Definition last_fifty (l : list str) : list str := skipn (length l - 50) l.

Lemma run_snoc l a : run (l ++ [a]) = step a (run l).
Proof. unfold run. rewrite fold_left_app. reflexivity. Qed.
Lemma waiting_snoc l a : forall acc, waiting (l ++ [a]) acc = waiting [a] (waiting l acc).
Proof. induction l as [|x l IH]; intro acc; [reflexivity|]. destruct x as [[] v m| | |]; cbn [app waiting]; apply IH. Qed.

Lemma trim_spec q : forall k, length q <= k -> trim k q = skipn (length q - 50) q.
Proof.
  induction q as [|x q IH]; intros k H; [destruct k; reflexivity|]. destruct k as [|k]; [cbn [length] in H; lia|]. cbn [trim].
  unfold MAX_BUFFER. destruct (Nat.ltb_spec 50 (length (x :: q))) as [B|B].
  - rewrite IH by (cbn [length] in H; lia). cbn [length] in *. replace (S (length q) - 50) with (S (length q - 50)) by lia. reflexivity.
  - replace (length (x :: q) - 50) with 0 by lia. reflexivity.
Qed.
Lemma skipn_twice (l : list str) : forall a b, skipn a (skipn b l) = skipn (b + a) l.
Proof. induction l as [|x l IH]; intros a b; [destruct a, b; reflexivity|]. destruct b as [|b]; [reflexivity|]. cbn [skipn Nat.add]. apply IH. Qed.
Lemma skipn_step (l : list str) x : skipn (length (skipn (length l - 50) l ++ [x]) - 50) (skipn (length l - 50) l ++ [x]) = skipn (length (l ++ [x]) - 50) (l ++ [x]).
Proof.
  rewrite !app_length, skipn_length. cbn [length]. destruct (Nat.le_gt_cases (length l) 49) as [H|H].
  - replace (length l - 50) with 0 by lia. cbn [skipn]. rewrite Nat.sub_0_r. reflexivity.
  - rewrite (skipn_app (length l + 1 - 50) l [x]). replace (length l + 1 - 50 - length l) with 0 by lia. cbn [skipn].
    rewrite (skipn_app _ (skipn (length l - 50) l) [x]), skipn_length. replace (length l - (length l - 50) + 1 - 50 - (length l - (length l - 50))) with 0 by lia. cbn [skipn].
    f_equal. rewrite skipn_twice. f_equal. lia.
Qed.
Lemma queue_is l : l_queue (run l) = last_fifty (waiting l []).
Proof.
  unfold last_fifty. induction l as [|a l IH] using rev_ind; [reflexivity|]. rewrite run_snoc, waiting_snoc. destruct a as [[] v m| |s|s]; cbn [step waiting].
  - exact IH.
  - cbn [l_queue]. rewrite (trim_spec _ _ (le_n _)). rewrite IH. apply skipn_step.
  - reflexivity.
  - destruct (existsb (Nat.eqb s) (l_subs (run l))); exact IH.
  - exact IH.
Qed.

Lemma erase_In s x l : NoDup l -> (In x (erase s l) <-> In x l /\ x <> s).
Proof.
  induction 1 as [|y l N ND IH]; [cbn; tauto|]. cbn [erase]. destruct (Nat.eqb_spec y s) as [->|E].
  - cbn [In]. split; [intro H; split; [right; exact H|intros ->; contradiction]|]. intros [[->|H] X]; [contradiction|exact H].
  - cbn [In]. rewrite IH. split; [intros [->|(H & X)]; [split; [left; reflexivity|exact E]|split; [right; exact H|exact X]]|].
    intros [[->|H] X]; [left; reflexivity|right; split; assumption].
Qed.
Lemma erase_NoDup s l : NoDup l -> NoDup (erase s l).
Proof.
  induction 1 as [|y l N ND IH]; [constructor|]. cbn [erase]. destruct (y =? s); [exact ND|]. constructor; [|exact IH]. rewrite (erase_In s y l ND). tauto.
Qed.
Lemma send_subs l : forall g, l_subs (fold_left (fun g m => send m g) l g) = l_subs g.
Proof. induction l as [|m l IH]; intro g; [reflexivity|]. cbn [fold_left]. rewrite IH. reflexivity. Qed.
Lemma subs_NoDup l : NoDup (l_subs (run l)).
Proof.
  induction l as [|a l IH] using rev_ind; [constructor|]. rewrite run_snoc. destruct a as [[] v m| |s|s]; cbn [step l_subs send]; try exact IH.
  - rewrite send_subs. exact IH.
  - destruct (existsb (Nat.eqb s) (l_subs (run l))) eqn:E; [exact IH|]. cbn [l_subs]. apply NoDup_rev in IH. rewrite <- (rev_involutive (l_subs (run l) ++ [s])).
    apply NoDup_rev. rewrite rev_app_distr. cbn [rev app]. constructor; [|exact IH]. rewrite <- in_rev. intro I.
    assert (X : existsb (Nat.eqb s) (l_subs (run l)) = true) by (apply existsb_exists; exists s; split; [exact I|apply Nat.eqb_refl]). rewrite X in E. discriminate E.
  - apply erase_NoDup. exact IH.
Qed.
Lemma subscribed_snoc s l a : subscribed s (l ++ [a]) <-> a = Sub s \/ (a <> Unsub s /\ subscribed s l).
Proof.
  split.
  - intros (x & y & E & N). destruct y as [|b y] using rev_ind.
    + apply app_inj_tail in E. left. exact (proj2 E).
    + clear IHy. rewrite app_comm_cons, app_assoc in E. apply app_inj_tail in E. destruct E as (-> & ->). right. split.
      * intros ->. apply N. apply in_app_iff. right; left; reflexivity.
      * exists x, y. split; [reflexivity|]. intro H. apply N. apply in_app_iff. left. exact H.
  - intros [->|(N & x & y & -> & M)].
    + exists l, []. split; [reflexivity|intros []].
    + exists x, (y ++ [a]). split; [rewrite <- app_assoc; reflexivity|]. intro H. apply in_app_iff in H. destruct H as [H|[H|[]]]; [contradiction|]. apply N. exact H.
Qed.
Lemma subs_are s l : In s (l_subs (run l)) <-> subscribed s l.
Proof.
  induction l as [|a l IH] using rev_ind; [split; [intros []|intros (x & y & E & _); destruct x; discriminate E]|]. rewrite run_snoc, subscribed_snoc.
  destruct a as [[] v m| |t|t]; cbn [step l_subs send].
  - rewrite IH. split; [intro H; right; split; [discriminate|exact H]|]. intros [H|(_ & H)]; [discriminate H|exact H].
  - rewrite IH. split; [intro H; right; split; [discriminate|exact H]|]. intros [H|(_ & H)]; [discriminate H|exact H].
  - rewrite send_subs, IH. split; [intro H; right; split; [discriminate|exact H]|]. intros [H|(_ & H)]; [discriminate H|exact H].
  - destruct (existsb (Nat.eqb t) (l_subs (run l))) eqn:E.
    + rewrite IH. split; [intro H; right; split; [discriminate|exact H]|]. intros [H|(_ & H)]; [|exact H]. injection H as ->.
      apply IH. apply existsb_exists in E. destruct E as (x & I & X). apply Nat.eqb_eq in X. subst x. exact I.
    + cbn [l_subs]. rewrite in_app_iff, IH. split.
      * intros [H|[->|[]]]; [right; split; [discriminate|exact H]|left; reflexivity].
      * intros [H|(_ & H)]; [right; left; injection H as ->; reflexivity|left; exact H].
  - rewrite (erase_In t s _ (subs_NoDup l)), IH. split.
    + intros (H & N). right. split; [intro E; injection E as ->; apply N; reflexivity|exact H].
    + intros [H|(N & H)]; [discriminate H|]. split; [exact H|]. intros ->. apply N. reflexivity.
Qed.

Lemma filter_sent s m subs : NoDup subs -> map snd (filter (fun e : nat * str => fst e =? s) (map (fun x => (x, m)) subs)) = if existsb (Nat.eqb s) subs then [m] else [].
Proof.
  induction 1 as [|x subs N ND IH]; [reflexivity|]. cbn [map filter fst existsb]. rewrite (Nat.eqb_sym s x). destruct (Nat.eqb_spec x s) as [->|E]; cbn [orb].
  - cbn [map snd]. f_equal. rewrite IH. assert (X : existsb (Nat.eqb s) subs = false); [|rewrite X; reflexivity].
    apply Bool.not_true_iff_false. intro X. apply existsb_exists in X. destruct X as (y & I & Y). apply Nat.eqb_eq in Y. subst y. contradiction.
  - exact IH.
Qed.
Lemma told_send s m g : NoDup (l_subs g) -> map snd (filter (fun e : nat * str => fst e =? s) (l_out (send m g))) =
  map snd (filter (fun e : nat * str => fst e =? s) (l_out g)) ++ if existsb (Nat.eqb s) (l_subs g) then [m] else [].
Proof. intro N. cbn [send l_out]. rewrite filter_app, map_app, (filter_sent s m _ N). reflexivity. Qed.
Lemma told_all s l : forall g, NoDup (l_subs g) -> map snd (filter (fun e : nat * str => fst e =? s) (l_out (fold_left (fun g m => send m g) l g))) =
  map snd (filter (fun e : nat * str => fst e =? s) (l_out g)) ++ if existsb (Nat.eqb s) (l_subs g) then l else [].
Proof.
  induction l as [|m l IH]; intros g N; cbn [fold_left]; [destruct (existsb (Nat.eqb s) (l_subs g)); rewrite app_nil_r; reflexivity|].
  rewrite IH by exact N. rewrite (told_send s m g N). cbn [send l_subs]. destruct (existsb (Nat.eqb s) (l_subs g)); rewrite <- app_assoc; reflexivity.
Qed.
Lemma is_sub s l : existsb (Nat.eqb s) (l_subs (run l)) = true <-> subscribed s l.
Proof.
  rewrite <- subs_are, existsb_exists. split; [intros (x & I & E); apply Nat.eqb_eq in E; subst x; exact I|intro I; exists s; split; [exact I|apply Nat.eqb_refl]].
Qed.

(** What each step tells a subscriber: a message of the creating thread at once; at every turn of the loop the last fifty messages of the other
    threads since the turn before, in their order; nothing otherwise. Who does not subscribe is told nothing. *)
Theorem C104_told s l :
  (subscribed s l ->
    (forall v m, told s (l ++ [Log true v m]) = told s l ++ [line_of v m]) /\
    told s (l ++ [Loop]) = told s l ++ last_fifty (waiting l [])) /\
  (~ subscribed s l -> forall a, told s (l ++ [a]) = told s l) /\
  (forall v m, told s (l ++ [Log false v m]) = told s l) /\
  (forall t, told s (l ++ [Sub t]) = told s l /\ told s (l ++ [Unsub t]) = told s l).
Proof.
  assert (K : forall a, match a with Log true _ _ => True | Loop => True | _ => told s (l ++ [a]) = told s l end).
  { intros [[] v m| |t|t]; try exact Logic.I; unfold told; rewrite run_snoc; cbn [step]; try reflexivity. destruct (existsb (Nat.eqb t) (l_subs (run l))); reflexivity. }
  assert (M : forall v m, told s (l ++ [Log true v m]) = told s l ++ if existsb (Nat.eqb s) (l_subs (run l)) then [line_of v m] else []).
  { intros v m. unfold told. rewrite run_snoc. cbn [step]. apply told_send. apply subs_NoDup. }
  assert (P : told s (l ++ [Loop]) = told s l ++ if existsb (Nat.eqb s) (l_subs (run l)) then last_fifty (waiting l []) else []).
  { unfold told. rewrite run_snoc. cbn [step l_out]. rewrite (told_all s _ _ (subs_NoDup l)), queue_is. reflexivity. }
  split; [|split; [|split]].
  - intro H. apply is_sub in H. rewrite H in P, M. split; [exact M|exact P].
  - intros H a. assert (F : existsb (Nat.eqb s) (l_subs (run l)) = false) by (apply Bool.not_true_iff_false; intro X; apply H, is_sub, X).
    rewrite F in P, M. destruct a as [[] v m| |t|t]; [rewrite M, app_nil_r; reflexivity|exact (K (Log false v m))|rewrite P, app_nil_r; reflexivity|exact (K (Sub t))|exact (K (Unsub t))].
  - intros v m. exact (K (Log false v m)).
  - intro t. split; [exact (K (Sub t))|exact (K (Unsub t))].
Qed.

(** the messages of other threads in a schedule, and how many of them wait between two turns of the loop *)
Definition from_threads (l : list act) : list str := flat_map (fun a => match a with Log false v m => [line_of v m] | _ => [] end) l.
Fixpoint calm (l : list act) (n : nat) : Prop :=
  match l with [] => n <= 50 | Log false _ _ :: t => calm t (S n) | Loop :: t => n <= 50 /\ calm t 0 | _ :: t => calm t n end.
(** messages of the creating thread *)
Definition from_main (l : list act) : Prop := exists v m, In (Log true v m) l.

Lemma calm_waiting l : forall acc, calm l (length acc) -> length (waiting l acc) <= 50.
Proof.
  induction l as [|a l IH]; intros acc C; [exact C|]. destruct a as [[] v m| |t|t]; cbn [waiting calm] in *.
  - apply IH, C.
  - apply IH. rewrite app_length. cbn [length]. rewrite Nat.add_1_r. exact C.
  - apply (IH []). exact (proj2 C).
  - apply IH, C.
  - apply IH, C.
Qed.
Lemma calm_snoc l a : forall n, calm (l ++ [a]) n -> calm l n.
Proof.
  induction l as [|x l IH]; intros n C; [destruct a as [[] v m| |t|t]; cbn [app calm] in *; lia|].
  destruct x as [[] v m| |t|t]; cbn [app calm] in *; try (apply IH; exact C). split; [exact (proj1 C)|apply IH; exact (proj2 C)].
Qed.

(** A subscriber that subscribes before and never unsubscribes is told every message of the other threads exactly once and in their order, at the
    latest with the next turn of the loop, if no more than fifty come in between two turns (and the creating thread itself logs nothing). *)
Theorem C104_complete s l : calm l 0 -> ~ In (Unsub s) l -> ~ from_main l ->
  told s (Sub s :: l ++ [Loop]) = from_threads l /\ told s (Sub s :: l) ++ waiting l [] = from_threads l.
Proof.
  intros C U M.
  assert (G : told s (Sub s :: l) ++ waiting l [] = from_threads l).
  { induction l as [|a l IH] using rev_ind; [reflexivity|].
    assert (IH' : told s (Sub s :: l) ++ waiting l [] = from_threads l).
    { apply IH; [apply (calm_snoc _ _ _ C)|intro H; apply U; apply in_app_iff; left; exact H|intros (v & m & H); apply M; exists v, m; apply in_app_iff; left; exact H]. }
    assert (S0 : subscribed s (Sub s :: l)) by (exists [], l; split; [reflexivity|intro H; apply U; apply in_app_iff; left; exact H]).
    assert (W : waiting (Sub s :: l) [] = waiting l []) by reflexivity.
    unfold from_threads in *. rewrite flat_map_app, <- IH', waiting_snoc, app_comm_cons. destruct (C104_told s (Sub s :: l)) as (T1 & _ & T3 & T4). destruct (T1 S0) as (_ & T2).
    destruct a as [[] v m| |t|t]; cbn [flat_map waiting app].
    - exfalso. apply M. exists v, m. apply in_app_iff. right; left; reflexivity.
    - change (told s (Sub s :: l ++ [Log false v m])) with (told s ((Sub s :: l) ++ [Log false v m])). rewrite T3, <- app_assoc. reflexivity.
    - change (told s (Sub s :: l ++ [Loop])) with (told s ((Sub s :: l) ++ [Loop])). rewrite T2, W. unfold last_fifty.
      assert (B : length (waiting l []) <= 50) by (apply (calm_waiting l []); apply (calm_snoc l Loop 0 C)).
      replace (length (waiting l []) - 50) with 0 by lia. cbn [skipn]. rewrite !app_nil_r. reflexivity.
    - change (told s (Sub s :: l ++ [Sub t])) with (told s ((Sub s :: l) ++ [Sub t])). rewrite (proj1 (T4 t)), app_nil_r. reflexivity.
    - change (told s (Sub s :: l ++ [Unsub t])) with (told s ((Sub s :: l) ++ [Unsub t])). rewrite (proj2 (T4 t)), app_nil_r. reflexivity. }
  split; [|exact G]. rewrite <- G, app_comm_cons. assert (S0 : subscribed s (Sub s :: l)) by (exists [], l; split; [reflexivity|exact U]).
  destruct (C104_told s (Sub s :: l)) as (T1 & _). destruct (T1 S0) as (_ & T2). rewrite T2. f_equal. unfold last_fifty.
  change (waiting (Sub s :: l) []) with (waiting l []). assert (B : length (waiting l []) <= 50) by (apply (calm_waiting l [] C)).
  replace (length (waiting l []) - 50) with 0 by lia. reflexivity.
Qed.

(** a schedule that meets the hypotheses *)
Example C104_case : calm [Log false Info (L "a"); Loop; Log false Error (L "b")] 0 /\ ~ In (Unsub 7) [Log false Info (L "a"); Loop; Log false Error (L "b")] /\
  ~ from_main [Log false Info (L "a"); Loop; Log false Error (L "b")] /\
  told 7 [Sub 7; Log false Info (L "a"); Loop; Log false Error (L "b"); Loop] = [line_of Info (L "a"); line_of Error (L "b")].
Proof. split; [cbn; lia|]. split; [intros [H|[H|[H|[]]]]; discriminate H|]. split; [|reflexivity]. intros (v & m & [H|[H|[H|[]]]]); discriminate H. Qed.

(** Fifty-one messages before the next turn of the loop: the first one is lost. *)
Theorem C104_lost_refuted : told 7 (Sub 7 :: Log false Error (L "first") :: repeat (Log false Info (L "m")) 50 ++ [Loop]) = repeat (line_of Info (L "m")) 50.
Proof. vm_compute. reflexivity. Qed.
(** A message of the creating thread overtakes one that waits. *)
Theorem C104_overtake_refuted : told 7 [Sub 7; Log false Info (L "first"); Log true Info (L "second"); Loop] = [line_of Info (L "second"); line_of Info (L "first")].
Proof. reflexivity. Qed.

(** flcards as it stands subscribes nobody (fltk/mainWindow.cxx:13-17) and does not start the loop (fltk/flcards.cxx:92-96): both lines are commented out. *)
Definition as_shipped (l : list act) : Prop := ~ In Loop l /\ forall s, ~ In (Sub s) l.
(** Then no message, not even the error of a failed job, reaches anyone, whatever the threads do. *)
Theorem C104_unshown_refuted l s : as_shipped l -> told s l = [].
Proof.
  intros (_ & N). induction l as [|a l IH] using rev_ind; [reflexivity|].
  assert (N' : forall t, ~ In (Sub t) l) by (intros t H; apply (N t); apply in_app_iff; left; exact H).
  destruct (C104_told s l) as (_ & T & _). rewrite T; [exact (IH N')|]. intros (x & y & E & _). apply (N' s). rewrite E. apply in_elt.
Qed.
(** Without the loop a subscriber is told the messages of the creating thread only. *)
Theorem C104_no_loop_refuted l s : ~ In Loop l -> ~ In (Unsub s) l ->
  told s (Sub s :: l) = flat_map (fun a => match a with Log true v m => [line_of v m] | _ => [] end) l.
Proof.
  induction l as [|a l IH] using rev_ind; intros NL NU; [reflexivity|].
  assert (IH' := IH (fun H => NL (in_or_app _ _ _ (or_introl H))) (fun H => NU (in_or_app _ _ _ (or_introl H)))).
  assert (S0 : subscribed s (Sub s :: l)) by (exists [], l; split; [reflexivity|intro H; apply NU; apply in_app_iff; left; exact H]).
  destruct (C104_told s (Sub s :: l)) as (T1 & _ & T3 & T4). destruct (T1 S0) as (T2 & _). rewrite flat_map_app, <- IH'.
  change (told s (Sub s :: l ++ [a])) with (told s ((Sub s :: l) ++ [a])). destruct a as [[] v m| |t|t]; cbn [flat_map].
  - apply T2.
  - rewrite T3, app_nil_r. reflexivity.
  - exfalso. apply NL. apply in_elt.
  - rewrite (proj1 (T4 t)), app_nil_r. reflexivity.
  - rewrite (proj2 (T4 t)), app_nil_r. reflexivity.
Qed.
Example C104_shipped_case : as_shipped [Log false Error (L "Exception occured during Sync thread : x"); Log false Info (L "Synchronization finished")].
Proof. split; [intros [H|[H|[]]]; discriminate H|intros s [H|[H|[]]]; discriminate H]. Qed.

(** the line of a message: the name of its level, a colon, the text and a newline, by either way *)
Theorem C104_text s m v : exists name, (v = Debug /\ name = L "Debug" \/ v = Error /\ name = L "Error" \/ v = Info /\ name = L "Info" \/ v = Warning /\ name = L "Warning") /\
  told s [Sub s; Log true v m] = [name ++ L " : " ++ m ++ [ascii_of_nat 10]] /\ told s [Sub s; Log false v m; Loop] = [name ++ L " : " ++ m ++ [ascii_of_nat 10]].
Proof.
  destruct v; [exists (L "Debug")|exists (L "Error")|exists (L "Info")|exists (L "Warning")]; (split; [tauto|]); unfold told, run; cbn [fold_left step empty_log l_queue l_subs l_out existsb app map send filter fst snd length trim flat_map];
    rewrite ?Nat.eqb_refl; split; cbn; rewrite ?Nat.eqb_refl; reflexivity.
Qed.
Print Assumptions C104_text.
