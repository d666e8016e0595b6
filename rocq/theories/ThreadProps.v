(** C105: the jobs of flcards exclude one another, end, and close their box, provided they are not refused; and the window is safe and never
    stuck for a user who waits for the threads. *)
From Verif Require Import Base BaseProofs MetaModel ThreadModel.
From Coq Require Import Lia.

(** a thread that fetches the index, or removes and installs packages, and has not ended *)
Definition changes (t : thread) : Prop := (t_job t = SyncJob \/ t_job t = GoJob) /\ t_rest t <> [].
Definition reached (root : bool) (s : st) : Prop := exists l, run root l init = Ok s.
(** the modal box is open although no job will close it *)
Definition stuck (s : st) : Prop := box s = true /\ forall t, In t (threads s) -> ~ changes t.
(** every thread has ended *)
Definition idle (s : st) : Prop := forall t, In t (threads s) -> t_rest t = [].

(* ---- lists ---- *)
Lemma nth_set_eq {A} (l : list A) : forall i x, i < length l -> nth_error (set_nth i x l) i = Some x.
Proof. induction l as [|y l IH]; intros [|i] x H; cbn [set_nth nth_error length] in *; try lia; [reflexivity|apply IH; lia]. Qed.
Lemma nth_set_other {A} (l : list A) : forall i k x, i <> k -> nth_error (set_nth i x l) k = nth_error l k.
Proof. induction l as [|y l IH]; intros [|i] [|k] x H; cbn [set_nth nth_error]; try reflexivity; try lia. apply IH. lia. Qed.
Lemma set_length {A} (l : list A) : forall i x, length (set_nth i x l) = length l.
Proof. induction l as [|y l IH]; intros [|i] x; cbn [set_nth length]; [reflexivity..|]. rewrite IH. reflexivity. Qed.
Lemma nth_lt {A} (l : list A) i x : nth_error l i = Some x -> i < length l.
Proof. intro H. apply nth_error_Some. rewrite H. discriminate. Qed.
Lemma nth_set {A} (l : list A) i k x y z : nth_error l i = Some z -> nth_error (set_nth i x l) k = Some y -> (k = i /\ y = x) \/ (k <> i /\ nth_error l k = Some y).
Proof.
  intros H E. destruct (Nat.eq_dec k i) as [->|N].
  - left. split; [reflexivity|]. rewrite (nth_set_eq l i x (nth_lt l i z H)) in E. injection E as ->. reflexivity.
  - right. split; [exact N|]. rewrite <- E. symmetry. apply nth_set_other. intro X. apply N. symmetry. exact X.
Qed.

(* ---- runs ---- *)
Lemma run_app root l1 : forall l2 s, run root (l1 ++ l2) s = match run root l1 s with Ok s' => run root l2 s' | Throw => Throw | UB => UB end.
Proof. induction l1 as [|m l1 IH]; intros l2 s; [reflexivity|]. cbn [app run]. destruct (step root m s) as [s'| |]; [apply IH|reflexivity|reflexivity]. Qed.
Lemma reached_step root m s s' : reached root s -> step root m s = Ok s' -> reached root s'.
Proof. intros (l & R) E. exists (l ++ [m]). rewrite run_app, R. cbn [run]. rewrite E. reflexivity. Qed.
Lemma reached_ind (P : st -> Prop) root : P init -> (forall m s s', reached root s -> P s -> step root m s = Ok s' -> P s') -> forall s, reached root s -> P s.
Proof.
  intros P0 PS s (l & R). revert s R. induction l as [|m l IH] using rev_ind; intros s R; [injection R as <-; exact P0|].
  rewrite run_app in R. destruct (run root l init) as [s1| |] eqn:E; try discriminate R. cbn [run] in R.
  destruct (step root m s1) as [s2| |] eqn:E2; try discriminate R. injection R as <-. apply (PS m s1 s2); [exists l; exact E|apply IH; reflexivity|exact E2].
Qed.

(* what an instruction does to the threads and to the box *)
Lemma exec_threads root c s s' : exec root c s = Ok s' -> ended s' = ended s /\
  (threads s' = threads s \/ c = LaunchRefresh /\ flag s = false /\ threads s' = threads s ++ [Th RefreshJob refresh_program]) /\
  box s' = match c with HideBox => false | _ => box s end.
Proof.
  destruct c; cbn [exec]; unfold list_jobs, launch; intro H;
    repeat match type of H with context [if ?b then _ else _] => destruct b eqn:?; try discriminate H | context [match ?b with Some _ => _ | None => _ end] => destruct b; try discriminate H end;
    injection H as <-; (split; [reflexivity|]); (split; [|reflexivity]); try (left; reflexivity).
  right. split; [reflexivity|]. split; reflexivity || assumption.
Qed.
Lemma flag_instr c : c = SetFlag \/ c = ClearFlag \/ (c <> SetFlag /\ c <> ClearFlag).
Proof. destruct c; (left; reflexivity) || (right; left; reflexivity) || (right; right; split; discriminate). Qed.
Lemma exec_flag root c s s' : exec root c s = Ok s' -> c <> SetFlag /\ c <> ClearFlag -> flag s' = flag s.
Proof.
  intros H (N1 & N2). destruct c; try (destruct (N1 eq_refl)); try (destruct (N2 eq_refl)); cbn [exec] in H; unfold list_jobs, launch in H;
    repeat match type of H with context [if ?b then _ else _] => destruct b eqn:?; try discriminate H | context [match ?b with Some _ => _ | None => _ end] => destruct b; try discriminate H end;
    injection H as <-; reflexivity || assumption.
Qed.
Lemma act_threads root u s s' : act root u s = Ok s' ->
  s' = s \/
  (box s = false /\ ended s = false /\
   ((exists j, (j = InfoJob -> box s' = false) /\ (j = SyncJob \/ j = GoJob -> box s' = true) /\ j <> RefreshJob /\ ended s' = false /\
       (threads s' = threads s /\ flag s = true \/ flag s = false /\ threads s' = threads s ++ [Th j (program root j)]) /\ flag s' = flag s) \/
    (threads s' = threads s /\ box s' = box s /\ flag s' = flag s /\ (ended s' = false \/ flag s = false)))).
Proof.
  unfold act. destruct (box s) eqn:B; [intro H; injection H as <-; left; reflexivity|]. destruct (ended s) eqn:N; [intro H; injection H as <-; left; reflexivity|]. cbn [orb].
  destruct u as [| |any| | |].
  - intro H. injection H as <-. right. split; [reflexivity|]. split; [reflexivity|]. left. exists SyncJob. unfold launch.
    split; [discriminate|]. split; [intros _; destruct (flag s); reflexivity|]. split; [discriminate|].
    destruct (flag s) eqn:F; cbn [set_box set_threads ended threads flag box]; (split; [exact N || reflexivity|]); (split; [|exact F || reflexivity]); [left; split; reflexivity|right; split; reflexivity].
  - destruct (active s); intro H; injection H as <-; [|left; reflexivity]. right. split; [reflexivity|]. split; [reflexivity|]. left. exists GoJob. unfold launch.
    split; [discriminate|]. split; [intros _; destruct (flag s); reflexivity|]. split; [discriminate|].
    destruct (flag s) eqn:F; cbn [set_box set_threads ended threads flag box]; (split; [exact N || reflexivity|]); (split; [|exact F || reflexivity]); [left; split; reflexivity|right; split; reflexivity].
  - destruct (row_gen s) as [g|]; [|intro H; injection H as <-; left; reflexivity]. destruct (row_ok s); [|discriminate].
    unfold list_jobs. cbn [filling]. destruct (filling s); [discriminate|]. intro H. injection H as <-. right. split; [reflexivity|]. split; [reflexivity|]. left. exists InfoJob.
    unfold launch. cbn [flag]. destruct (flag s) eqn:F; cbn [set_threads ended threads flag box];
      (split; [intros _; exact B || reflexivity|]); (split; [intros [X|X]; discriminate X|]); (split; [discriminate|]); (split; [exact N || reflexivity|]); (split; [|exact F || reflexivity]); [left; split; reflexivity|right; split; reflexivity].
  - destruct (row_gen s) as [g|]; [|intro H; injection H as <-; left; reflexivity]. destruct (row_ok s); [|discriminate].
    intro H. injection H as <-. right. split; [reflexivity|]. split; [reflexivity|]. left. exists InfoJob.
    unfold launch. destruct (flag s) eqn:F; cbn [set_threads ended threads flag box];
      (split; [intros _; exact B || reflexivity|]); (split; [intros [X|X]; discriminate X|]); (split; [discriminate|]); (split; [exact N || reflexivity|]); (split; [|exact F || reflexivity]); [left; split; reflexivity|right; split; reflexivity].
  - destruct (filling s); [discriminate|]. intro H. injection H as <-. right. split; [reflexivity|]. split; [reflexivity|]. right. cbn [threads box flag ended].
    split; [reflexivity|]. split; [exact B || reflexivity|]. split; [reflexivity|left; exact N || reflexivity].
  - destruct (flag s) eqn:F; intro H; injection H as <-; [left; reflexivity|]. right. split; [reflexivity|]. split; [reflexivity|]. right. cbn [threads box flag ended].
    split; [reflexivity|]. split; [exact B || reflexivity|]. split; [exact F || reflexivity|right; reflexivity].
Qed.

(* ---- every thread is at some point of its program ---- *)
Definition at_point (root : bool) (t : thread) : Prop := exists done, program root (t_job t) = done ++ t_rest t.
Definition good (root : bool) (s : st) : Prop :=
  (forall i t, nth_error (threads s) i = Some t -> at_point root t) /\
  (forall i k t u, nth_error (threads s) i = Some t -> nth_error (threads s) k = Some u -> changes t -> changes u -> i = k) /\
  (forall i t, nth_error (threads s) i = Some t -> changes t -> box s = true /\ ended s = false) /\
  (flag s = true -> exists i t, nth_error (threads s) i = Some t /\ In ClearFlag (t_rest t)).

Lemma at_next root j c r : at_point root (Th j (c :: r)) -> at_point root (Th j r).
Proof. intros (d & E). exists (d ++ [c]). cbn [t_job t_rest] in *. rewrite <- app_assoc. exact E. Qed.
(* HideBox is the last instruction of exactly the two jobs *)
Ltac points E d := repeat (destruct d as [|? d]; [cbn [app] in E; try discriminate E|cbn [app] in E; injection E as _ E || discriminate E]).
Lemma hide_last root j c r : at_point root (Th j (c :: r)) -> (j = SyncJob \/ j = GoJob) -> (c = HideBox <-> r = []).
Proof.
  intros (d & E) J. cbn [t_job t_rest] in E.
  assert (X : exists l, program root j = l ++ [HideBox] /\ ~ In HideBox l).
  { destruct J as [-> | ->]; destruct root.
    - exists [SetFlag; Work; ClearFlag; LaunchRefresh]. split; [reflexivity|]. cbn [In]. intuition discriminate.
    - exists [SetFlag; ClearFlag]. split; [reflexivity|]. cbn [In]. intuition discriminate.
    - exists [SetFlag; BeginRead; ReadJobs; EndRead; Work; SetFlag; DeleteList; FillList; ShowTable; ClearFlag; ListJobs; ClearFlag]. split; [reflexivity|]. cbn [In]. intuition discriminate.
    - exists [SetFlag; ListJobs; ClearFlag]. split; [reflexivity|]. cbn [In]. intuition discriminate. }
  destruct X as (l & P & N). rewrite P in E. destruct r as [|x r _] using rev_ind.
  - apply app_inj_tail in E. destruct E as (_ & E). split; [reflexivity|]. intros _. symmetry. exact E.
  - rewrite app_comm_cons, app_assoc in E. apply app_inj_tail in E. destruct E as (E & _). split; [|intro H; destruct r; discriminate H].
    intros ->. exfalso. apply N. rewrite E. apply in_elt.
Qed.
Lemma no_hide root j c r : at_point root (Th j (c :: r)) -> ~ (j = SyncJob \/ j = GoJob) -> c <> HideBox /\ c <> LaunchRefresh.
Proof.
  intros (d & E) J. cbn [t_job t_rest] in E. assert (I : In c (program root j)) by (rewrite E; apply in_elt).
  destruct j; [| |exfalso; apply J; left; reflexivity|exfalso; apply J; right; reflexivity]; cbn in I;
    repeat (destruct I as [<-|I]; [split; discriminate|]); destruct I.
Qed.
Lemma set_then_clear root j r : at_point root (Th j (SetFlag :: r)) -> In ClearFlag r.
Proof.
  intros (d & E). cbn [t_job t_rest] in E.
  destruct j; [| |destruct root|destruct root]; cbn in E;
    repeat (destruct d as [|? d]; cbn [app] in E; [solve [discriminate E | injection E as <-; cbn [In]; tauto]|injection E as _ E || discriminate E]).
Qed.

Lemma good_init root : good root init.
Proof.
  assert (T : forall i t, nth_error (threads init) i = Some t -> t = Th RefreshJob refresh_program).
  { intros [|[|i]] t H; [injection H as <-; reflexivity|discriminate H|discriminate H]. }
  split; [|split; [|split]].
  - intros i t H. rewrite (T i t H). exists []. reflexivity.
  - intros i k t u H _ C _. rewrite (T i t H) in C. destruct C as ([X|X] & _); discriminate X.
  - intros i t H C. rewrite (T i t H) in C. destruct C as ([X|X] & _); discriminate X.
  - discriminate.
Qed.
Lemma changes_dec t : changes t \/ ~ changes t.
Proof.
  unfold changes. destruct (t_rest t) as [|c r]; [right; intros (_ & X); apply X; reflexivity|].
  destruct (t_job t); [right; intros ([X|X] & _); discriminate X|right; intros ([X|X] & _); discriminate X|left|left]; (split; [|discriminate]); [left|right]; reflexivity.
Qed.
Lemma good_step root m s s' : good root s -> step root m s = Ok s' -> good root s'.
Proof.
  intros (G1 & G2 & G3 & G4) H. destruct m as [u|i].
  - cbn [step] in H. apply act_threads in H. destruct H as [->|(B & N & [(j & J1 & J2 & J3 & N' & T & F)|(T & B' & F & N')])]; [split; [|split; [|split]]; assumption| |].
    + assert (NC : forall i t, nth_error (threads s) i = Some t -> ~ changes t) by (intros i t E C; destruct (G3 i t E C) as (X & _); rewrite X in B; discriminate B).
      destruct T as [(T & FT)|(FF & T)].
      * rewrite <- T in *. split; [exact G1|]. split; [exact G2|]. split; [intros i t E C; destruct (NC i t E C)|]. rewrite F. exact G4.
      * assert (K : forall i t, nth_error (threads s') i = Some t -> nth_error (threads s) i = Some t \/ (i = length (threads s) /\ t = Th j (program root j))).
        { intros i t E. rewrite T in E. destruct (Nat.lt_ge_cases i (length (threads s))) as [X|X].
          - rewrite nth_error_app1 in E by exact X. left. exact E.
          - rewrite nth_error_app2 in E by exact X. right. destruct (i - length (threads s)) as [|[|k]] eqn:Y; [|discriminate E|discriminate E]. injection E as <-. split; [lia|reflexivity]. }
        split; [|split; [|split]].
        -- intros i t E. destruct (K i t E) as [E'|(_ & ->)]; [apply (G1 i t E')|exists []; reflexivity].
        -- intros i k t u' E1 E2 C1 C2. destruct (K i t E1) as [E'|(-> & _)]; [destruct (NC i t E' C1)|]. destruct (K k u' E2) as [E'|(-> & _)]; [destruct (NC k u' E' C2)|reflexivity].
        -- intros i t E C. destruct (K i t E) as [E'|(-> & ->)]; [destruct (NC i t E' C)|]. split; [apply J2; exact (proj1 C)|exact N'].
        -- rewrite F, FF. discriminate.
    + rewrite <- T in *. split; [exact G1|]. split; [exact G2|]. split.
      * intros i t E C. exfalso. destruct (G3 i t E C) as (X & _). rewrite X in B. discriminate B.
      * rewrite F. exact G4.
  - cbn [step] in H. destruct (ended s) eqn:N; [injection H as <-; split; [|split; [|split]]; try assumption|].
    { intros k t E C. destruct (G3 k t E C) as (_ & X). discriminate X. }
    destruct (nth_error (threads s) i) as [[j [|c r]]|] eqn:E; [injection H as <-; split; [|split; [|split]]; try assumption| |injection H as <-; split; [|split; [|split]]; try assumption].
    { rewrite N. exact G3. } 2: { rewrite N. exact G3. }
    assert (P := G1 i _ E). set (s0 := set_threads (set_nth i (Th j r) (threads s)) s) in *.
    pose proof (exec_threads root c s0 s' H) as (N' & T & B).
    assert (K : forall k t, nth_error (threads s') k = Some t -> (k = i /\ t = Th j r) \/ (k <> i /\ nth_error (threads s) k = Some t) \/ t = Th RefreshJob refresh_program).
    { intros k t E1. assert (L0 : length (threads s0) = length (threads s)) by (cbn [s0 set_threads threads]; apply set_length).
      assert (Z : nth_error (threads s0) k = Some t \/ t = Th RefreshJob refresh_program).
      { destruct T as [T|(_ & _ & T)]; rewrite T in E1; [left; exact E1|]. destruct (Nat.lt_ge_cases k (length (threads s0))) as [X|X].
        - rewrite nth_error_app1 in E1 by exact X. left. exact E1.
        - rewrite nth_error_app2 in E1 by exact X. right. destruct (k - length (threads s0)) as [|[|k']]; [injection E1 as <-; reflexivity|discriminate E1|discriminate E1]. }
      destruct Z as [Z|Z]; [|right; right; exact Z]. cbn [s0 set_threads threads] in Z. destruct (nth_set _ _ _ _ _ _ E Z) as [Q|Q]; [left; exact Q|right; left; exact Q]. }
    assert (NR : ~ changes (Th RefreshJob refresh_program)) by (intros ([X|X] & _); discriminate X).
    assert (CI : changes (Th j r) -> changes (Th j (c :: r))) by (intros (X & _); split; [exact X|discriminate]).
    split; [|split; [|split]].
    + intros k t E1. destruct (K k t E1) as [(_ & ->)|[(_ & E2)| ->]]; [apply (at_next root j c r P)|apply (G1 k t E2)|exists []; reflexivity].
    + intros k1 k2 t u E1 E2 C1 C2.
      destruct (K k1 t E1) as [(-> & ->)|[(N1 & F1)| ->]]; [| |destruct (NR C1)]; (destruct (K k2 u E2) as [(-> & ->)|[(N2 & F2)| ->]]; [| |destruct (NR C2)]).
      * reflexivity.
      * apply (G2 i k2 _ u E F2 (CI C1) C2).
      * apply (G2 k1 i t _ F1 E C1 (CI C2)).
      * apply (G2 k1 k2 t u F1 F2 C1 C2).
    + intros k t E1 C. rewrite N'. cbn [s0 set_threads ended]. split; [|exact N]. rewrite B. cbn [s0 set_threads box].
      destruct (K k t E1) as [(-> & ->)|[(N1 & F1)| ->]]; [| |destruct (NR C)].
      * assert (X : c <> HideBox) by (intro X; destruct C as (J & R); apply R; apply (proj1 (hide_last root j c r P J)); exact X).
        destruct (G3 i _ E (CI C)) as (Y & _). destruct c; try exact Y. destruct (X eq_refl).
      * assert (X : c <> HideBox).
        { intro X. assert (J : ~ (j = SyncJob \/ j = GoJob)).
          { intro J. apply N1. apply (G2 k i t _ F1 E C). split; [exact J|discriminate]. }
          apply (proj1 (no_hide root j c r P J)). exact X. }
        destruct (G3 k t F1 C) as (Y & _). destruct c; try exact Y. destruct (X eq_refl).
    + intro F. destruct (flag_instr c) as [->|[->|X]].
      * exists i, (Th j r). split; [|cbn [t_rest]; apply (set_then_clear root j r P)]. cbn [exec] in H. injection H as <-. cbn [set_flag set_threads s0 threads].
        apply nth_set_eq. apply (nth_lt _ _ _ E).
      * cbn [exec] in H. injection H as <-. cbn [set_flag flag] in F. discriminate F.
      * rewrite (exec_flag root c s0 s' H X) in F. cbn [s0 set_threads flag] in F. destruct (G4 F) as (k & t & E1 & I1).
        assert (Y : exists t', nth_error (threads s0) k = Some t' /\ In ClearFlag (t_rest t')).
        { cbn [s0 set_threads threads]. destruct (Nat.eq_dec k i) as [->|NK].
          - rewrite E in E1. injection E1 as <-. exists (Th j r). cbn [t_rest] in *. destruct I1 as [Z|I1]; [destruct (proj2 X Z)|]. split; [|exact I1].
            apply nth_set_eq. apply (nth_lt _ _ _ E).
          - exists t. split; [|exact I1]. rewrite nth_set_other by (intro Z; apply NK; symmetry; exact Z). exact E1. }
        destruct Y as (t' & Y1 & Y2). exists k, t'. split; [|exact Y2]. destruct T as [T|(_ & _ & T)]; rewrite T; [exact Y1|]. rewrite nth_error_app1; [exact Y1|apply (nth_lt _ _ _ Y1)].
Qed.
Lemma reached_good root s : reached root s -> good root s.
Proof. apply (reached_ind (good root) root (good_init root)). intros m s1 s2 _ G H. apply (good_step root m s1 s2 G H). Qed.

(** Whatever the user does and however the threads are scheduled: never are two jobs that change the system under way at the same time; while one
    is, the modal box is open, so that the user can start nothing else; and the program does not end before it has. *)
Theorem C105_exclusive root s : reached root s ->
  (forall i k t u, nth_error (threads s) i = Some t -> nth_error (threads s) k = Some u -> changes t -> changes u -> i = k) /\
  (forall i t, nth_error (threads s) i = Some t -> changes t -> box s = true /\ ended s = false /\ forall u, act root u s = Ok s).
Proof.
  intro R. destruct (reached_good root s R) as (_ & G2 & G3 & _). split; [exact G2|]. intros i t E C. destruct (G3 i t E C) as (B & N). split; [exact B|]. split; [exact N|].
  intro u. unfold act. rewrite B. reflexivity.
Qed.

(** The box is closed by the end of its job, and by nothing else. *)
Theorem C105_box root s m s' : reached root s -> step root m s = Ok s' -> (exists t, In t (threads s) /\ changes t) ->
  (box s' = true <-> exists t, In t (threads s') /\ changes t).
Proof.
  intros R H (t & I & C). assert (R' := reached_step root m s s' R H). destruct (reached_good root s' R') as (_ & _ & G3' & _).
  split; [|intros (t' & I' & C'); apply In_nth_error in I'; destruct I' as (k & E'); apply (G3' k t' E' C')].
  intro B'. destruct (reached_good root s R) as (G1 & G2 & G3 & _). apply In_nth_error in I. destruct I as (i & E). destruct (G3 i t E C) as (B & N).
  destruct m as [u|k]; [cbn [step] in H; unfold act in H; rewrite B in H; cbn [orb] in H; injection H as <-; exists t; split; [apply (nth_error_In _ _ E)|exact C]|].
  cbn [step] in H. rewrite N in H. destruct (nth_error (threads s) k) as [[j [|c r]]|] eqn:E2;
    [injection H as <-; exists t; split; [apply (nth_error_In _ _ E)|exact C]| |injection H as <-; exists t; split; [apply (nth_error_In _ _ E)|exact C]].
  pose proof (exec_threads _ _ _ _ H) as (_ & T & B2). set (s0 := set_threads (set_nth k (Th j r) (threads s)) s) in *.
  assert (IN : forall x, In x (threads s0) -> In x (threads s')) by (intros x X; destruct T as [T|(_ & _ & T)]; rewrite T; [exact X|apply in_app_iff; left; exact X]).
  destruct (Nat.eq_dec i k) as [->|NK].
  - rewrite E in E2. injection E2 as ->. exists (Th j r). split.
    + apply IN. cbn [s0 set_threads threads]. apply (nth_error_In _ k). apply nth_set_eq. apply (nth_lt _ _ _ E).
    + destruct C as (J & _). split; [exact J|]. cbn [t_rest t_job] in *. intro X. apply (hide_last root j c r (G1 k _ E) J) in X. rewrite X in B2. rewrite B2 in B'. discriminate B'.
  - exists t. split; [|exact C]. apply IN. cbn [s0 set_threads threads]. apply (nth_error_In _ i). rewrite nth_set_other by (intro X; apply NK; symmetry; exact X). exact E.
Qed.

(** Pressing Sync, or Go when it is active: the job is started if no job says that it is running; otherwise it is refused, and the box is open and stuck. *)
Theorem C105_press root s u : reached root s -> box s = false -> ended s = false -> u = PressSync \/ (u = PressGo /\ active s = true) ->
  exists s', act root u s = Ok s' /\ box s' = true /\
    (flag s = false -> exists t, In t (threads s') /\ changes t) /\ (flag s = true -> stuck s').
Proof.
  intros R B N U. assert (NC : forall t, In t (threads s) -> ~ changes t).
  { intros t I C. apply In_nth_error in I. destruct I as (i & E). destruct (proj1 (proj2 (proj2 (reached_good root s R))) i t E C) as (X & _). rewrite X in B. discriminate B. }
  assert (K : exists j, (j = SyncJob \/ j = GoJob) /\ act root u s = Ok (set_box true (launch root j s))).
  { destruct U as [-> |(-> & A)]; unfold act; rewrite B, N; cbn [orb]; [exists SyncJob; split; [left; reflexivity|reflexivity]|exists GoJob; rewrite A; split; [right; reflexivity|reflexivity]]. }
  destruct K as (j & J & E). exists (set_box true (launch root j s)). split; [exact E|]. split; [reflexivity|]. unfold launch. split; intro F; rewrite F; cbn [set_box set_threads threads].
  - exists (Th j (program root j)). split; [apply in_app_iff; right; left; reflexivity|]. split; [exact J|]. destruct J as [-> | ->]; discriminate.
  - split; [reflexivity|exact NC].
Qed.

(** A stuck box stays, whatever happens: the program can only be killed. *)
Theorem C105_forever root s l s' : reached root s -> stuck s -> run root l s = Ok s' -> stuck s' /\ ended s' = ended s.
Proof.
  revert s. induction l as [|m l IH]; intros s R (B & NC) H; [injection H as <-; split; [split; assumption|reflexivity]|].
  cbn [run] in H. destruct (step root m s) as [s1| |] eqn:E; try discriminate H.
  assert (X : stuck s1 /\ ended s1 = ended s).
  { destruct m as [u|i].
    - cbn [step] in E. unfold act in E. rewrite B in E. cbn [orb] in E. injection E as <-. split; [split; assumption|reflexivity].
    - cbn [step] in E. destruct (ended s) eqn:N; [injection E as <-; split; [split; assumption|exact N]|].
      destruct (nth_error (threads s) i) as [[j [|c r]]|] eqn:E2; [injection E as <-; split; [split; assumption|exact N]| |injection E as <-; split; [split; assumption|exact N]].
      assert (J : ~ (j = SyncJob \/ j = GoJob)) by (intro J; apply (NC _ (nth_error_In _ _ E2)); split; [exact J|discriminate]).
      destruct (no_hide root j c r (proj1 (reached_good root s R) i _ E2) J) as (N1 & N2).
      pose proof (exec_threads _ _ _ _ E) as (N' & T & B2). split; [|rewrite N'; exact N]. split.
      + rewrite B2. destruct c; try exact B. destruct (N1 eq_refl).
      + intros t I C. destruct T as [T|(X & _)]; [|destruct (N2 X)]. rewrite T in I. cbn [set_threads threads] in I. apply In_nth_error in I. destruct I as (k & E3).
        destruct (nth_set _ _ _ _ _ _ E2 E3) as [(-> & ->)|(_ & E4)]; [apply J; exact (proj1 C)|apply (NC t (nth_error_In _ _ E4) C)]. }
  destruct X as (X1 & X2). rewrite <- X2. apply (IH s1 (reached_step root m s s1 R E) X1 H).
Qed.

(** No job says that it is running once every thread has ended, so that nothing is refused then. *)
Theorem C105_free root s : reached root s -> idle s -> flag s = false.
Proof.
  intros R I. destruct (flag s) eqn:F; [|reflexivity]. exfalso. destruct (proj2 (proj2 (proj2 (reached_good root s R))) F) as (i & t & E & X).
  rewrite (I t (nth_error_In _ _ E)) in X. destruct X.
Qed.

(** Every thread ends after the number of turns its program has instructions left (at most 13), whatever else happens in between. *)
Definition turns (i : nat) (l : list move) : nat := length (filter (fun m => match m with Turn k => k =? i | _ => false end) l).
Theorem C105_ends root l : forall s s' i t, run root l s = Ok s' -> ended s' = false -> nth_error (threads s) i = Some t ->
  exists t', nth_error (threads s') i = Some t' /\ t_job t' = t_job t /\ length (t_rest t') = length (t_rest t) - turns i l.
Proof.
  induction l as [|m l IH]; intros s s' i t H N E; [injection H as <-; exists t; split; [exact E|]; split; [reflexivity|cbn; lia]|].
  cbn [run] in H. destruct (step root m s) as [s1| |] eqn:E1; try discriminate H.
  assert (NE : forall l0 a b, run root l0 a = Ok b -> ended a = true -> ended b = true).
  { clear. induction l0 as [|m l0 IH]; intros a b H X; [injection H as <-; exact X|]. cbn [run] in H.
    assert (Y : step root m a = Ok a) by (destruct m as [u|k]; cbn [step]; [unfold act; rewrite X, Bool.orb_true_r|rewrite X]; reflexivity). rewrite Y in H. apply (IH a b H X). }
  assert (N0 : ended s = false).
  { destruct (ended s) eqn:X; [|reflexivity]. exfalso. assert (Y : step root m s = Ok s) by (destruct m as [u|k]; cbn [step]; [unfold act; rewrite X, Bool.orb_true_r|rewrite X]; reflexivity).
    rewrite Y in E1. injection E1 as <-. rewrite (NE l s s' H X) in N. discriminate N. }
  assert (X : exists t1, nth_error (threads s1) i = Some t1 /\ t_job t1 = t_job t /\ length (t_rest t1) = length (t_rest t) - turns i [m]).
  { destruct m as [u|k].
    - exists t. split; [|split; [reflexivity|cbn; lia]]. cbn [step] in E1. apply act_threads in E1.
      destruct E1 as [->|(_ & _ & [(j & _ & _ & _ & _ & [(T & _)|(_ & T)] & _)|(T & _)])]; [exact E|rewrite T; exact E| |rewrite T; exact E].
      rewrite T. rewrite nth_error_app1; [exact E|apply (nth_lt _ _ _ E)].
    - cbn [step] in E1. rewrite N0 in E1. unfold turns. cbn [filter].
      destruct (nth_error (threads s) k) as [[j [|c r]]|] eqn:E2.
      + injection E1 as <-. exists t. split; [exact E|]. split; [reflexivity|]. destruct (Nat.eqb_spec k i) as [->|]; [|cbn [length]; lia].
        rewrite E in E2. injection E2 as ->. reflexivity.
      + pose proof (exec_threads _ _ _ _ E1) as (_ & T & _). cbn [set_threads threads] in T.
        assert (Z : forall t', nth_error (set_nth k (Th j r) (threads s)) i = Some t' -> nth_error (threads s1) i = Some t').
        { intros t' Z. destruct T as [T|(_ & _ & T)]; rewrite T; [exact Z|]. rewrite nth_error_app1; [exact Z|apply (nth_lt _ _ _ Z)]. }
        destruct (Nat.eqb_spec k i) as [->|NK].
        * rewrite E in E2. injection E2 as ->. exists (Th j r). split; [apply Z, nth_set_eq, (nth_lt _ _ _ E)|]. split; [reflexivity|]. cbn [t_rest length]. lia.
        * exists t. split; [apply Z; rewrite nth_set_other by exact NK; exact E|]. split; [reflexivity|cbn [length]; lia].
      + injection E1 as <-. exists t. split; [exact E|]. split; [reflexivity|]. destruct (Nat.eqb_spec k i) as [->|]; [|cbn [length]; lia]. rewrite E in E2. discriminate E2. }
  destruct X as (t1 & X1 & X2 & X3). destruct (IH s1 s' i t1 H N X1) as (t' & Y1 & Y2 & Y3). exists t'. split; [exact Y1|]. split; [congruence|].
  rewrite Y3, X3. assert (TT : turns i (m :: l) = turns i [m] + turns i l) by (unfold turns; cbn [filter]; destruct (match m with Turn k => k =? i | _ => false end); reflexivity). lia.
Qed.
Lemma program_length root j : length (program root j) <= 13.
Proof. destruct j, root; cbn; lia. Qed.
