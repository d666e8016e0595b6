(** C105: a session that meets the hypotheses, and the schedules that go wrong. *)
From Verif Require Import Base MetaModel ThreadModel ThreadProps ThreadPatient.

Definition t_loaded : list move := repeat (Turn 0) 5.
(** choosing, waiting, Go and waiting for its end, Sync and waiting for the list *)
Definition t_session : list move :=
  t_loaded ++ [User (Pick true)] ++ repeat (Turn 1) 4 ++ [User PressGo] ++ repeat (Turn 2) 13 ++ [User PressSync] ++ repeat (Turn 3) 5 ++ repeat (Turn 4) 5 ++ [User Close].
Fixpoint patientb (root : bool) (l : list move) (s : st) : bool :=
  match l with
  | [] => true
  | m :: t => match m with User _ => forallb (fun x => match t_rest x with [] => true | _ => false end) (threads s) | Turn _ => true end &&
              match step root m s with Ok s' => patientb root t s' | _ => true end
  end.
Lemma patientb_sound root l : forall s, patientb root l s = true -> patient root l s.
Proof.
  induction l as [|m l IH]; intros s H; [exact Logic.I|]. cbn [patientb patient] in *. apply Bool.andb_true_iff in H. destruct H as (H1 & H2). split.
  - destruct m as [u|i]; [|exact Logic.I]. intros t I. rewrite forallb_forall in H1. specialize (H1 t I). destruct (t_rest t); [reflexivity|discriminate H1].
  - intros s' E. rewrite E in H2. apply IH, H2.
Qed.
Example C105_case : patient true t_session init /\ careful true false t_session /\ exists s, run true t_session init = Ok s /\ ended s = true /\ gen s = 3.
Proof.
  split; [|split].
  - apply patientb_sound. vm_compute. reflexivity.
  - cbn. split; [reflexivity|exact Logic.I].
  - eexists. split; [vm_compute; reflexivity|]. split; reflexivity.
Qed.

Fixpoint watchfulb (root : bool) (l : list move) (s : st) : bool :=
  match l with
  | [] => true
  | m :: t => match m with User _ => negb (box s) && negb (flag s) && forallb (fun x => negb (Nat.eqb (length (t_rest x)) (length (program root (t_job x))))) (threads s) | Turn _ => true end &&
              match step root m s with Ok s' => watchfulb root t s' | _ => true end
  end.
Lemma watchfulb_sound root l : forall s, watchfulb root l s = true -> watchful root l s.
Proof.
  induction l as [|m l IH]; intros s H; [exact Logic.I|]. cbn [watchfulb watchful] in *. apply Bool.andb_true_iff in H. destruct H as (H1 & H2). split.
  - destruct m as [u|i]; [|exact Logic.I]. apply Bool.andb_true_iff in H1. destruct H1 as (H1 & H3). apply Bool.andb_true_iff in H1. destruct H1 as (H1 & H4). apply Bool.negb_true_iff in H1, H4. split; [exact H1|]. split; [exact H4|].
    intros t I E. rewrite forallb_forall in H3. specialize (H3 t I). rewrite E, Nat.eqb_refl in H3. discriminate H3.
  - intros s' E. rewrite E in H2. apply IH, H2.
Qed.
Example C105_watchful_case : watchful true t_session init.
Proof. apply watchfulb_sound. vm_compute. reflexivity. Qed.

(** Pressing Sync while the list of packages is still being read (at the start, or after a Sync or a Go): the job is refused, but its box is open; it
    can never be closed again, and the window takes no other action: flcards has to be killed. *)
Theorem C105_hang_refuted root : exists s, run root [Turn 0; User PressSync] init = Ok s /\ stuck s /\
  forall l s', run root l s = Ok s' -> box s' = true /\ ended s' = false /\ forall u, act root u s' = Ok s'.
Proof.
  assert (R : run root [Turn 0; User PressSync] init = Ok (St true [Th RefreshJob [DeleteList; FillList; ShowTable; ClearFlag]] true 0 false 0 false None None false false)) by reflexivity.
  eexists. split; [exact R|]. match goal with |- stuck ?x /\ _ => set (s := x) in * end.
  assert (ST : stuck s) by (split; [reflexivity|]; intros t [<-|[]] ([X|X] & _); discriminate X). split; [exact ST|].
  intros l s' H. destruct (C105_forever root s l s' (ex_intro _ _ R) ST H) as ((B & _) & N). split; [exact B|]. split; [exact N|]. intro u. unfold act. rewrite B. reflexivity.
Qed.
(** The same when a click on a row is still looking for its description. *)
Theorem C105_hang_info_refuted root : exists s, run root (t_loaded ++ [User Look; Turn 1; User PressSync]) init = Ok s /\ stuck s.
Proof. destruct root; (eexists; split; [vm_compute; reflexivity|]; split; [reflexivity|]; intros t [<-|[<-|[]]] ([X|X] & _); discriminate X). Qed.

(** The box of a Sync is closed before the list is read again: a click on a row then reads a deleted package. *)
Theorem C105_deleted_refuted : run true (t_loaded ++ [User PressSync] ++ repeat (Turn 1) 5 ++ [Turn 2; Turn 2; User Look]) init = UB.
Proof. vm_compute. reflexivity. Qed.
(** m_job_running is set by the thread and not by who starts it: a thread started before the first has begun to run is not refused, and reads the list
    while the other one deletes it. *)
Theorem C105_race_refuted : exists s, run true (t_loaded ++ [User PressSync] ++ repeat (Turn 1) 5 ++ [User Look]) init = Ok s /\
  map t_job (filter (fun t => match t_rest t with [] => false | _ => true end) (threads s)) = [RefreshJob; InfoJob] /\
  run true [Turn 3; Turn 3; Turn 2; Turn 2] s = UB.
Proof. eexists. split; [vm_compute; reflexivity|]. split; reflexivity. Qed.
(** Go after a Sync (C102_sync_refuted): it reads the deleted packages of the old choice. *)
Theorem C105_stale_refuted : run true (t_loaded ++ [User (Pick true)] ++ repeat (Turn 1) 4 ++ [User PressSync] ++ repeat (Turn 2) 5 ++ repeat (Turn 3) 5 ++ [User PressGo; Turn 4; Turn 4; Turn 4]) init = UB.
Proof. vm_compute. reflexivity. Qed.
