(** C80: the log of a build. *)
From Verif Require Import Base BaseProofs MetaModel LogModel.
From Coq Require Import Lia.

Section LogProps.
  Variable cap : nat.
  Notation step := (step cap).
  Notation steps := (steps cap).
  Lemma steps_trans a b c : steps a b -> steps b c -> steps a c.
  Proof. intros H K. induction K as [|c d K IH S]; [exact H|]. exact (steps_more cap _ _ _ IH S). Qed.
  (** nothing is invented or reordered: the log is the beginning of what was written, the rest is still in the pipe *)
  Theorem C80_order : forall s, steps start s -> l_log s ++ l_pipe s = l_out s.
  Proof.
    intros s H. induction H as [|t u H IH S]; [reflexivity|].
    inversion S; subst; cbn [l_log l_pipe l_out] in *; try exact IH.
    - rewrite app_assoc, IH. reflexivity.
    - rewrite <- app_assoc. exact IH.
  Qed.
  (** what one step adds to the log fits, with the zero put behind it, into the 1024 bytes of the buffer *)
  Theorem C80_buffer : forall s t, step s t -> exists x, l_log t = l_log s ++ x /\ length x + 1 <= 1024.
  Proof.
    intros s t S. inversion S; subst; cbn [l_log]; try (exists []; split; [symmetry; apply app_nil_r|cbn; lia]).
    exists x. split; [reflexivity|]. unfold chunk in *. lia.
  Qed.
  (** once cards has found the child running, what comes back to waitpid has an empty pipe nobody can write to *)
  Definition drained (s : lst) : Prop := l_child s <> Running /\ l_held s = false /\ l_pipe s = [].
  Definition awake (s : lst) : Prop := match l_where s with Read => True | _ => drained s end.
  Lemma awake_step s t : awake s -> step s t -> awake t.
  Proof.
    unfold awake, drained. intros A S. inversion S; subst; cbn [l_child l_held l_pipe l_where] in *; try exact Logic.I; try exact A.
    - destruct w; [|exact Logic.I|]; destruct A as (A1 & A2 & A3); destruct H as [H|H]; congruence.
    - destruct w; [|exact Logic.I|]; destruct A as (A1 & A2 & A3); congruence.
    - destruct w; [|exact Logic.I|]; destruct A as (A1 & A2 & A3); congruence.
    - destruct w; [|exact Logic.I|]; destruct A as (A1 & A2 & A3); congruence.
    - destruct w; [|exact Logic.I|]; destruct A as (A1 & A2 & A3); (split; [discriminate|split; assumption]).
    - split; [exact H|]. split; reflexivity.
  Qed.
  Lemma awake_steps s t : awake s -> steps s t -> awake t.
  Proof. intros A H. induction H as [|t u H IH S]; [exact A|]. exact (awake_step t u IH S). Qed.
  Lemma done_only_ended s : steps start s -> l_where s = Done -> l_child s = Gone.
  Proof.
    intros H. induction H as [|t u H IH S]; [discriminate|].
    intro W. inversion S; subst; cbn [l_where l_child] in *; try discriminate W; try reflexivity; try (apply IH; exact W);
      specialize (IH W); try discriminate IH.
  Qed.
  (** when cards saw the build running at least once, the log is complete in the end *)
  Theorem C80_seen_running : forall s t, steps start s -> l_where s = Read -> steps s t -> l_where t = Done -> l_log t = l_out t.
  Proof.
    intros s t H W K D. assert (A : awake t) by (apply (awake_steps s); [unfold awake; rewrite W; exact Logic.I|exact K]).
    unfold awake in A. rewrite D in A. destruct A as (_ & _ & P). pose proof (C80_order t (steps_trans _ _ _ H K)) as O. rewrite P, app_nil_r in O. exact O.
  Qed.
  Lemma pipe_bound s : steps start s -> length (l_pipe s) <= cap.
  Proof.
    intro H. induction H as [|t u H IH S]; [cbn; lia|].
    inversion S; subst; cbn [l_pipe] in *; try exact IH; try assumption. rewrite app_length in IH. lia.
  Qed.
  Lemma awake_or_idle s : steps start s -> awake s \/ (l_where s <> Read /\ l_log s = []).
  Proof.
    intro H. induction H as [|t u H IH S]; [right; split; [discriminate|reflexivity]|].
    destruct IH as [A|[W G]]; [left; apply (awake_step t); assumption|].
    inversion S; subst; cbn [l_where l_log] in *; try (right; split; [exact W|exact G]).
    - left. exact Logic.I.
    - right. split; [discriminate|exact G].
    - left. exact Logic.I.
    - exfalso. apply W. reflexivity.
  Qed.
  (** all or nothing, for every timing: the log holds everything, or cards never saw the build running, nothing was logged and all the
      build wrote fitted into the pipe. In particular the log of a build that writes more than a pipe holds is always complete. *)
  Theorem C80_all_or_nothing : forall s, steps start s -> l_where s = Done -> l_log s = l_out s \/ (l_log s = [] /\ length (l_out s) <= cap).
  Proof.
    intros s H D. pose proof (C80_order s H) as O. destruct (awake_or_idle s H) as [A|[_ G]].
    - left. unfold awake in A. rewrite D in A. destruct A as (_ & _ & P). rewrite P, app_nil_r in O. exact O.
    - right. split; [exact G|]. rewrite G in O. cbn [app] in O. rewrite <- O. apply pipe_bound, H.
  Qed.
  Theorem C80_large : forall s, steps start s -> l_where s = Done -> cap < length (l_out s) -> l_log s = l_out s.
  Proof. intros s H D K. destruct (C80_all_or_nothing s H D) as [E|[_ E]]; [exact E|lia]. Qed.
  (** the terminal shows what the log holds, for text without zero bytes *)
  Theorem C80_echo : forall s, steps start s -> ~ In zero (l_out s) -> l_echo s = l_log s.
  Proof.
    intros s H. assert (G : ~ In zero (l_log s) -> l_echo s = l_log s).
    { induction H as [|t u H IH S]; [reflexivity|].
      inversion S; subst; cbn [l_echo l_log] in *; try exact IH. intro N. rewrite IH.
      - rewrite cstr_nozero; [reflexivity|]. intro I. apply N. apply in_app_iff. right. exact I.
      - intro I. apply N. apply in_app_iff. left. exact I. }
    intro N. apply G. intro I. apply N. rewrite <- (C80_order s H). apply in_app_iff. left. exact I.
  Qed.
  (** Once the build has ended and nothing it started holds the pipe, cards goes on: every run from there is short, and only Done stops. *)
  Definition ended (s : lst) : Prop := l_child s = Gone /\ l_held s = false.
  Definition todo (s : lst) : nat := length (l_pipe s) + match l_where s with Read => 2 | Poll => 1 | Done => 0 end.
  Lemma ended_step s t : ended s -> step s t -> ended t /\ (todo t < todo s).
  Proof.
    intros [A B] S. inversion S; subst; cbn [l_child l_held] in *; try discriminate A; try discriminate B; unfold ended, todo; cbn [l_child l_held l_pipe l_where].
    - destruct H as [H|H]; congruence.
    - congruence.
    - congruence.
    - split; [auto|lia].
    - split; [auto|]. rewrite app_length. destruct x; [congruence|cbn; lia].
    - split; [auto|cbn; lia].
  Qed.
  Inductive steps_n : nat -> lst -> lst -> Prop :=
  | sn_0 s : steps_n 0 s s
  | sn_S n s t u : step s t -> steps_n n t u -> steps_n (S n) s u.
  Theorem C80_goes_on : forall s, ended s ->
    (forall n t, steps_n n s t -> n <= todo s) /\ (l_where s <> Done -> exists t, step s t).
  Proof.
    intros s E. split.
    - intros n t H. revert E. induction H as [s|n s t u S H IH]; intro E; [lia|]. destruct (ended_step s t E S) as [E' T]. specialize (IH E'). lia.
    - destruct s as [c h p w lg ec o]. destruct E as [A B]. cbn in A, B. subst c h. destruct w; intro N.
      + eexists. apply st_ended.
      + destruct p as [|x p]; [eexists; apply st_eof; discriminate|]. eexists. apply (st_read cap Gone false [x] p); [discriminate|unfold chunk; cbn; lia].
      + exfalso. apply N. reflexivity.
  Qed.
  (** Refuted: a build that ends before cards looks at it leaves nothing in the log, not even its error message. *)
  Theorem C80_lost_refuted : forall msg, length msg <= cap -> exists s, steps start s /\ l_where s = Done /\ l_out s = msg /\ l_log s = [].
  Proof.
    intros msg Lm. exists (St Gone false msg Done [] [] msg). split; [|split; [reflexivity|split; reflexivity]].
    apply steps_more with (St Gone false msg Poll [] [] msg); [|apply st_ended].
    apply steps_more with (St Running false msg Poll [] [] msg); [|apply st_exit; discriminate].
    apply steps_more with start; [constructor|]. apply (st_write cap Running false [] Poll [] [] [] msg); [left; reflexivity|exact Lm].
  Qed.
  (** Refuted: a process left in the background with the pipe open keeps cards waiting although the build has ended. *)
  Theorem C80_background_refuted : exists s, steps start s /\ l_child s = Gone /\ l_where s = Read /\
    forall t, steps s t -> l_held t = true -> l_where t = Read.
  Proof.
    exists (St Gone true [] Read [] [] []). split; [|split; [reflexivity|split; [reflexivity|]]].
    - apply steps_more with (St Running true [] Read [] [] []); [|apply st_exit; discriminate].
      apply steps_more with (St Running true [] Poll [] [] []); [|apply st_alive; discriminate].
      apply steps_more with start; [constructor|apply st_background].
    - intros t H. assert (G : l_child t = Gone /\ (l_held t = true -> l_where t = Read)).
      { induction H as [|t u H IH S]; [split; reflexivity|].
        destruct IH as [A B]. inversion S; subst; cbn [l_child l_held l_where] in *; try discriminate A; (split; [first [exact A|reflexivity]|]); intro Hh; try discriminate Hh; try reflexivity; auto.
        - specialize (B Hh). discriminate B. }
      exact (proj2 G).
  Qed.
End LogProps.
(** a run in which everything is logged *)
Example C80_run : exists s, steps 64 start s /\ l_where s = Done /\ l_log s = L "compiling done" /\ l_echo s = L "compiling done".
Proof.
  exists (St Gone false [] Done (L "compiling done") (L "compiling done") (L "compiling done")). split; [|split; [reflexivity|split; reflexivity]].
  apply steps_more with (St Gone false [] Poll (L "compiling done") (L "compiling done") (L "compiling done")); [|apply st_ended].
  apply steps_more with (St Gone false [] Read (L "compiling done") (L "compiling done") (L "compiling done")); [|apply st_eof; discriminate].
  apply steps_more with (St Gone false (L "done") Read (L "compiling ") (L "compiling ") (L "compiling done")); [|apply (st_read 64 Gone false (L "done") [] (L "compiling ") (L "compiling ") (L "compiling done")); [discriminate|apply Nat.leb_le; vm_compute; reflexivity]].
  apply steps_more with (St Running false (L "done") Read (L "compiling ") (L "compiling ") (L "compiling done")); [|apply st_exit; discriminate].
  apply steps_more with (St Running false [] Read (L "compiling ") (L "compiling ") (L "compiling ")); [|apply (st_write 64 Running false [] Read (L "compiling ") (L "compiling ") (L "compiling ") (L "done")); [left; reflexivity|apply Nat.leb_le; vm_compute; reflexivity]].
  apply steps_more with (St Running false (L "compiling ") Read [] [] (L "compiling ")); [|apply (st_read 64 Running false (L "compiling ") [] [] [] (L "compiling ")); [discriminate|apply Nat.leb_le; vm_compute; reflexivity]].
  apply steps_more with (St Running false [] Read [] [] []); [|apply (st_write 64 Running false [] Read [] [] [] (L "compiling ")); [left; reflexivity|apply Nat.leb_le; vm_compute; reflexivity]].
  apply steps_more with start; [constructor|apply st_alive; discriminate].
Qed.
Print Assumptions C80_order.
Print Assumptions C80_all_or_nothing.
Print Assumptions C80_seen_running.
Print Assumptions C80_goes_on.
