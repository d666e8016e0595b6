(** C14: the database lock. *)
From Verif Require Import Base BaseProofs LockModel.
From Coq Require Import Lia.

Section LockProps.
  Variables (A Loc D : Type) (act : A -> Loc -> D -> option Loc * D).
  Notation state := (state A Loc D). Notation step := (step act). Notation run := (run act).

  (** [p] holds a lock, exclusive or shared *)
  Definition holds (s : state) (p : nat) (excl : bool) : Prop := exists o, In o (p_held (procs s p)) /\ In (o, excl) (table s).

  (** a program suffix closes exactly [n] open scopes *)
  Inductive closes : nat -> list (instr A) -> Prop :=
  | c_end : closes 0 []
  | c_act n a t : closes n t -> closes n (Act a :: t)
  | c_lock n e t : closes (S n) t -> closes n (Lock e :: t)
  | c_unlock n t : closes n t -> closes (S n) (Unlock :: t).

  Record inv (s : state) : Prop := Inv {
    i_fresh : forall o e, In (o, e) (table s) -> o < fresh s;
    i_held : forall p o, In o (p_held (procs s p)) -> exists e, In (o, e) (table s);
    i_owner : forall p q o, In o (p_held (procs s p)) -> In o (p_held (procs s q)) -> p = q;
    i_once : forall p, NoDup (p_held (procs s p));
    i_keys : NoDup (map fst (table s));
    i_excl : forall o, In (o, true) (table s) -> table s = [(o, true)];
    i_known : forall o e, In (o, e) (table s) -> exists p, In o (p_held (procs s p));
    i_stop : forall p, p_status (procs s p) <> Running -> p_held (procs s p) = [];
    i_close : forall p, p_status (procs s p) = Running -> closes (length (p_held (procs s p))) (p_todo (procs s p))
  }.

  Lemma closes_app n m l k : closes n l -> closes m k -> closes (n + m) (l ++ k).
  Proof.
    intros H K. induction H; cbn; [exact K|constructor; auto|constructor; auto|constructor; auto].
  Qed.
  Fixpoint size (s : stmt A) : nat := match s with Do _ => 1 | Scope _ b => S ((fix go l := match l with [] => 0 | x :: t => size x + go t end) b) end.
  Lemma compile_closes : forall s, closes 0 (compile s).
  Proof.
    fix IH 1. intros [a|e body]; cbn; [repeat constructor|]. constructor.
    induction body as [|x t IHt]; [repeat constructor|]. change 1 with (0 + 1). apply closes_app; [apply IH|exact IHt].
  Qed.
  Lemma compile_all_closes l : closes 0 (compile_all l).
  Proof. induction l as [|x t IH]; [constructor|]. cbn. change 0 with (0 + 0). apply closes_app; [apply compile_closes|exact IH]. Qed.

  Lemma release_In hs t o e : In (o, e) (release hs t) <-> In (o, e) t /\ ~ In o hs.
  Proof.
    unfold release. rewrite filter_In. cbn [fst]. split; intros [H N]; split; auto.
    - apply negb_true_iff in N. intro I. rewrite <- not_true_iff_false in N. apply N. apply existsb_exists. exists o. split; [auto|apply Nat.eqb_refl].
    - apply negb_true_iff. apply not_true_iff_false. intro E. apply existsb_exists in E as [x [I E]]. apply Nat.eqb_eq in E. subst. auto.
  Qed.
  Lemma NoDup_release hs t : NoDup (map fst t) -> NoDup (map fst (release hs t)).
  Proof.
    induction t as [|[o e] t IH]; intro H; [constructor|]. inversion H; subst. cbn. destruct (existsb (Nat.eqb o) hs); cbn; auto. constructor; auto.
    intro I. apply in_map_iff in I as [[o' e'] [E I]]. cbn in E. subst. apply release_In in I as [I _]. apply H2. apply (in_map fst) in I. exact I.
  Qed.
  Lemma release_excl hs t o : (forall o, In (o, true) t -> t = [(o, true)]) -> In (o, true) (release hs t) -> release hs t = [(o, true)].
  Proof.
    intros H I. apply release_In in I as [I N]. rewrite (H o I) in *. unfold release. cbn. destruct (existsb (Nat.eqb o) hs) eqn:E; [|reflexivity].
    exfalso. apply existsb_exists in E as [x [Ix E]]. apply Nat.eqb_eq in E. subst. auto.
  Qed.

  Lemma upd_same f p (x : proc A Loc) : upd A Loc f p x p = x. Proof. unfold upd. rewrite Nat.eqb_refl. reflexivity. Qed.
  Lemma upd_other f p (x : proc A Loc) q : q <> p -> upd A Loc f p x q = f q. Proof. intro N. unfold upd. apply Nat.eqb_neq in N. rewrite N. reflexivity. Qed.

  Lemma leave_inv why p s d : why <> Running -> inv s -> inv (leave why p (procs s p) d s).
  Proof.
    intros W [I1 I2 I3 I4 I5 I6 I7 I8 I9]. unfold leave. constructor; cbn [procs table fresh].
    - intros o e H. apply release_In in H as [H _]. eauto.
    - intros q o H. destruct (Nat.eq_dec q p) as [->|N]; [rewrite upd_same in H; destruct H|]. rewrite upd_other in H by auto.
      destruct (I2 q o H) as [e E]. exists e. apply release_In. split; auto. intro Z. apply N. exact (I3 q p o H Z).
    - intros q r o H K. destruct (Nat.eq_dec q p) as [->|N]; [rewrite upd_same in H; destruct H|]. destruct (Nat.eq_dec r p) as [->|N']; [rewrite upd_same in K; destruct K|].
      rewrite upd_other in H, K by auto. eauto.
    - intro q. destruct (Nat.eq_dec q p) as [->|N]; [rewrite upd_same; constructor|rewrite upd_other by auto; apply I4].
    - apply NoDup_release, I5.
    - intros o H. apply release_excl; auto.
    - intros o e H. apply release_In in H as [H N]. destruct (I7 o e H) as [q Q]. exists q. rewrite upd_other; [exact Q|]. intros ->. contradiction.
    - intros q H. destruct (Nat.eq_dec q p) as [->|N]; [rewrite upd_same; reflexivity|]. rewrite upd_other in * by auto. auto.
    - intros q H. destruct (Nat.eq_dec q p) as [->|N]; [rewrite upd_same in H; cbn in H; congruence|]. rewrite upd_other in * by auto. auto.
  Qed.
  (** only the program and the private memory of one process change *)
  Lemma quiet_inv p s x d : inv s -> p_held x = p_held (procs s p) -> (p_status x <> Running -> p_held x = []) ->
    (p_status x = Running -> closes (length (p_held x)) (p_todo x)) -> inv (State (upd A Loc (procs s) p x) (table s) (fresh s) d).
  Proof.
    intros [I1 I2 I3 I4 I5 I6 I7 I8 I9] H S C.
    assert (U : forall q, p_held (upd A Loc (procs s) p x q) = p_held (procs s q)).
    { intro q. destruct (Nat.eq_dec q p) as [->|N]; [rewrite upd_same; exact H|rewrite upd_other by auto; reflexivity]. }
    constructor; cbn [procs table fresh]; auto.
    - intros q o. rewrite U. apply I2.
    - intros q r o. rewrite !U. apply I3.
    - intro q. rewrite U. apply I4.
    - intros o e K. destruct (I7 o e K) as [q Q]. exists q. rewrite U. exact Q.
    - intros q. destruct (Nat.eq_dec q p) as [->|N]; [rewrite upd_same; exact S|rewrite upd_other by auto; apply I8].
    - intros q. destruct (Nat.eq_dec q p) as [->|N]; [rewrite upd_same; exact C|rewrite upd_other by auto; apply I9].
  Qed.
  Lemma step_inv c s : inv s -> inv (step c s).
  Proof.
    intro I. pose proof I as I0. destruct I as [I1 I2 I3 I4 I5 I6 I7 I8 I9]. destruct c as [p|p]; cbn [LockModel.step].
    2:{ destruct (p_status (procs s p)); auto. apply leave_inv; auto. discriminate. }
    destruct (p_status (procs s p)) eqn:S; auto. pose proof (I9 p S) as C. destruct (p_todo (procs s p)) as [|[e| |a] t] eqn:T.
    - apply quiet_inv; [exact I0|reflexivity| |cbn; discriminate]. intros _. cbn. inversion C. destruct (p_held (procs s p)); [reflexivity|discriminate].
    - destruct (compatible e (table s)) eqn:Cp; [|apply leave_inv; auto; discriminate].
      assert (Fr : forall q o, In o (p_held (procs s q)) -> o < fresh s) by (intros q o H; destruct (I2 q o H) as [x X]; eauto).
      constructor; cbn [procs table fresh].
      + intros o x [H|H]; [inversion H; lia|]. apply I1 in H. lia.
      + intros q o H. destruct (Nat.eq_dec q p) as [->|N].
        * rewrite upd_same in H. cbn [p_held] in H. destruct H as [<-|H]; [exists e; left; reflexivity|]. destruct (I2 p o H) as [x X]. exists x. right. exact X.
        * rewrite upd_other in H by auto. destruct (I2 q o H) as [x X]. exists x. right. exact X.
      + assert (Z : forall q o, q <> p -> In o (p_held (procs s q)) -> ~ In o (fresh s :: p_held (procs s p))).
        { intros q o N H [<-|K]; [apply Fr in H; lia|]. apply N. exact (I3 q p o H K). }
        intros q r o H K. destruct (Nat.eq_dec q p) as [->|N], (Nat.eq_dec r p) as [->|N']; auto.
        * rewrite upd_same in H. rewrite upd_other in K by auto. exfalso. exact (Z r o N' K H).
        * rewrite upd_same in K. rewrite upd_other in H by auto. exfalso. exact (Z q o N H K).
        * rewrite upd_other in H, K by auto. eauto.
      + intro q. destruct (Nat.eq_dec q p) as [->|N]; [rewrite upd_same|rewrite upd_other by auto; apply I4]. cbn [p_held]. constructor; [|apply I4]. intro H. apply Fr in H. lia.
      + cbn. constructor; [|exact I5]. intro H. apply in_map_iff in H as [[o x] [E H]]. cbn in E. subst o. apply I1 in H. lia.
      + intros o [H|H].
        * inversion H; subst. unfold compatible in Cp. destruct (table s); [reflexivity|discriminate].
        * exfalso. unfold compatible in Cp. destruct e; [destruct (table s); [destruct H|discriminate]|]. rewrite forallb_forall in Cp. specialize (Cp _ H). discriminate.
      + intros o x [H|H]; [inversion H; subst; exists p; rewrite upd_same; left; reflexivity|]. destruct (I7 o x H) as [q Q]. exists q.
        destruct (Nat.eq_dec q p) as [->|N]; [rewrite upd_same; right; exact Q|rewrite upd_other by auto; exact Q].
      + intros q H. destruct (Nat.eq_dec q p) as [->|N]; [rewrite upd_same in H; cbn in H; congruence|]. rewrite upd_other in * by auto. auto.
      + intros q H. destruct (Nat.eq_dec q p) as [->|N]; [rewrite upd_same; cbn; inversion C; auto|]. rewrite upd_other in * by auto. auto.
    - inversion C as [| | |n t' C' E1]. subst t'. destruct (p_held (procs s p)) as [|h hs] eqn:Hh; [discriminate|]. cbn in E1. inversion E1; subst n.
      pose proof (I4 p) as ND. rewrite Hh in ND. inversion ND as [|? ? Nh ND']; subst.
      constructor; cbn [procs table fresh].
      + intros o e H. apply release_In in H as [H _]. eauto.
      + intros q o H. destruct (Nat.eq_dec q p) as [->|N].
        * rewrite upd_same in H. cbn [p_held] in H. destruct (I2 p o) as [e E]; [rewrite Hh; right; exact H|]. exists e. apply release_In. split; auto. intros [<-|[]]. contradiction.
        * rewrite upd_other in H by auto. destruct (I2 q o H) as [e E]. exists e. apply release_In. split; auto. intros [<-|[]]. apply N. apply (I3 q p h H). rewrite Hh. left. reflexivity.
      + intros q r o H K. assert (X : forall q, In o (p_held (upd A Loc (procs s) p (Proc Running t hs (p_loc (procs s p))) q)) -> In o (p_held (procs s q))).
        { intros q0 H0. destruct (Nat.eq_dec q0 p) as [->|N]; [rewrite upd_same in H0; cbn [p_held] in H0; rewrite Hh; right; exact H0|rewrite upd_other in H0 by auto; exact H0]. }
        apply (I3 q r o); auto.
      + intro q. destruct (Nat.eq_dec q p) as [->|N]; [rewrite upd_same; exact ND'|rewrite upd_other by auto; apply I4].
      + apply NoDup_release, I5.
      + intros o H. apply release_excl; auto.
      + intros o e H. apply release_In in H as [H N]. destruct (I7 o e H) as [q Q]. exists q. destruct (Nat.eq_dec q p) as [->|N'].
        * rewrite upd_same. cbn [p_held]. rewrite Hh in Q. destruct Q as [->|Q]; [exfalso; apply N; left; reflexivity|exact Q].
        * rewrite upd_other by auto. exact Q.
      + intros q H. destruct (Nat.eq_dec q p) as [->|N]; [rewrite upd_same in H; cbn in H; congruence|]. rewrite upd_other in * by auto. auto.
      + intros q H. destruct (Nat.eq_dec q p) as [->|N]; [rewrite upd_same; exact C'|]. rewrite upd_other in * by auto. auto.
    - destruct (act a (p_loc (procs s p)) (data s)) as [[l|] d].
      + apply quiet_inv; [exact I0|reflexivity|cbn; congruence|]. intros _. cbn. inversion C; auto.
      + apply leave_inv; auto. discriminate.
  Qed.
  Lemma initial_inv prog loc d : inv (initial prog loc d).
  Proof.
    unfold initial. constructor; cbn [procs table fresh p_held p_status p_todo map].
    - intros ? ? [].
    - intros ? ? [].
    - intros ? ? ? [].
    - intros; constructor.
    - constructor.
    - intros ? [].
    - intros ? ? [].
    - reflexivity.
    - intros p _. apply compile_all_closes.
  Qed.
  Lemma run_inv cs : forall s, inv s -> inv (run cs s).
  Proof. induction cs as [|c cs IH]; intros s I; [exact I|]. cbn. apply IH, step_inv, I. Qed.

  (** whatever the processes and whatever the schedule: a process holding the lock exclusively is the only one holding it *)
  Theorem C14_exclusive prog loc d cs p q e : let s := run cs (initial prog loc d) in
    holds s p true -> holds s q e -> p = q /\ e = true.
  Proof.
    intros s [o [H1 H2]] [o' [H3 H4]]. assert (I : inv s) by (apply run_inv, initial_inv). pose proof (i_excl s I o H2) as E. rewrite E in H4.
    destruct H4 as [H4|[]]. inversion H4; subst. split; [|reflexivity]. exact (i_owner s I p q o' H1 H3).
  Qed.
  (** a process that ended (normally, by an exception or killed) holds nothing, and nothing is left locked once all ended *)
  Theorem C14_released prog loc d cs p e : let s := run cs (initial prog loc d) in
    p_status (procs s p) <> Running -> ~ holds s p e.
  Proof.
    intros s H [o [H1 _]]. assert (I : inv s) by (apply run_inv, initial_inv). rewrite (i_stop s I p H) in H1. destruct H1.
  Qed.
  Theorem C14_all_ended prog loc d cs : let s := run cs (initial prog loc d) in
    (forall p, p_status (procs s p) <> Running) -> table s = [].
  Proof.
    intros s H. assert (I : inv s) by (apply run_inv, initial_inv). destruct (table s) as [|[o e] t] eqn:T; [reflexivity|]. exfalso.
    destruct (i_known s I o e) as [p P]; [rewrite T; left; reflexivity|]. rewrite (i_stop s I p (H p)) in P. destruct P.
  Qed.
  (** a process whose request conflicts with the lock of another one fails: it changes nothing, then or later *)
  Lemma stopped_step p c s : p_status (procs s p) <> Running -> procs (step c s) p = procs s p.
  Proof.
    intro N. destruct c as [q|q]; cbn [LockModel.step].
    - destruct (Nat.eq_dec p q) as [->|D0]; [destruct (p_status (procs s q)); [congruence|reflexivity|reflexivity|reflexivity]|].
      destruct (p_status (procs s q)); auto. destruct (p_todo (procs s q)) as [|[e| |a] t]; [cbn; apply upd_other, D0| | |].
      + destruct (compatible e (table s)); cbn; apply upd_other, D0.
      + destruct (p_held (procs s q)); [reflexivity|]. cbn. apply upd_other, D0.
      + destruct (act a (p_loc (procs s q)) (data s)) as [[l|] d]; cbn; apply upd_other, D0.
    - destruct (Nat.eq_dec p q) as [->|D0]; [destruct (p_status (procs s q)); [congruence|reflexivity|reflexivity|reflexivity]|].
      destruct (p_status (procs s q)); auto. cbn. apply upd_other, D0.
  Qed.
  Lemma stopped_run p cs : forall s, p_status (procs s p) <> Running -> procs (run cs s) p = procs s p.
  Proof.
    induction cs as [|c cs IH]; intros s N; [reflexivity|]. cbn. unfold LockModel.run in IH. rewrite IH; [apply stopped_step, N|]. rewrite stopped_step; auto.
  Qed.
  Lemma stopped_noop p s : p_status (procs s p) <> Running -> step (Run p) s = s.
  Proof. intro N. cbn. destruct (p_status (procs s p)); congruence. Qed.
  Theorem C14_refused_fails prog loc d cs p q e e' t : let s := run cs (initial prog loc d) in
    p_status (procs s p) = Running -> p_todo (procs s p) = Lock e :: t -> holds s q e' -> (e = true \/ e' = true) ->
    let s' := step (Run p) s in
    p_status (procs s' p) = Failed /\ data s' = data s /\
    forall more, p_status (procs (run more s') p) = Failed /\ step (Run p) (run more s') = run more s'.
  Proof.
    intros s R T [o [H1 H2]] M. assert (I : inv s) by (apply run_inv, initial_inv). cbv zeta. cbn [LockModel.step]. rewrite R, T.
    assert (X : compatible e (table s) = false).
    { unfold compatible. destruct e; [destruct (table s); [destruct H2|reflexivity]|]. destruct M as [M|M]; [discriminate|]. subst e'.
      rewrite (i_excl s I o H2). reflexivity. }
    rewrite X. unfold leave. cbn [procs data]. rewrite upd_same. split; [reflexivity|]. split; [reflexivity|]. intro more.
    set (s1 := State _ _ _ _). assert (F : p_status (procs s1 p) = Failed) by (unfold s1; cbn; rewrite upd_same; reflexivity).
    assert (G : p_status (procs (run more s1) p) = Failed) by (rewrite stopped_run; rewrite ?F; congruence || exact F).
    split; [exact G|]. apply stopped_noop. rewrite G. discriminate.
  Qed.
  (** while one process holds the lock exclusively, no other process is inside a locked block *)
  Theorem C14_block_alone prog loc d cs p q : let s := run cs (initial prog loc d) in
    p <> q -> holds s p true -> p_held (procs s q) = [].
  Proof.
    intros s N H. assert (I : inv s) by (apply run_inv, initial_inv). destruct (p_held (procs s q)) as [|o t] eqn:E; [reflexivity|]. exfalso. apply N.
    destruct (i_held s I q o) as [e Q]; [rewrite E; left; reflexivity|]. refine (proj1 (C14_exclusive prog loc d cs p q e H _)). exists o. split; [fold s; rewrite E; left; reflexivity|exact Q].
  Qed.
End LockProps.
