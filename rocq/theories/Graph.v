(** Depth first closure with a set of visited names, as written several times in the code (pkgrm.cxx:21-45, deptree, depends).
    The recursion depth is bounded by [fuel]; the theorems hold for every fuel larger than the number of names. *)
From Verif Require Import Base BaseProofs.
From Coq Require Import Lia.

Lemma filter_length_le {A} (f : A -> bool) l : length (filter f l) <= length l.
Proof. induction l as [|x t IH]; cbn; [auto|]. destruct (f x); cbn; lia. Qed.
Section Graph.
  Variable deps : str -> list str.
  Fixpoint dfs (fuel : nat) (v : list str) (n : str) : list str :=
    if smem n v then v
    else match fuel with
         | 0 => v
         | S f => fold_left (fun v j => if seqb n j then v else dfs f v j) (deps n) (sins n v)
         end.
  (** [m] is [n] or a dependency, direct or indirect, of [n] *)
  Inductive reach : str -> str -> Prop :=
  | reach_refl n : reach n n
  | reach_step n d m : In d (deps n) -> reach d m -> reach n m.
  Lemma reach_trans a b c : reach a b -> reach b c -> reach a c.
  Proof. intro H. induction H; auto. intro K. eapply reach_step; eauto. Qed.

  Variable U : list str.
  Hypothesis closed : forall n d, In n U -> In d (deps n) -> In d U.
  Definition left (v : list str) : nat := length (filter (fun n => negb (smem n v)) U).
  Lemma left_mono v v' : incl v v' -> left v' <= left v.
  Proof.
    intro H. unfold left. clear closed. induction U as [|x t IH]; [auto|]. cbn [filter]. destruct (smem x v) eqn:E, (smem x v') eqn:E'; cbn; try lia.
    exfalso. apply smem_In in E. apply H in E. apply smem_In in E. congruence.
  Qed.
  Lemma left_less v n : In n U -> smem n v = false -> left (sins n v) < left v.
  Proof.
    intros I E. unfold left. clear closed. induction U as [|x t IH]; [destruct I|]. cbn [filter].
    assert (M : left (sins n v) <= left v) by (apply left_mono; intros y Y; apply sins_In; auto).
    assert (Mt : length (filter (fun n0 => negb (smem n0 (sins n v))) t) <= length (filter (fun n0 => negb (smem n0 v)) t)).
    { clear. induction t as [|y t IH]; [auto|]. cbn [filter]. destruct (smem y v) eqn:E, (smem y (sins n v)) eqn:E'; cbn; try lia.
      exfalso. apply smem_In in E. assert (K : In y (sins n v)) by (apply sins_In; auto). apply smem_In in K. congruence. }
    destruct (str_eq_dec x n) as [->|N].
    - rewrite E. assert (K : smem n (sins n v) = true) by (apply smem_In, sins_In; auto). rewrite K. cbn. lia.
    - destruct I as [->|I]; [congruence|]. specialize (IH I).
      destruct (smem x v) eqn:Ex, (smem x (sins n v)) eqn:Ex'; cbn; try lia.
      exfalso. apply smem_In in Ex. assert (K : In x (sins n v)) by (apply sins_In; auto). apply smem_In in K. congruence.
  Qed.
  Lemma dfs_spec fuel : forall v n, In n U -> left v < fuel -> let v' := dfs fuel v n in
    incl v v' /\ In n v' /\ (forall x, In x v' -> In x v \/ reach n x) /\
    (forall x, In x v' -> ~ In x v -> forall d, In d (deps x) -> In d v').
  Proof.
    induction fuel as [|f IH]; intros v n I F; [lia|]. cbv zeta. cbn [dfs]. destruct (smem n v) eqn:E.
    - apply smem_In in E. split; [apply incl_refl|]. split; [exact E|]. split; [auto|]. intros; contradiction.
    - pose proof (left_less v n I E) as Ls. set (v0 := sins n v) in *.
      assert (G : forall l done cur, incl l (deps n) -> (forall d, In d (deps n) -> In d done \/ In d l) ->
        incl v0 cur -> (forall x, In x cur -> In x v0 \/ reach n x) -> (forall x, In x cur -> ~ In x v0 -> forall d, In d (deps x) -> In d cur) ->
        incl done cur ->
        let v' := fold_left (fun v j => if seqb n j then v else dfs f v j) l cur in
        incl v0 v' /\ (forall x, In x v' -> In x v0 \/ reach n x) /\ (forall x, In x v' -> ~ In x v0 -> forall d, In d (deps x) -> In d v') /\ incl (deps n) v').
      { induction l as [|j l IHl]; intros done cur Il Pr Ic Rc Cc Dc; cbn [fold_left].
        - split; [exact Ic|]. split; [exact Rc|]. split; [exact Cc|]. intros d Id. destruct (Pr d Id) as [H|[]]. apply Dc, H.
        - destruct (seqb n j) eqn:Nj.
          + apply seqb_eq in Nj. subst j. apply (IHl (n :: done)); auto.
            * intros x X. apply Il. right. exact X.
            * intros d Id. destruct (Pr d Id) as [H|[H|H]]; [left; right; exact H|left; left; exact H|right; exact H].
            * intros x [<-|X]; [apply Ic; apply sins_In; auto|apply Dc, X].
          + assert (Ij : In j (deps n)) by (apply Il; left; reflexivity).
            destruct (IH cur j (closed n j I Ij)) as [A [B [C D]]].
            { pose proof (left_mono v0 cur Ic). lia. }
            apply (IHl (j :: done)).
            * intros x X. apply Il. right. exact X.
            * intros d Id. destruct (Pr d Id) as [H|[H|H]]; [left; right; exact H|left; left; exact H|right; exact H].
            * intros x X. apply A, Ic, X.
            * intros x X. destruct (C x X) as [H|H]; [apply Rc, H|right; apply (reach_step n j x Ij H)].
            * intros x X Nx d Id. destruct (in_dec str_eq_dec x cur) as [Y|Y]; [apply A, (Cc x Y Nx d Id)|exact (D x X Y d Id)].
            * intros x [<-|X]; [exact B|apply A, Dc, X]. }
      destruct (G (deps n) [] v0) as [A [B [C D]]].
      + apply incl_refl.
      + auto.
      + apply incl_refl.
      + auto.
      + intros; contradiction.
      + intros x [].
      + split; [intros x X; apply A, sins_In; auto|]. split; [apply A, sins_In; auto|]. split.
        * intros x X. destruct (B x X) as [H|H]; auto. apply sins_In in H as [->|H]; auto. right. apply reach_refl.
        * intros x X Nx d Id. destruct (str_eq_dec x n) as [->|Nn]; [apply D, Id|]. apply (C x X); auto. intro H. apply sins_In in H as [H|H]; contradiction.
  Qed.
  Definition closure (fuel : nat) (roots : list str) : list str := fold_left (dfs fuel) roots [].
  Lemma closure_spec fuel roots : incl roots U -> length U < fuel ->
    forall x, In x (closure fuel roots) <-> exists r, In r roots /\ reach r x.
  Proof.
    intros R F. unfold closure.
    assert (G : forall l cur, incl l U -> (forall x, In x cur -> forall d, In d (deps x) -> In d cur) ->
      let v' := fold_left (dfs fuel) l cur in
      incl cur v' /\ incl l v' /\ (forall x, In x v' -> In x cur \/ exists r, In r l /\ reach r x) /\ (forall x, In x v' -> forall d, In d (deps x) -> In d v')).
    { induction l as [|r l IH]; intros cur Il Cl; cbn [fold_left].
      - split; [apply incl_refl|]. split; [intros x []|]. split; [auto|exact Cl].
      - destruct (dfs_spec fuel cur r) as [A [B [C D]]].
        + apply Il. left. reflexivity.
        + unfold left. pose proof (filter_length_le (fun n => negb (smem n cur)) U). lia.
        + destruct (IH (dfs fuel cur r)) as [A' [B' [C' D']]].
          * intros x X. apply Il. right. exact X.
          * intros x X d Id. destruct (in_dec str_eq_dec x cur) as [Y|Y]; [apply A, (Cl x Y d Id)|exact (D x X Y d Id)].
          * split; [intros x X; apply A', A, X|]. split; [intros x [<-|X]; [apply A', B|apply B', X]|]. split; [|exact D'].
            intros x X. destruct (C' x X) as [H|[r' [H1 H2]]]; [|right; exists r'; split; [right; exact H1|exact H2]].
            destruct (C x H) as [K|K]; [left; exact K|right; exists r; split; [left; reflexivity|exact K]]. }
    destruct (G roots []) as [_ [B [C D]]]; [exact R|intros ? []|]. intro x. split.
    - intro X. destruct (C x X) as [[]|H]. exact H.
    - intros [r [Ir H]]. apply B in Ir. clear -H Ir D. induction H as [|n d m Id H IH]; [exact Ir|apply IH, (D n Ir d Id)].
  Qed.
  Lemma acyclic_rank : (forall n k, In n U -> In k (deps n) -> ~ reach k n) -> exists rank : str -> nat, forall n k, In n U -> In k (deps n) -> rank k < rank n.
  Proof.
    intro A. exists (fun n => length (nodup str_eq_dec (closure (S (length U)) [n]))). intros n k I K.
    assert (Ik : In k U) by (exact (closed n k I K)).
    assert (Sp : forall m, In m U -> forall x, In x (closure (S (length U)) [m]) <-> reach m x).
    { intros m Im x. rewrite closure_spec; [|intros y [<-|[]]; exact Im|lia]. split; [intros [r [[<-|[]] R]]; exact R|intro R; exists m; split; [left; reflexivity|exact R]]. }
    apply (NoDup_incl_length (l := n :: nodup str_eq_dec (closure (S (length U)) [k]))).
    - constructor; [|apply NoDup_nodup]. intro H. apply nodup_In, (Sp k Ik) in H. exact (A n k I K H).
    - intros x [<-|H]; apply nodup_In, (Sp n I); [apply reach_refl|]. apply nodup_In, (Sp k Ik) in H. exact (reach_step n k x K H).
  Qed.
End Graph.
