(** Proofs about archive extraction. *)
From Verif Require Import Base BaseProofs StrModel StrSpec StrProofs FsModel FsSpec FsProofs FsOps.

(** paths strictly between: done ++ a non-empty prefix of todo *)
Definition between (done todo q : path) : Prop := exists a b, a <> [] /\ todo = a ++ b /\ q = done ++ a.
Lemma between_cons done c rest q : between done (c :: rest) q <-> q = done ++ [c] \/ between (done ++ [c]) rest q.
Proof.
  unfold between. split.
  - intros [a [b [N [E ->]]]]. destruct a as [|x a]; [congruence|]. cbn in E. inversion E; subst.
    destruct a as [|y a]; [auto|]. right. exists (y :: a), b. split; [congruence|]. split; auto.
    rewrite <- app_assoc. reflexivity.
  - intros [->|[a [b [N [-> ->]]]]].
    + exists [c], rest. split; [congruence|auto].
    + exists (c :: a), b. split; [congruence|]. split; auto. rewrite <- app_assoc. reflexivity.
Qed.
Lemma between_dec done todo q : between done todo q \/ ~ between done todo q.
Proof.
  revert done. induction todo as [|c rest IH]; intro done.
  - right. intros [a [b [N [E _]]]]. destruct a; [congruence|discriminate].
  - rewrite between_cons. destruct (path_eq_dec q (done ++ [c])); [auto|]. destruct (IH (done ++ [c])); tauto.
Qed.
Lemma between_length done todo q : between done todo q -> length done < length q.
Proof. intros [a [b [N [_ ->]]]]. rewrite app_length. destruct a; [congruence|cbn; lia]. Qed.

Lemma mk_parents_spec f done todo :
  (forall q, ~ between done todo q -> fget (mk_parents f done todo) q = fget f q) /\
  (forall q, between done todo q ->
     (dir_at f q /\ fget (mk_parents f done todo) q = fget f q) \/
     (~ dir_at f q /\ fget (mk_parents f done todo) q = Some new_dir)).
Proof.
  revert f done. induction todo as [|c rest IH]; intros f done; cbn [mk_parents].
  - split; auto. intros q [a [b [N [E _]]]]. destruct a; [congruence|discriminate].
  - set (p := done ++ [c]). set (f1 := match fget f p with Some n => if is_dir n then f else fset p new_dir f | None => fset p new_dir f end).
    destruct (IH f1 p) as [I1 I2].
    assert (O : forall q, q <> p -> fget f1 q = fget f q).
    { intros q N. unfold f1. destruct (fget f p) as [n|]; [destruct (is_dir n); auto|]; apply fget_fset_other; auto. }
    assert (P : (dir_at f p /\ fget f1 p = fget f p) \/ (~ dir_at f p /\ fget f1 p = Some new_dir)).
    { unfold f1. destruct (fget f p) as [n|] eqn:G; [destruct (is_dir n) eqn:D|].
      - left. split; [|auto]. exists n. split; auto. apply is_dir_kind; auto.
      - right. split; [|apply fget_fset_same]. intros [m [M K]]. rewrite G in M. inversion M; subst. apply is_dir_kind in K. congruence.
      - right. split; [|apply fget_fset_same]. intros [m [M K]]. congruence. }
    assert (NB : ~ between p rest p). { intro B. apply between_length in B. lia. }
    split.
    + intros q N. rewrite between_cons in N. rewrite I1 by tauto. apply O. tauto.
    + intros q B. apply between_cons in B as [->|B].
      * fold p. rewrite I1 by auto. exact P.
      * assert (Nq : q <> p). { intros ->. auto. }
        destruct (I2 q B) as [[D E]|[D E]]; [left|right].
        -- split; [eapply dir_at_ext; [|exact D]; auto|]. rewrite E. auto.
        -- split; auto. intro D'. apply D. eapply dir_at_ext; [|exact D']. symmetry; auto.
Qed.
Lemma new_dir_at f p : fget f p = Some new_dir -> dir_at f p.
Proof. intro H. exists new_dir. auto. Qed.
Lemma between_below p q : between [] (removelast p) q <-> q <> [] /\ below q p.
Proof.
  unfold between, below. cbn [app]. split.
  - intros [a [b [N [E ->]]]]. split; auto. destruct p as [|x p] using rev_ind; [cbn in E; destruct a; [congruence|discriminate]|].
    rewrite removelast_last in E. subst. exists (b ++ [x]). split; [destruct b; cbn; congruence | rewrite app_assoc; auto].
  - intros [N [r [R ->]]]. destruct (exists_last R) as [r' [x ->]]. exists q, r'. split; auto. split; auto.
    rewrite app_assoc, removelast_last. reflexivity.
Qed.
(** parents of p: every strict ancestor becomes a directory, keeping those that are one *)
Lemma parents_spec f p : dir_at f [] ->
  let f1 := mk_parents f [] (removelast p) in
  (forall q, ~ below q p -> fget f1 q = fget f q) /\
  (forall q, below q p -> dir_at f1 q) /\
  (forall q, dir_at f q -> fget f1 q = fget f q).
Proof.
  intro R. cbv zeta. destruct (mk_parents_spec f [] (removelast p)) as [A B]. split; [|split].
  - intros q N. apply A. rewrite between_below. tauto.
  - intros q Bq. destruct q as [|c q].
    + eapply dir_at_ext; [|exact R]. symmetry. apply A. rewrite between_below. tauto.
    + destruct (B (c :: q)) as [[D E]|[D E]].
      * apply between_below. split; [congruence|auto].
      * eapply dir_at_ext; [|exact D]. auto.
      * apply new_dir_at; auto.
  - intros q D. destruct (between_dec [] (removelast p) q) as [X|X]; [|auto].
    destruct (B q X) as [[_ E]|[N _]]; [auto|contradiction].
Qed.

Lemma blocked_spec f done todo : blocked f done todo = false ->
  forall a b n, a <> [] -> b <> [] -> todo = a ++ b -> fget f (done ++ a) = Some n -> n_kind n = KDir.
Proof.
  revert done. induction todo as [|c rest IH]; intros done H a b n Na Nb E G.
  - destruct a; [congruence|discriminate].
  - destruct a as [|x a]; [congruence|]. cbn in E. inversion E; subst x rest. clear E.
    destruct (a ++ b) as [|y l] eqn:E2; [destruct a; [cbn in E2; congruence|discriminate]|].
    change (match fget f (done ++ [c]) with
            | Some n0 => negb (is_dir n0) || blocked f (done ++ [c]) (y :: l)
            | None => blocked f (done ++ [c]) (y :: l) end = false) in H.
    destruct a as [|z a].
    + rewrite G in H. apply orb_false_iff in H as [H _]. apply negb_false_iff in H. apply is_dir_kind; auto.
    + apply (IH (done ++ [c])) with (a := z :: a) (b := b); auto; try congruence.
      * destruct (fget f (done ++ [c])); auto. apply orb_false_iff in H as [_ H]. auto.
      * rewrite <- app_assoc. cbn. exact G.
Qed.
Lemma blocked_true f done todo : blocked f done todo = true ->
  exists a b n, a <> [] /\ b <> [] /\ todo = a ++ b /\ fget f (done ++ a) = Some n /\ n_kind n <> KDir.
Proof.
  revert done. induction todo as [|c rest IH]; intros done H; [discriminate|].
  destruct rest as [|d rest]; [discriminate|].
  change (match fget f (done ++ [c]) with
          | Some n0 => negb (is_dir n0) || blocked f (done ++ [c]) (d :: rest)
          | None => blocked f (done ++ [c]) (d :: rest) end = true) in H.
  assert (K : blocked f (done ++ [c]) (d :: rest) = true -> exists a b n, a <> [] /\ b <> [] /\ c :: d :: rest = a ++ b /\ fget f (done ++ a) = Some n /\ n_kind n <> KDir).
  { intro B. destruct (IH _ B) as [a [b [n [Na [Nb [E [G Kd]]]]]]]. exists (c :: a), b, n. rewrite <- app_assoc in G. cbn in G.
    split; [congruence|]. split; [auto|]. split; [cbn; congruence|auto]. }
  destruct (fget f (done ++ [c])) as [n|] eqn:G; auto. apply orb_true_iff in H as [H|H]; auto.
  exists [c], (d :: rest), n. apply negb_true_iff, is_dir_false in H.
  split; [congruence|]. split; [congruence|]. auto.
Qed.

Definition same_attr (n o : node) : Prop := n_perm o = n_perm n /\ n_uid o = n_uid n /\ n_gid o = n_gid n.

(** everything one needs to know about extracting one entry *)
Lemma extract_spec f name n b f' : tree f -> extract f name n = (b, f') ->
  (b = false -> f' = f) /\
  (forall q, q <> comps name -> ~ below q (comps name) -> fget f' q = fget f q) /\
  (forall q, q <> comps name -> dir_at f q -> fget f' q = fget f q) /\
  (n_kind n <> KDir -> forall q m, q <> comps name -> fget f q = Some m -> fget f' q = Some m) /\
  (b = true -> forall q, below q (comps name) -> dir_at f' q) /\
  (b = true -> n_kind n <> KDir -> fget f' (comps name) = Some n) /\
  (b = true -> n_kind n = KDir -> exists o, fget f' (comps name) = Some o /\ n_kind o = KDir /\ same_attr n o).
Proof.
  intros T E. unfold extract in E. set (p := comps name) in *.
  destruct (parents_spec f p (proj1 T)) as [P1 [P2 P3]]. set (f1 := mk_parents f [] (removelast p)) in *.
  assert (FAIL : forall g, (false, g) = (b, f') -> g = f ->
    (b = false -> f' = f) /\
    (forall q, q <> p -> ~ below q p -> fget f' q = fget f q) /\
    (forall q, q <> p -> dir_at f q -> fget f' q = fget f q) /\
    (n_kind n <> KDir -> forall q m, q <> p -> fget f q = Some m -> fget f' q = Some m) /\
    (b = true -> forall q, below q p -> dir_at f' q) /\
    (b = true -> n_kind n <> KDir -> fget f' p = Some n) /\
    (b = true -> n_kind n = KDir -> exists o, fget f' p = Some o /\ n_kind o = KDir /\ same_attr n o)).
  { intros g H ->. inversion H; subst. split; [auto|]. split; [auto|]. split; [auto|]. split; [auto|]. split; [discriminate|].
    split; discriminate. }
  assert (OK : forall o, (true, fset p o f1) = (b, f') ->
    (n_kind n <> KDir -> forall q m, q <> p -> fget f q = Some m -> fget f1 q = Some m) ->
    (n_kind n <> KDir -> o = n) -> (n_kind n = KDir -> n_kind o = KDir /\ same_attr n o) ->
    (b = false -> f' = f) /\
    (forall q, q <> p -> ~ below q p -> fget f' q = fget f q) /\
    (forall q, q <> p -> dir_at f q -> fget f' q = fget f q) /\
    (n_kind n <> KDir -> forall q m, q <> p -> fget f q = Some m -> fget f' q = Some m) /\
    (b = true -> forall q, below q p -> dir_at f' q) /\
    (b = true -> n_kind n <> KDir -> fget f' p = Some n) /\
    (b = true -> n_kind n = KDir -> exists o, fget f' p = Some o /\ n_kind o = KDir /\ same_attr n o)).
  { intros o H ND O1 O2. inversion H; subst. split; [discriminate|]. split; [|split; [|split; [|split; [|split]]]].
    - intros q N B. rewrite fget_fset_other by auto. auto.
    - intros q N D. rewrite fget_fset_other by auto. auto.
    - intros K q m N G. rewrite fget_fset_other by auto. apply ND; auto.
    - intros _ q B. eapply dir_at_ext; [|exact (P2 q B)]. symmetry. apply fget_fset_other. intros ->. exact (below_irrefl _ B).
    - intros _ K. rewrite fget_fset_same, O1; auto.
    - intros _ K. exists o. rewrite fget_fset_same. destruct (O2 K). auto. }
  destruct (is_dir n) eqn:D.
  - pose proof (proj1 (is_dir_kind n) D) as KD.
    assert (E2 : match (match p with [] => fget f [] | _ => fget f1 p end) with
                 | Some o => if is_dir o then (true, fset p (set_attr o n) f1) else (true, fset p n f1)
                 | None => (true, fset p n f1) end = (b, f') \/ (false, f) = (b, f')).
    { destruct p as [|c cs] eqn:Ep; [|auto]. destruct (fget f []) as [o|] eqn:G; [|auto].
      destruct (proj1 T) as [r [R1 R2]]. rewrite G in R1. inversion R1; subst r. apply is_dir_kind in R2.
      left. rewrite R2. exact E. }
    destruct E2 as [E2|E2]; [|apply (FAIL f); auto].
    destruct (match p with [] => fget f [] | _ => fget f1 p end) as [o|].
    + destruct (is_dir o); eapply OK; try exact E2; try (intro; contradiction); try (intro; congruence).
      * intros _. split; [reflexivity|]. unfold same_attr, set_attr. cbn. auto.
      * intros _. split; [auto|]. unfold same_attr. auto.
    + eapply OK; [exact E2 | intro; contradiction | intro; congruence |].
      intros _. split; [auto|]. unfold same_attr. auto.
  - pose proof (proj1 (is_dir_false n) D) as KD.
    destruct p as [|c cs] eqn:Ep; [apply (FAIL f); auto|]. rewrite <- Ep in *.
    destruct (blocked f [] p) eqn:B; [apply (FAIL f); auto|].
    assert (ND : n_kind n <> KDir -> forall q m, q <> p -> fget f q = Some m -> fget f1 q = Some m).
    { intros _ q m N G. destruct q as [|x q].
      - rewrite P3; auto. apply T.
      - destruct (between_dec [] (removelast p) (x :: q)) as [X|X]; rewrite between_below in X.
        + destruct X as [Nq [r [R Er]]]. rewrite P3; auto. exists m. split; auto.
          apply (blocked_spec f [] p B (x :: q) r m Nq R Er G).
        + rewrite P1; auto. intro Y. apply X. split; [congruence|auto]. }
    destruct (fget f p) as [o|].
    + destruct (is_dir o && has_child f p); [apply (FAIL f); auto|].
      eapply OK; [exact E | exact ND | auto | intro; contradiction].
    + eapply OK; [exact E | exact ND | auto | intro; contradiction].
Qed.

Lemma extract_tree f name n b f' : tree f -> extract f name n = (b, f') -> tree f'.
Proof.
  intros T E. pose proof (extract_spec f name n b f' T E) as [S0 [S1 [S2 [S3 [S4 [S5 S6]]]]]].
  destruct b; [|rewrite (S0 eq_refl); auto]. set (p := comps name) in *.
  assert (D0 : dir_at f' []).
  { destruct (path_eq_dec [] p) as [Ep|Np].
    - destruct (is_dir n) eqn:D; [apply is_dir_kind in D | apply is_dir_false in D].
      + destruct (S6 eq_refl D) as [o [O1 [O2 _]]]. rewrite Ep. exists o. auto.
      + exfalso. unfold extract in E. fold p in E. rewrite <- Ep in E. apply is_dir_false in D. rewrite D in E. discriminate.
    - eapply dir_at_ext; [|exact (proj1 T)]. symmetry. apply S2; auto. apply T. }
  split; [exact D0|]. intros q c G.
  destruct (path_eq_dec (q ++ [c]) p) as [Ep|Np].
  - apply S4; auto. rewrite <- Ep. exists [c]. split; [congruence|auto].
  - destruct (fget f (q ++ [c])) as [m|] eqn:Gm.
    + pose proof (proj2 T q c ltac:(congruence)) as Dq. destruct (path_eq_dec q p) as [->|Nq].
      * (* something is below the extracted path: it must be a directory *)
        destruct (is_dir n) eqn:D; [apply is_dir_kind in D; destruct (S6 eq_refl D) as [o [O1 [O2 _]]]; exists o; auto|].
        exfalso. destruct Dq as [o [O1 O2]]. unfold extract in E. fold p in E. rewrite D in E.
        destruct p as [|x xs] eqn:Exp; [discriminate|]. rewrite <- Exp in *.
        destruct (blocked f [] p); [discriminate|]. rewrite O1 in E. apply is_dir_kind in O2. rewrite O2 in E.
        assert (has_child f p = true) as HC.
        { apply has_child_spec. exists (p ++ [c]). split; [exists [c]; split; [congruence|auto]|congruence]. }
        rewrite HC in E. discriminate.
      * eapply dir_at_ext; [|exact Dq]. symmetry. apply S2; auto.
    + (* a new node: it is an ancestor of p, so is its parent *)
      assert (B : below (q ++ [c]) p).
      { destruct (belowb (q ++ [c]) p) eqn:Bb; [apply belowb_below; auto|]. exfalso. apply G. rewrite S1; auto.
        intro Y. apply belowb_below in Y. congruence. }
      apply S4; auto. eapply below_trans; [|exact B]. exists [c]. split; [congruence|auto].
Qed.

(** extraction never leaves an existing path empty *)
Lemma extract_present f name n b f' q : tree f -> extract f name n = (b, f') -> fget f q <> None -> fget f' q <> None.
Proof.
  intros T E G. pose proof (extract_spec f name n b f' T E) as [S0 [S1 [S2 [S3 [S4 [S5 S6]]]]]].
  destruct b; [|rewrite (S0 eq_refl); auto].
  destruct (path_eq_dec q (comps name)) as [->|N].
  - destruct (is_dir n) eqn:D; [apply is_dir_kind in D; destruct (S6 eq_refl D) as [o [O1 _]]; congruence|].
    apply is_dir_false in D. rewrite (S5 eq_refl D). congruence.
  - destruct (belowb q (comps name)) eqn:B.
    + apply belowb_below in B. destruct (S4 eq_refl q B) as [o [O _]]. congruence.
    + rewrite S1; auto. intro Y. apply belowb_below in Y. congruence.
Qed.
(** what appears by extraction is the entry or one of its ancestors *)
Lemma extract_new f name n b f' q : tree f -> extract f name n = (b, f') -> fget f q = None -> fget f' q <> None ->
  b = true /\ (q = comps name \/ below q (comps name)).
Proof.
  intros T E G H. pose proof (extract_spec f name n b f' T E) as [S0 [S1 _]].
  destruct b; [|exfalso; rewrite (S0 eq_refl) in H; auto]. split; auto.
  destruct (path_eq_dec q (comps name)) as [->|N]; auto. destruct (belowb q (comps name)) eqn:B; [right; apply belowb_below; auto|].
  exfalso. apply H. rewrite S1; auto. intro Y. apply belowb_below in Y. congruence.
Qed.
