(** C40, C41: exactly what any sequence of operations gives. *)
From Verif Require Import Base BaseProofs FsProofs ContModel ContProps.
From Coq Require Import ZArith NArith Lia.

(** * C40 *)
(** number of elements and room of an array after some operations: reserving never shrinks, a push into a full array doubles the room *)
Definition after_op (s : N * N) (o : vop) : N * N :=
  match o with
  | Push _ => (fst s + 1, if fst s =? snd s then 2 * fst s else snd s)%N
  | Reserve n => (fst s, N.max (snd s) n)
  end.
Definition after_ops (cap : N) (ops : list vop) : N * N := fold_left after_op ops (0%N, cap).
(** a push that goes wrong: the array is full, and doubling it gives nothing (no element) or does not fit in 32 bits *)
Definition bad_push (cap : N) (before : list vop) : Prop :=
  let '(size, room) := after_ops cap before in size = room /\ (size = 0 \/ 2 ^ 31 <= size)%N.

Lemma vec_run_snoc cap ops o : vec_run cap (ops ++ [o]) = vec_step (vec_run cap ops) o.
Proof. unfold vec_run. apply fold_left_app. Qed.
Lemma after_snoc cap ops o : after_ops cap (ops ++ [o]) = after_op (after_ops cap ops) o.
Proof. unfold after_ops. apply fold_left_app. Qed.
Lemma after_size cap ops : fst (after_ops cap ops) = N.of_nat (length (pushed ops)).
Proof.
  induction ops as [|o t IH] using rev_ind; [reflexivity|]. rewrite after_snoc, pushed_app, app_length. destruct o as [s|n]; cbn [after_op fst pushed List.length]; rewrite IH; lia.
Qed.
Lemma vec_reserve_cap n v : v_cap (vec_reserve n v) = N.max (v_cap v) n.
Proof. unfold vec_reserve. destruct (n <=? v_cap v)%N eqn:E; [apply N.leb_le in E|apply N.leb_gt in E; cbn [v_cap]]; lia. Qed.
Lemma write_over {A} (x : A) l : forall n, length l <= n -> write n x l = None.
Proof. induction l as [|y t IH]; intros n H; [destruct n; reflexivity|]. destruct n as [|n]; [cbn in H; lia|]. cbn. rewrite IH by (cbn in H; lia). reflexivity. Qed.
Lemma vec_push_cap s v v' : vec_push s v = Some v' -> v_cap v' = if (v_cap v =? v_size v)%N then N.max (v_cap v) (w32 (v_size v * 2)) else v_cap v.
Proof.
  unfold vec_push. destruct (v_cap v =? v_size v)%N.
  - destruct (write _ _ _) as [c|]; [|discriminate]. intro E. injection E as <-. cbn [v_cap]. apply vec_reserve_cap.
  - destruct (write _ _ _) as [c|]; [|discriminate]. intro E. injection E as <-. reflexivity.
Qed.
Lemma run_state cap ops : (N.of_nat (length (pushed ops)) < 2 ^ 32)%N ->
  ((forall a s b, ops = a ++ Push s :: b -> ~ bad_push cap a) -> exists v, vec_run cap ops = Some v /\ vok v (pushed ops) /\ (v_size v, v_cap v) = after_ops cap ops) /\
  ((exists a s b, ops = a ++ Push s :: b /\ bad_push cap a) -> vec_run cap ops = None).
Proof.
  induction ops as [|o t IH] using rev_ind; intro L.
  - split.
    + intros _. exists (vec_new cap). split; [reflexivity|]. split; [|reflexivity]. constructor; cbn; [reflexivity|apply repeat_length|lia|eexists; reflexivity].
    + intros (a & s & b & E & _). destruct a; discriminate E.
  - rewrite pushed_app, app_length in L. destruct IH as [Good Bad]; [lia|]. rewrite vec_run_snoc. split.
    + intro H. destruct Good as (v & R & V & C). { intros a s b E. apply (H a s (b ++ [o])). rewrite E, <- app_assoc. reflexivity. }
      rewrite R. cbn [vec_step]. rewrite after_snoc, pushed_app, <- C. destruct o as [s|n]; cbn [pushed after_op fst snd].
      * assert (NB : ~ bad_push cap t) by (apply (H t s []); reflexivity). unfold bad_push in NB. rewrite <- C in NB.
        pose proof (ok_le _ _ V) as Le. pose proof (ok_size _ _ V) as Sz. cbn [pushed List.length] in L.
        destruct (v_cap v =? v_size v)%N eqn:E.
        -- apply N.eqb_eq in E. assert (K : (0 < v_size v < 2 ^ 31)%N) by lia. destruct (vok_push v _ s V) as (v' & P & V' & _); [lia|lia|].
           exists v'. split; [exact P|]. split; [exact V'|]. rewrite (ok_size _ _ V'), app_length, (vec_push_cap s v v' P), E, N.eqb_refl. cbn [List.length]. f_equal; [rewrite Sz; lia|]. unfold w32. rewrite N.mod_small by lia. lia.
        -- apply N.eqb_neq in E. assert (P1 : exists v', vec_push s v = Some v' /\ vok v' (pushed t ++ [s])).
           { unfold vec_push. rewrite (proj2 (N.eqb_neq _ _) E). cbv zeta. destruct V as [A B D [r F]]. assert (R0 : r <> []). { intros ->. rewrite app_nil_r in F. rewrite F, map_length in B. lia. }
             destruct r as [|y r]; [contradiction|].
             assert (W : write (N.to_nat (v_size v)) (Some s) (v_cells v) = Some (map Some (pushed t) ++ Some s :: r)).
             { rewrite F, A, Nat2N.id. replace (length (pushed t)) with (length (map (@Some str) (pushed t))) by apply map_length. apply write_at. }
             rewrite W. cbn [option_map]. eexists. split; [reflexivity|].
             assert (W1 : w32 (v_size v + 1) = (v_size v + 1)%N) by (unfold w32; apply N.mod_small; lia).
             constructor; cbn [v_size v_cells v_cap].
             - rewrite W1, app_length. cbn [List.length]. lia.
             - rewrite F in B. rewrite <- B, !app_length. reflexivity.
             - rewrite W1. lia.
             - exists r. rewrite map_app, <- app_assoc. reflexivity. }
           destruct P1 as (v' & P & V'). exists v'. split; [exact P|]. split; [exact V'|]. rewrite (ok_size _ _ V'), app_length, (vec_push_cap s v v' P), (proj2 (N.eqb_neq _ _) E). cbn [List.length].
           rewrite (proj2 (N.eqb_neq (v_size v) (v_cap v))) by lia. f_equal. rewrite Sz. lia.
      * exists (vec_reserve n v). split; [reflexivity|]. rewrite app_nil_r. split; [exact (proj1 (vok_reserve v _ n V))|]. rewrite vec_reserve_cap. f_equal. unfold vec_reserve. destruct (n <=? v_cap v)%N; reflexivity.
    + intros (a & s & b & E & B). assert (Cb : b = [] \/ b <> []) by (destruct b; [left; reflexivity|right; discriminate]). destruct Cb as [-> |Nb].
      * apply app_inj_tail in E. destruct E as [<- ->]. destruct (vec_run cap t) as [v|] eqn:R; [|reflexivity]. cbn [vec_step].
        assert (Vs : vok v (pushed t) /\ (v_size v, v_cap v) = after_ops cap t).
        { assert (Hg : forall a s0 b, t = a ++ Push s0 :: b -> ~ bad_push cap a). { intros a0 s0 b0 E0 B0. assert (X : @Some vec v = None) by (apply Bad; exists a0, s0, b0; split; assumption). discriminate X. }
          destruct (Good Hg) as (v0 & R0 & V0 & C0). injection R0 as <-. split; assumption. }
        destruct Vs as [V C]. unfold bad_push in B. rewrite <- C in B. destruct B as [Ef B]. unfold vec_push. rewrite <- Ef, N.eqb_refl.
        assert (Rv : vec_reserve (w32 (v_size v * 2)) v = v).
        { unfold vec_reserve. rewrite (proj2 (N.leb_le _ _)); [reflexivity|]. rewrite <- Ef. destruct B as [B|B]; [rewrite B; reflexivity|]. pose proof (ok_size _ _ V) as Sz. cbn [pushed List.length] in L.
          unfold w32. replace (v_size v * 2)%N with ((v_size v * 2 - 2 ^ 32) + 1 * 2 ^ 32)%N by lia. rewrite N.mod_add by lia. rewrite N.mod_small by lia. lia. }
        rewrite Rv, write_over by (rewrite (ok_cap _ _ V), Ef; lia). reflexivity.
      * rewrite Bad; [reflexivity|]. destruct (exists_last Nb) as (b' & o' & ->). change (a ++ Push s :: b' ++ [o']) with (a ++ (Push s :: b') ++ [o']) in E. rewrite app_assoc in E. apply app_inj_tail in E. destruct E as [-> _]. exists a, s, b'. split; [reflexivity|exact B].
Qed.
(** Any sequence of operations (fewer than 2^32 elements): it stays inside the storage exactly if no push is a bad one, and then the array is the sequence of the values pushed. *)
Theorem C40_exact : forall cap ops, (N.of_nat (length (pushed ops)) < 2 ^ 32)%N ->
  ((exists v, vec_run cap ops = Some v) <-> forall a s b, ops = a ++ Push s :: b -> ~ bad_push cap a) /\
  forall v, vec_run cap ops = Some v -> v_size v = N.of_nat (length (pushed ops)) /\ forall i, i < length (pushed ops) -> vec_at (N.of_nat i) v = nth_error (pushed ops) i.
Proof.
  intros cap ops L. destruct (run_state cap ops L) as [Good Bad].
  assert (Fwd : forall v, vec_run cap ops = Some v -> forall a s b, ops = a ++ Push s :: b -> ~ bad_push cap a).
  { intros v R a s b E B. rewrite Bad in R by (exists a, s, b; split; assumption). discriminate R. }
  split.
  - split; [intros [v R]; exact (Fwd v R)|]. intro H. destruct (Good H) as (v & R & _). exists v. exact R.
  - intros v R. destruct (Good (Fwd v R)) as (v0 & R0 & V & _). rewrite R in R0. injection R0 as <-. split; [exact (ok_size _ _ V)|]. intros i H. exact (vok_at v _ i V H).
Qed.
Example C40_exact_case : bad_push 0 [] /\ ~ bad_push 0 [Reserve 3] /\ exists v, vec_run 0 [Reserve 3; Push (L "a")] = Some v.
Proof. split; [split; [reflexivity|left; reflexivity]|]. split; [intros [E _]; discriminate E|]. eexists. vm_compute. reflexivity. Qed.

(** * C41 *)
(** the text held after a sequence of operations *)
Inductive holds : list zop -> str -> Prop :=
| holds_assign ops s : cstr s <> [] -> holds (ops ++ [Assign s]) (cstr s)
| holds_assign_n ops s n : (0 < n)%N -> holds (ops ++ [AssignN s n]) (cstr (firstn (N.to_nat n) s))
| holds_empty ops s t : cstr s = [] -> holds ops t -> holds (ops ++ [Assign s]) t
| holds_empty_n ops s t : holds ops t -> holds (ops ++ [AssignN s 0]) t
| holds_reserve_0 ops t : holds ops t -> holds (ops ++ [ReserveZ 0]) t
| holds_reserve ops n t : (N.of_nat (length t) < 8 * n)%N -> holds ops t -> holds (ops ++ [ReserveZ n]) t
| holds_data ops t : holds ops t -> holds (ops ++ [Data]) t.

Lemma read_text_cut (m : list (option ascii)) : forall k j t, read_text (firstn k m ++ repeat None j) = Some t <-> read_text m = Some t /\ length t < k.
Proof.
  induction m as [|[c|] m IH]; intros k j t.
  - rewrite firstn_nil. cbn [app read_text]. split; [|intros [H _]; discriminate H]. destruct j; discriminate.
  - destruct k as [|k]; cbn [firstn app read_text].
    + split; [destruct j; discriminate|intros [_ H]; lia].
    + destruct (ceqb c zero); [split; [intro E; injection E as <-; split; [reflexivity|cbn; lia]|intros [E _]; exact E]|].
      split.
      * destruct (read_text (firstn k m ++ repeat None j)) as [u|] eqn:E; [|discriminate]. cbn [option_map]. intro H. injection H as <-. apply IH in E. destruct E as [-> L]. split; [reflexivity|cbn [List.length]; lia].
      * destruct (read_text m) as [u|] eqn:E; [|intros [H _]; discriminate H]. cbn [option_map]. intros [H L]. injection H as <-. cbn [List.length] in L.
        assert (X : read_text (firstn k m ++ repeat None j) = Some u) by (apply IH; split; [reflexivity|lia]). rewrite X. reflexivity.
  - destruct k as [|k]; cbn [firstn app read_text]; (split; [try (destruct j); discriminate|intros [H _]; discriminate H]).
Qed.
Lemma text_cells z : cs_text z = read_text (cells z).
Proof. unfold cs_text, cs_data. destruct (z_mem z) as [m|] eqn:M; [reflexivity|]. unfold cs_reserve, cells. cbn [N.leb N.compare z_mem]. rewrite M. reflexivity. Qed.
Lemma text_reserve n z t : (0 < n)%N -> cs_text (cs_reserve n z) = Some t <-> cs_text z = Some t /\ (N.of_nat (length t) < 8 * n)%N.
Proof.
  intro P. rewrite !text_cells. unfold cs_reserve. rewrite (proj2 (N.leb_gt _ _) P). unfold cells at 1. cbn [z_mem]. rewrite read_text_cut. split; (intros [A B]; split; [exact A|lia]).
Qed.
Lemma text_reserve_0 z : cs_text (cs_reserve 0 z) = cs_text z.
Proof. rewrite !text_cells. reflexivity. Qed.
Lemma text_data z : cs_text (cs_data z) = cs_text z.
Proof. rewrite !text_cells. unfold cs_data. destruct (z_mem z) as [m|] eqn:M; [reflexivity|]. unfold cs_reserve, cells. cbn [N.leb N.compare z_mem]. rewrite M. reflexivity. Qed.
Lemma read_text_cstr s r : read_text (map Some s ++ Some zero :: r) = Some (cstr s).
Proof.
  induction s as [|c t IH]; cbn [map List.app read_text cstr]; [rewrite ceqb_refl; reflexivity|]. destruct (ceqb c zero); [reflexivity|]. rewrite IH. reflexivity.
Qed.
Lemma text_assign_n s n z z' : (0 < n)%N -> (n <= N.of_nat (length s))%N -> cs_assign_n s n z = Some z' -> cs_text z' = Some (cstr (firstn (N.to_nat n) s)).
Proof.
  intros P Le E. destruct (assign_n_spec s n z P Le) as (z1 & r & E1 & M & _). rewrite E in E1. injection E1 as <-. rewrite text_cells. unfold cells. rewrite M. apply read_text_cstr.
Qed.
Lemma cstr_idem s : cstr (cstr s) = cstr s.
Proof. induction s as [|c s IH]; [reflexivity|]. cbn [cstr]. destruct (ceqb c zero) eqn:E; [reflexivity|]. cbn [cstr]. rewrite E, IH. reflexivity. Qed.
Lemma cs_run_snoc ops o : cs_run (ops ++ [o]) = cs_step (cs_run ops) o.
Proof. unfold cs_run. apply fold_left_app. Qed.
Lemma holds_inv ops o t : holds (ops ++ [o]) t <->
  match o with
  | Assign s => (cstr s <> [] /\ t = cstr s) \/ (cstr s = [] /\ holds ops t)
  | AssignN s n => ((0 < n)%N /\ t = cstr (firstn (N.to_nat n) s)) \/ (n = 0%N /\ holds ops t)
  | ReserveZ n => holds ops t /\ (n = 0%N \/ (N.of_nat (length t) < 8 * n)%N)
  | Data => holds ops t
  end.
Proof.
  split.
  - intro H. remember (ops ++ [o]) as l eqn:E. destruct H as [ops' s N|ops' s n N|ops' s t N H|ops' s t H|ops' t H|ops' n t N H|ops' t H]; apply app_inj_tail in E; destruct E as [-> <-]; auto.
  - destruct o as [s|s n|n|].
    + intros [[A ->]|[A B]]; [apply holds_assign, A|apply holds_empty; assumption].
    + intros [[A ->]|[-> B]]; [apply holds_assign_n, A|apply holds_empty_n, B].
    + intros [A [-> |B]]; [apply holds_reserve_0, A|apply holds_reserve; assumption].
    + intro A. apply holds_data, A.
Qed.
(** Any sequence of operations (texts shorter than 2^32, counted assignments inside their source): it stays inside the storage, and reading the string gives exactly the text held; if none is held, reading it runs over cells never written or outside. *)
Theorem C41_exact : forall ops, (forall s n, In (AssignN s n) ops -> (n <= N.of_nat (length s))%N) -> (forall s, In (Assign s) ops -> (N.of_nat (length s) < 2 ^ 32)%N) ->
  exists z, cs_run ops = Some z /\ forall t, cs_text z = Some t <-> holds ops t.
Proof.
  intro ops. induction ops as [|o l IH] using rev_ind; intros H1 H2.
  - exists cs_new. split; [reflexivity|]. intro t. split; [discriminate|]. intro H. remember (@nil zop) as l eqn:E. destruct H; destruct ops; discriminate E.
  - destruct (C41_safe (l ++ [o]) H1) as [z' R']. exists z'. split; [exact R'|].
    destruct IH as (z & R & T); [intros s n I; apply H1, in_app_iff; left; exact I|intros s I; apply H2, in_app_iff; left; exact I|].
    rewrite cs_run_snoc, R in R'. cbn [cs_step] in R'. intro t. rewrite holds_inv. destruct o as [s|s n|n|]; rewrite <- (T t).
    + unfold cs_assign in R'. assert (Ls : (N.of_nat (length s) < 2 ^ 32)%N) by (apply H2, in_app_iff; right; left; reflexivity).
      assert (Lc : length (cstr s) <= length s) by (clear; induction s as [|c s IH]; [apply le_n|]; cbn [cstr]; destruct (ceqb c zero); cbn [List.length]; lia).
      destruct (cstr s) as [|c u] eqn:C.
      * injection R' as <-. rewrite text_reserve_0. split; [intro A; right; split; [reflexivity|exact A]|intros [[A _]|[_ A]]; [contradiction|exact A]].
      * rewrite <- C in *. assert (W : w32 (N.of_nat (length (cstr s))) = N.of_nat (length (cstr s))) by (unfold w32; apply N.mod_small; lia). rewrite W in R'.
        assert (P : (0 < N.of_nat (length (cstr s)))%N) by (rewrite C; cbn [List.length]; lia).
        rewrite (text_assign_n (cstr s) (N.of_nat (length (cstr s))) z z' P ltac:(lia) R'). rewrite Nat2N.id, firstn_all, cstr_idem. split.
        -- intro A. injection A as <-. left. split; [rewrite C; discriminate|reflexivity].
        -- intros [[_ ->]|[A _]]; [reflexivity|rewrite C in A; discriminate A].
    + assert (Le : (n <= N.of_nat (length s))%N) by (apply H1, in_app_iff; right; left; reflexivity). rewrite (proj2 (N.leb_le _ _) Le) in R'.
      destruct (N.eq_dec n 0) as [-> |N0].
      * change (cs_assign_n s 0 z) with (Some (cs_reserve 0 z)) in R'. injection R' as <-. rewrite text_reserve_0. split; [intro A; right; split; [reflexivity|exact A]|intros [[A _]|[_ A]]; [lia|exact A]].
      * rewrite (text_assign_n s n z z' ltac:(lia) Le R'). split; [intro A; injection A as <-; left; split; [lia|reflexivity]|intros [[_ ->]|[A _]]; [reflexivity|contradiction]].
    + injection R' as <-. destruct (N.eq_dec n 0) as [-> |N0]; [rewrite text_reserve_0; tauto|]. rewrite text_reserve by lia. split; [intros [A B]; auto|intros [A [B|B]]; [contradiction|split; assumption]].
    + injection R' as <-. rewrite text_data. reflexivity.
Qed.
Example C41_exact_case : holds [Assign (L "hello"); Data; ReserveZ 1; Assign []] (L "hello") /\ ~ (exists t, holds [Assign (L "hello world"); ReserveZ 1; ReserveZ 9] t).
Proof.
  split.
  - apply (holds_empty [Assign (L "hello"); Data; ReserveZ 1]); [reflexivity|]. apply (holds_reserve [Assign (L "hello"); Data]); [reflexivity|]. apply (holds_data [Assign (L "hello")]). apply (holds_assign []). discriminate.
  - intros [t H]. apply (holds_inv [Assign (L "hello world"); ReserveZ 1]) in H. destruct H as [H _]. apply (holds_inv [Assign (L "hello world")]) in H. destruct H as [H [K|K]]; [discriminate K|]. apply (holds_inv []) in H. destruct H as [[_ ->]|[E _]]; [vm_compute in K; discriminate K|discriminate E].
Qed.
