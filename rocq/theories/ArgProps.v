(** C42: a command line is accepted iff it satisfies the grammar of ArgSpec, the mandatory options and the count rule. *)
From Verif Require Import Base BaseProofs ArgModel ArgSpec.
From Coq Require Import Lia.

Lemma split_eq_none s : ~ In "="%char s -> split_eq s = (s, None).
Proof. intro N. unfold split_eq. apply cfind_None in N. rewrite N. reflexivity. Qed.
Lemma split_eq_some s v : ~ In "="%char s -> split_eq (s ++ "="%char :: v) = (s, Some v).
Proof.
  intro N. unfold split_eq. rewrite (cfind_app _ s v N). rewrite firstn_app, Nat.sub_diag, firstn_all, firstn_O, app_nil_r. f_equal. f_equal. rewrite skipn_app.
  rewrite skipn_all2 by lia. replace (S (length s) - length s) with 1 by lia. reflexivity.
Qed.
Lemma split_eq_inv s name v : split_eq s = (name, v) -> match v with None => s = name | Some x => s = name ++ "="%char :: x end.
Proof.
  unfold split_eq. destruct (cfind "="%char s) as [n|] eqn:E; intro H; injection H as <- <-; [|reflexivity].
  exact (proj2 (proj2 (cfind_Some _ _ _ E))).
Qed.
Lemma find_long_some t s o : find_long t s = Some o -> In o (t_opts t) /\ o_long o = s /\ s <> [].
Proof. intro F. apply find_some in F. destruct F as [I B]. apply andb_prop in B. destruct B as [B1 B2]. apply seqb_eq in B1. apply Bool.negb_true_iff, seqb_neq in B2. auto. Qed.
Lemma find_unique {A} (f : A -> bool) l x : In x l -> f x = true -> (forall y, In y l -> f y = true -> y = x) -> find f l = Some x.
Proof.
  intros I F U. destruct (find f l) as [y|] eqn:E; [apply find_some in E; rewrite (U y (proj1 E) (proj2 E)); reflexivity|]. pose proof (find_none _ _ E x I). congruence.
Qed.
Lemma find_long_ok t o : table_ok t -> In o (t_opts t) -> o_long o <> [] -> find_long t (o_long o) = Some o.
Proof.
  intros T I N. apply find_unique; [exact I| |].
  - rewrite seqb_refl. apply seqb_neq in N. rewrite N. reflexivity.
  - intros y Iy B. apply andb_prop in B. destruct B as [B _]. apply seqb_eq in B. symmetry. apply (ok_long t T); auto.
Qed.
Lemma find_short_some t c o : find_short t c = Some o -> In o (t_opts t) /\ o_short o = Some c.
Proof. intro F. apply find_some in F. destruct F as [I B]. destruct (o_short o) as [d|]; [|discriminate]. apply ceqb_eq in B. subst d. auto. Qed.
Lemma find_short_ok t o c : table_ok t -> In o (t_opts t) -> o_short o = Some c -> find_short t c = Some o.
Proof.
  intros T I S. apply find_unique; [exact I|rewrite S; apply ceqb_refl|]. intros y Iy B. destruct (o_short y) as [d|] eqn:E; [|discriminate]. apply ceqb_eq in B. subst d. apply (ok_short t T y o c); auto.
Qed.
Lemma long_opt_ok t o : table_ok t -> In o (t_opts t) -> o_long o <> [] ->
  (o_val o = false -> long_opt t (o_long o) = Some (o_id o, []) /\ forall x, long_opt t (o_long o ++ "="%char :: x) = Some (o_id o, [])) /\
  (o_val o = true -> forall v, v <> [] -> long_opt t (o_long o ++ "="%char :: v) = Some (o_id o, v)).
Proof.
  intros T I N. pose proof (ok_eq t T o I) as Q. split; intro V; [split; [|intro x]|intros v Nv]; unfold long_opt.
  - rewrite (split_eq_none _ Q), (find_long_ok t o T I N), V. reflexivity.
  - rewrite (split_eq_some _ x Q), (find_long_ok t o T I N), V. reflexivity.
  - rewrite (split_eq_some _ v Q), (find_long_ok t o T I N), V. destruct v; [contradiction|reflexivity].
Qed.
Lemma long_opt_inv t body p : long_opt t body = Some p -> exists o v, p = (o_id o, v) /\ word t [dash :: dash :: body] (IOpt o v).
Proof.
  unfold long_opt. destruct (split_eq body) as [name v] eqn:E. apply split_eq_inv in E. destruct (find_long t name) as [o|] eqn:F; [|discriminate]. destruct (find_long_some t name o F) as [I [<- N]].
  destruct (o_val o) eqn:V.
  - destruct v as [[|x y]|]; [discriminate| |discriminate]. intro H; injection H as <-. exists o, (x :: y). split; [reflexivity|]. rewrite E. apply w_long_value; auto. discriminate.
  - intro H; injection H as <-. exists o, []. split; [reflexivity|]. destruct v as [x|]; rewrite E; [apply w_long_ignored; auto|apply w_long; auto].
Qed.

Definition opts_of (l : list item) : list (nat * str) := flat_map (fun i => match i with IOpt o v => [(o_id o, v)] | IArg _ => [] end) l.
Definition past (n : nat) (k : option nat) : option nat := match k with Some m => if n <=? m then Some (m - n) else None | None => None end.
Lemma ahead_past1 k : k <> Some 0 -> ahead k = past 1 k.
Proof. destruct k as [[|n]|]; cbn; intro H; [contradiction|rewrite Nat.sub_0_r; reflexivity|reflexivity]. Qed.
Lemma ahead_past2 k : k <> Some 0 -> k <> Some 1 -> ahead (ahead k) = past 2 k.
Proof. destruct k as [[|[|n]]|]; cbn; intros H H1; [contradiction|contradiction|rewrite Nat.sub_0_r; reflexivity|reflexivity]. Qed.
Lemma ahead2 k : k = Some 1 -> ahead (ahead k) = None.
Proof. intros ->. reflexivity. Qed.
Lemma not_dash a : (forall r, a <> dash :: r) -> match a with c :: _ => ceqb c dash = false | [] => True end.
Proof. destruct a as [|c r]; intro H; [exact Logic.I|]. apply ceqb_neq. intros ->. apply (H r). reflexivity. Qed.
Lemma step_word t k w i rest set others : table_ok t -> word t w i -> (forall n, k = Some n -> length w <= n) ->
  second_loop t k (w ++ rest) set others = second_loop t (past (length w) k) rest (opts_of [i] ++ set) (others ++ args_of [i]).
Proof.
  intros T W K. assert (K0 : k <> Some 0). { intros ->. destruct W; specialize (K 0 eq_refl); cbn in K; lia. }
  assert (U : forall a rest', second_loop t k (a :: rest') set others =
    match a with
      | c0 :: more =>
        if ceqb c0 dash then
          match more with
          | [] => None
          | c1 :: body =>
            if ceqb c1 dash then
              match long_opt t body with Some p => second_loop t (ahead k) rest' (p :: set) others | None => None end
            else
              match body with
              | _ :: _ => None
              | [] =>
                match find_short t c1 with
                | None => None
                | Some o =>
                  if o_val o then
                    match rest' with
                    | [] => None
                    | v :: rest'' => second_loop t (ahead (ahead k)) rest'' ((o_id o, v) :: set) others
                    end
                  else second_loop t (ahead k) rest' ((o_id o, []) :: set) others
                end
              end
          end
        else second_loop t (ahead k) rest' set (others ++ [a])
      | [] => second_loop t (ahead k) rest' set (others ++ [a])
    end) by (intros a rest'; destruct k as [[|n]|]; [contradiction|reflexivity|reflexivity]).
  destruct W as [a Na|o I N V|o x I N V|o v I N V Nv|o c I S V|o c v I S V]; cbn [List.app List.length opts_of args_of flat_map] in *; rewrite U, ?app_nil_r.
  - rewrite (ahead_past1 k K0). pose proof (not_dash a Na) as D. destruct a as [|c r]; [reflexivity|]. rewrite D. reflexivity.
  - rewrite ceqb_refl, (proj1 (proj1 (long_opt_ok t o T I N) V)), (ahead_past1 k K0). reflexivity.
  - rewrite ceqb_refl, (proj2 (proj1 (long_opt_ok t o T I N) V) x), (ahead_past1 k K0). reflexivity.
  - rewrite ceqb_refl, (proj2 (long_opt_ok t o T I N) V v Nv), (ahead_past1 k K0). reflexivity.
  - rewrite ceqb_refl. assert (D : ceqb c dash = false) by (apply ceqb_neq; intros ->; exact (ok_dash t T o I S)). rewrite D, (find_short_ok t o c T I S), V, (ahead_past1 k K0). reflexivity.
  - rewrite ceqb_refl. assert (D : ceqb c dash = false) by (apply ceqb_neq; intros ->; exact (ok_dash t T o I S)). rewrite D, (find_short_ok t o c T I S), V.
    rewrite ahead_past2; [reflexivity|exact K0|]. intros ->. specialize (K 1 eq_refl). lia.
Qed.
Lemma step_inv t k a rest set others r : k <> Some 0 -> second_loop t k (a :: rest) set others = Some r ->
  exists w i rest', a :: rest = w ++ rest' /\ word t w i /\ second_loop t (if length w =? 1 then ahead k else ahead (ahead k)) rest' (opts_of [i] ++ set) (others ++ args_of [i]) = Some r.
Proof.
  intros K0 H.
  assert (H' : match a with
      | c0 :: more =>
        if ceqb c0 dash then
          match more with
          | [] => None
          | c1 :: body =>
            if ceqb c1 dash then
              match long_opt t body with Some p => second_loop t (ahead k) rest (p :: set) others | None => None end
            else
              match body with
              | _ :: _ => None
              | [] =>
                match find_short t c1 with
                | None => None
                | Some o =>
                  if o_val o then
                    match rest with
                    | [] => None
                    | v :: rest'' => second_loop t (ahead (ahead k)) rest'' ((o_id o, v) :: set) others
                    end
                  else second_loop t (ahead k) rest ((o_id o, []) :: set) others
                end
              end
          end
        else second_loop t (ahead k) rest set (others ++ [a])
      | [] => second_loop t (ahead k) rest set (others ++ [a])
    end = Some r) by (destruct k as [[|n]|]; [contradiction|exact H|exact H]). clear H. rename H' into H.
  destruct a as [|c0 more].
  - exists [[]], (IArg []), rest. split; [reflexivity|]. split; [apply w_arg; discriminate|exact H].
  - destruct (ceqb_spec c0 dash) as [->|Nd].
    2:{ exists [c0 :: more], (IArg (c0 :: more)), rest. split; [reflexivity|]. split; [apply w_arg; intros r' E; injection E as E _; contradiction|exact H]. }
    destruct more as [|c1 body]; [discriminate|]. destruct (ceqb_spec c1 dash) as [->|N1].
    + destruct (long_opt t body) as [p|] eqn:Lo; [|discriminate]. destruct (long_opt_inv t body p Lo) as [o [v [-> W]]]. exists [dash :: dash :: body], (IOpt o v), rest. split; [reflexivity|]. split; [exact W|]. cbn [List.length Nat.eqb opts_of args_of flat_map List.app]. rewrite app_nil_r. exact H.
    + destruct body as [|? ?]; [|discriminate]. destruct (find_short t c1) as [o|] eqn:F; [|discriminate]. destruct (find_short_some t c1 o F) as [I S]. destruct (o_val o) eqn:V.
      * destruct rest as [|v rest]; [discriminate|]. exists [[dash; c1]; v], (IOpt o v), rest. split; [reflexivity|]. split; [apply w_short_value; auto|]. cbn [List.length Nat.eqb opts_of args_of flat_map List.app]. rewrite app_nil_r. exact H.
      * exists [[dash; c1]], (IOpt o []), rest. split; [reflexivity|]. split; [apply w_short; auto|]. cbn [List.length Nat.eqb opts_of args_of flat_map List.app]. rewrite app_nil_r. exact H.
Qed.
Lemma opts_of_cons i l : opts_of (i :: l) = opts_of [i] ++ opts_of l.
Proof. unfold opts_of. cbn. rewrite app_nil_r. reflexivity. Qed.
Lemma args_of_cons i l : args_of (i :: l) = args_of [i] ++ args_of l.
Proof. unfold args_of. cbn. rewrite app_nil_r. reflexivity. Qed.
Lemma opts_of_app a b : opts_of (a ++ b) = opts_of a ++ opts_of b.
Proof. unfold opts_of. apply flat_map_app. Qed.
Lemma args_of_app a b : args_of (a ++ b) = args_of a ++ args_of b.
Proof. unfold args_of. apply flat_map_app. Qed.
Lemma rev_opts1 i : rev (opts_of [i]) = opts_of [i].
Proof. destruct i; reflexivity. Qed.
Lemma words_run t ws is rest : table_ok t -> words t ws is -> forall k set others, (forall n, k = Some n -> length ws <= n) ->
  second_loop t k (ws ++ rest) set others = second_loop t (past (length ws) k) rest (rev (opts_of is) ++ set) (others ++ args_of is).
Proof.
  intros T W. induction W as [|w i ws is W1 W2 IH]; intros k set others K.
  - cbn [List.app List.length opts_of args_of flat_map rev]. rewrite app_nil_r. destruct k as [m|]; cbn; [rewrite Nat.sub_0_r|]; reflexivity.
  - rewrite app_length in *. rewrite <- app_assoc, (step_word t k w i (ws ++ rest) set others T W1) by (intros n E; specialize (K n E); lia). rewrite IH.
    + rewrite (opts_of_cons i is), (args_of_cons i is), rev_app_distr, rev_opts1, <- !app_assoc. f_equal. destruct k as [m|]; [|reflexivity]. specialize (K m eq_refl). cbn [past]. rewrite !(proj2 (Nat.leb_le _ _)) by lia. cbn [past]. rewrite !(proj2 (Nat.leb_le _ _)) by lia. f_equal. lia.
    + intros n E. destruct k as [m|]; [|discriminate]. specialize (K m eq_refl). cbn [past] in E. rewrite (proj2 (Nat.leb_le _ _)) in E by lia. injection E as <-. lia.
Qed.
Lemma run_words t : forall n args set others r, length args <= n -> second_loop t None args set others = Some r -> exists is, words t args is /\ r = (rev (opts_of is) ++ set, others ++ args_of is).
Proof.
  induction n as [|n IH]; intros args set others r Le H.
  - destruct args; [|cbn in Le; lia]. cbn in H. injection H as <-. exists []. split; [constructor|]. cbn. rewrite app_nil_r. reflexivity.
  - destruct args as [|a rest]; [cbn in H; injection H as <-; exists []; split; [constructor|]; cbn; rewrite app_nil_r; reflexivity|].
    destruct (step_inv t None a rest set others r ltac:(discriminate) H) as [w [i [rest' [E [W R]]]]].
    assert (R' : second_loop t None rest' (opts_of [i] ++ set) (others ++ args_of [i]) = Some r) by (destruct (length w =? 1); exact R).
    destruct (IH rest' (opts_of [i] ++ set) (others ++ args_of [i]) r) as [is [Ws ->]]; [|exact R'|].
    + assert (Lw : 1 <= length w) by (destruct W; cbn; lia). apply (f_equal (@List.length _)) in E. rewrite app_length in E. cbn [List.length] in E, Le. lia.
    + exists (i :: is). split; [rewrite E; constructor; assumption|]. rewrite (opts_of_cons i is), (args_of_cons i is), rev_app_distr, rev_opts1, <- !app_assoc. reflexivity.
Qed.
Lemma run_pre t cn post : no_short_values t -> forall pre set others r, second_loop t (Some (length pre)) (pre ++ cn :: post) set others = Some r ->
  exists is, words t pre is /\ second_loop t None post (rev (opts_of is) ++ set) (others ++ args_of is) = Some r.
Proof.
  intros NS pre. induction pre as [|a pre IH]; intros set others r H.
  - exists []. split; [constructor|]. cbn [List.length List.app second_loop] in H. cbn. rewrite app_nil_r. exact H.
  - cbn [List.app List.length] in H. destruct (step_inv t (Some (S (length pre))) a (pre ++ cn :: post) set others r ltac:(discriminate) H) as [w [i [rest' [E [W R]]]]].
    assert (Lw : exists x, w = [x]). { destruct W as [? ?|? ? ? ?|? ? ? ? ?|? ? ? ? ? ?|? ? ? ? ?|o c v I S V]; [eauto|eauto|eauto|eauto|eauto|]. rewrite (NS o c I S) in V. discriminate. }
    destruct Lw as [x ->]. cbn [List.length Nat.eqb ahead] in R. cbn [List.app] in E. injection E as <- <-. destruct (IH _ _ _ R) as [is [Ws R']]. exists (i :: is). split; [change (a :: pre) with ([a] ++ pre); constructor; assumption|].
    rewrite (opts_of_cons i is), (args_of_cons i is), rev_app_distr, rev_opts1, <- !app_assoc. rewrite <- app_assoc in R'. exact R'.
Qed.
(** the first loop *)
Lemma is_opt_spec a : is_opt a = true <-> exists r, a = dash :: r.
Proof.
  destruct a as [|c r]; cbn; [split; [discriminate|intros [r E]; discriminate]|]. rewrite ceqb_eq. split; [intros ->; eauto|intros [r' E]; injection E as -> _; reflexivity].
Qed.
Lemma find_cmd_ok t c : table_ok t -> In c (t_cmds t) -> find_cmd t (a_name c) = Some c.
Proof.
  intros T I. unfold find_cmd. pose proof (ok_cmds t T) as N. induction (t_cmds t) as [|d l IH]; [contradiction|]. cbn [find]. cbn [map] in N. inversion N as [|? ? N1 N2]; subst.
  destruct I as [->|I]; [rewrite seqb_refl; reflexivity|]. destruct (seqb_spec (a_name d) (a_name c)) as [E|E]; [exfalso; apply N1; rewrite E; apply in_map, I|exact (IH I N2)].
Qed.
Lemma find_cmd_some t s c : find_cmd t s = Some c -> In c (t_cmds t) /\ a_name c = s.
Proof. intro F. apply find_some in F. destruct F as [I B]. apply seqb_eq in B. auto. Qed.
Lemma first_loop_found t : forall args i pos c, first_loop t i args = FCmd pos c -> exists pre post, args = pre ++ a_name c :: post /\ pos = i + length pre /\ In c (t_cmds t) /\
  (forall a, In a pre -> exists r, a = dash :: r) /\ ~ In (L "-h") pre /\ ~ In (L "--help") pre.
Proof.
  induction args as [|a rest IH]; intros i pos c H; [discriminate|]. cbn [first_loop] in H. destruct (is_opt a) eqn:O.
  - destruct (seqb a (L "-h") || seqb a (L "--help")) eqn:Hh; [discriminate|]. apply Bool.orb_false_iff in Hh. destruct Hh as [H1 H2]. apply seqb_neq in H1. apply seqb_neq in H2. apply is_opt_spec in O.
    destruct (IH _ _ _ H) as (pre & post & -> & -> & I & P & Q1 & Q2). exists (a :: pre), post. split; [reflexivity|]. split; [cbn [List.length]; lia|]. split; [exact I|].
    split; [intros b [<-|Ib]; [exact O|exact (P b Ib)]|]. split; intros [E|E]; congruence || contradiction.
  - destruct (find_cmd t a) as [d|] eqn:F; [|discriminate]. injection H as <- <-. destruct (find_cmd_some t a d F) as [I <-]. exists [], rest. split; [reflexivity|]. split; [cbn; lia|]. split; [exact I|]. split; [intros b []|]. split; intros [].
Qed.
Lemma first_loop_ok t c post : table_ok t -> In c (t_cmds t) -> forall pre i, (forall a, In a pre -> exists r, a = dash :: r) -> ~ In (L "-h") pre -> ~ In (L "--help") pre ->
  first_loop t i (pre ++ a_name c :: post) = FCmd (i + length pre) c.
Proof.
  intros T I pre. induction pre as [|a pre IH]; intros i P Q1 Q2; cbn [List.app first_loop].
  - assert (O : is_opt (a_name c) = false). { destruct (is_opt (a_name c)) eqn:O; [|reflexivity]. apply is_opt_spec in O. destruct O as [r E]. exfalso. exact (ok_name t T c r I E). }
    rewrite O, (find_cmd_ok t c T I), Nat.add_0_r. reflexivity.
  - assert (O : is_opt a = true) by (apply is_opt_spec, P; left; reflexivity). rewrite O. assert (H1 : seqb a (L "-h") = false) by (apply seqb_neq; intros ->; apply Q1; left; reflexivity). assert (H2 : seqb a (L "--help") = false) by (apply seqb_neq; intros ->; apply Q2; left; reflexivity).
    rewrite H1, H2. cbn [orb]. rewrite IH; [f_equal; cbn [List.length]; lia|intros b Ib; apply P; right; exact Ib|intro X; apply Q1; right; exact X|intro X; apply Q2; right; exact X].
Qed.
(** values *)
Lemma opt_value_gives id l : (forall v, opt_value id (rev (opts_of l)) = Some v <-> gives id l v) /\ (is_set id (rev (opts_of l)) = true <-> named id l).
Proof.
  assert (A : forall v, opt_value id (rev (opts_of l)) = Some v <-> gives id l v).
  { induction l as [|i l IH] using rev_ind; intro v.
    - cbn. split; [discriminate|]. intros (l1 & o & l2 & E & _). destruct l1; discriminate.
    - rewrite opts_of_app, rev_app_distr, rev_opts1. destruct i as [o w|a].
      + cbn [opts_of flat_map List.app]. unfold opt_value in *. cbn [find fst]. destruct (Nat.eqb (o_id o) id) eqn:E.
        * apply Nat.eqb_eq in E. cbn [option_map snd]. split.
          { intro H; injection H as <-. exists l, o, []. split; [reflexivity|]. split; [exact E|]. intros ? ? []. }
          { intros (l1 & o1 & l2 & Eq & Id & No). destruct l2 as [|x l2] using rev_ind.
            - apply app_inj_tail in Eq. destruct Eq as [_ Eq]. injection Eq as -> ->. reflexivity.
            - rewrite app_comm_cons, app_assoc in Eq. apply app_inj_tail in Eq. destruct Eq as [_ <-]. exfalso. apply (No o w); [apply in_app_iff; right; left; reflexivity|exact E]. }
        * apply Nat.eqb_neq in E. rewrite IH. split.
          { intros (l1 & o1 & l2 & -> & Id & No). exists l1, o1, (l2 ++ [IOpt o w]). split; [rewrite <- app_assoc; reflexivity|]. split; [exact Id|]. intros o' v' Ix. apply in_app_iff in Ix. destruct Ix as [Ix|[Ix|[]]]; [exact (No o' v' Ix)|]. injection Ix as <- _. exact E. }
          { intros (l1 & o1 & l2 & Eq & Id & No). destruct l2 as [|x l2 _] using rev_ind.
            - apply app_inj_tail in Eq. destruct Eq as [_ Eq]. injection Eq as -> ->. contradiction.
            - rewrite app_comm_cons, app_assoc in Eq. apply app_inj_tail in Eq. destruct Eq as [-> <-]. exists l1, o1, l2. split; [reflexivity|]. split; [exact Id|]. intros o' v' Ix. apply (No o' v'), in_app_iff. left. exact Ix. }
      + cbn [opts_of flat_map List.app]. rewrite IH. split.
        { intros (l1 & o1 & l2 & -> & Id & No). exists l1, o1, (l2 ++ [IArg a]). split; [rewrite <- app_assoc; reflexivity|]. split; [exact Id|]. intros o' v' Ix. apply in_app_iff in Ix. destruct Ix as [Ix|[Ix|[]]]; [exact (No o' v' Ix)|]. discriminate. }
        { intros (l1 & o1 & l2 & Eq & Id & No). destruct l2 as [|x l2 _] using rev_ind.
          - apply app_inj_tail in Eq. destruct Eq as [_ Eq]. discriminate.
          - rewrite app_comm_cons, app_assoc in Eq. apply app_inj_tail in Eq. destruct Eq as [-> <-]. exists l1, o1, l2. split; [reflexivity|]. split; [exact Id|]. intros o' v' Ix. apply (No o' v'), in_app_iff. left. exact Ix. } }
  split; [exact A|]. unfold is_set. split.
  - destruct (opt_value id (rev (opts_of l))) as [v|] eqn:E; [|discriminate]. intros _. destruct (proj1 (A v) eq_refl) as (l1 & o & l2 & -> & Id & _). exists o, v. split; [apply in_app_iff; right; left; reflexivity|exact Id].
  - intros (o & v & I & Id). destruct (opt_value id (rev (opts_of l))) as [w|] eqn:E; [reflexivity|]. exfalso. unfold opt_value in E. destruct (find (fun p => Nat.eqb (fst p) id) (rev (opts_of l))) as [p|] eqn:F; [discriminate|].
    pose proof (find_none _ _ F (o_id o, v)) as X. cbn [fst] in X. rewrite Id, Nat.eqb_refl in X. discriminate X. apply in_rev. rewrite rev_involutive. unfold opts_of. apply in_flat_map. exists (IOpt o v). split; [exact I|left; rewrite Id; reflexivity].
Qed.
Lemma count_ok_rule c n : count_ok c n = true <-> count_rule c n.
Proof.
  unfold count_ok, count_rule. destruct (a_check c); [tauto| | |].
  - rewrite Bool.negb_true_iff, Nat.ltb_ge. tauto.
  - apply Nat.eqb_eq.
  - rewrite Bool.negb_true_iff, Nat.ltb_ge. tauto.
Qed.
Lemma parse_found t args pos c set others : first_loop t 0 args = FCmd pos c -> second_loop t (Some pos) args [] [] = Some (set, others) ->
  parse t args = if is_set (t_help t) set then HelpFor c else if forallb (fun id => is_set id set) (a_mand c) then (if count_ok c (length others) then Go c set others else Bad) else Bad.
Proof. intros F S. unfold parse. rewrite F, S. reflexivity. Qed.
Lemma line_run t args c items : table_ok t -> line_means t args c items -> exists pos, first_loop t 0 args = FCmd pos c /\ second_loop t (Some pos) args [] [] = Some (rev (opts_of items), args_of items).
Proof.
  intros T (pre & post & i1 & i2 & -> & I & P & Q1 & Q2 & W1 & W2 & ->). exists (length pre). split; [exact (first_loop_ok t c post T I pre 0 P Q1 Q2)|].
  rewrite (words_run t pre i1 (a_name c :: post) T W1) by (intros n E; injection E as <-; lia). cbn [past]. rewrite Nat.leb_refl, Nat.sub_diag. cbn [second_loop].
  pose proof (words_run t post i2 [] T W2 None (rev (opts_of i1) ++ []) ([] ++ args_of i1)) as R. rewrite app_nil_r in R. rewrite R by discriminate. cbn [past second_loop]. rewrite opts_of_app, args_of_app, rev_app_distr, !app_nil_r. reflexivity.
Qed.
(** every command line with a meaning that is acceptable is accepted, with exactly these values and arguments *)
Theorem C42_complete : forall t args c items, table_ok t -> line_means t args c items -> acceptable t c items ->
  exists set, parse t args = Go c set (args_of items) /\ forall id v, opt_value id set = Some v <-> gives id items v.
Proof.
  intros t args c items T M (A1 & A2 & A3). destruct (line_run t args c items T M) as [pos [F S]]. exists (rev (opts_of items)). split; [|intros id v; exact (proj1 (opt_value_gives id items) v)].
  rewrite (parse_found t args pos c _ _ F S). assert (B1 : is_set (t_help t) (rev (opts_of items)) = false). { destruct (is_set (t_help t) (rev (opts_of items))) eqn:E; [|reflexivity]. apply (proj2 (opt_value_gives _ _)) in E. contradiction. }
  rewrite B1. assert (B2 : forallb (fun id => is_set id (rev (opts_of items))) (a_mand c) = true). { apply forallb_forall. intros id Ii. apply (proj2 (opt_value_gives _ _)), A2, Ii. }
  rewrite B2. apply count_ok_rule in A3. rewrite A3. reflexivity.
Qed.
(** a line with a meaning that asks for help gets the help of its command and nothing else; any other unacceptable one is an error *)
Theorem C42_refused : forall t args c items, table_ok t -> line_means t args c items -> ~ acceptable t c items ->
  parse t args = HelpFor c /\ named (t_help t) items \/ parse t args = Bad /\ ~ named (t_help t) items.
Proof.
  intros t args c items T M NA. destruct (line_run t args c items T M) as [pos [F S]]. rewrite (parse_found t args pos c _ _ F S). pose proof (proj2 (opt_value_gives (t_help t) items)) as Hh.
  destruct (is_set (t_help t) (rev (opts_of items))) eqn:B1; [left; split; [reflexivity|apply Hh; reflexivity]|]. right. assert (NH : ~ named (t_help t) items) by (intro X; apply Hh in X; discriminate). split; [|exact NH].
  destruct (forallb (fun id => is_set id (rev (opts_of items))) (a_mand c)) eqn:B2; [|reflexivity]. destruct (count_ok c (length (args_of items))) eqn:B3; [|reflexivity]. exfalso. apply NA. split; [exact NH|]. split; [|apply count_ok_rule, B3].
  intros id Ii. apply (proj2 (opt_value_gives _ _)). rewrite forallb_forall in B2. exact (B2 id Ii).
Qed.
(** only those lines: for tables without short options that take a value *)
Theorem C42_sound : forall t args c set others, table_ok t -> no_short_values t -> parse t args = Go c set others ->
  exists items, line_means t args c items /\ acceptable t c items /\ others = args_of items /\ forall id v, opt_value id set = Some v <-> gives id items v.
Proof.
  intros t args c set others T NS H. unfold parse in H. destruct (first_loop t 0 args) as [| | |pos d] eqn:F; [discriminate|discriminate|discriminate|]. destruct (first_loop_found t args 0 pos d F) as (pre & post & -> & -> & I & P & Q1 & Q2).
  destruct (second_loop t (Some (0 + length pre)) (pre ++ a_name d :: post) [] []) as [[s o]|] eqn:S; [|discriminate]. destruct (run_pre t (a_name d) post NS pre [] [] (s, o) S) as [i1 [W1 S2]]. destruct (run_words t (length post) post _ _ _ (Nat.le_refl _) S2) as [i2 [W2 E]]. injection E as -> ->.
  assert (Es : rev (opts_of i2) ++ rev (opts_of i1) ++ [] = rev (opts_of (i1 ++ i2))) by (rewrite opts_of_app, rev_app_distr, app_nil_r; reflexivity). assert (Eo : args_of i1 ++ args_of i2 = args_of (i1 ++ i2)) by (rewrite args_of_app; reflexivity). cbn [List.app] in H. rewrite Es, Eo in H.
  destruct (is_set (t_help t) (rev (opts_of (i1 ++ i2)))) eqn:B1; [discriminate|]. destruct (forallb (fun id => is_set id (rev (opts_of (i1 ++ i2)))) (a_mand d)) eqn:B2; [|discriminate]. destruct (count_ok d (length (args_of (i1 ++ i2)))) eqn:B3; [|discriminate]. injection H as <- <- <-.
  exists (i1 ++ i2). split; [exists pre, post, i1, i2; auto 10|]. split.
  - split; [intro X; apply (proj2 (opt_value_gives _ _)) in X; congruence|]. split; [|apply count_ok_rule, B3]. intros id Ii. apply (proj2 (opt_value_gives _ _)). rewrite forallb_forall in B2. exact (B2 id Ii).
  - split; [reflexivity|]. intros id v. exact (proj1 (opt_value_gives id (i1 ++ i2)) v).
Qed.
(** the table of the command cards satisfies both conditions *)
Lemma cards_ok : table_ok cards_table.
Proof.
  assert (Ol : NoDup (map o_long cards_opts)) by (vm_compute; repeat constructor; cbn; intuition discriminate).
  assert (G : forall (l : list aopt) o o', NoDup (map o_long l) -> In o l -> In o' l -> o_long o = o_long o' -> o = o').
  { induction l as [|x l IH]; intros o o' N I I' E; [contradiction|]. cbn [map] in N. inversion N as [|? ? N1 N2]; subst. destruct I as [->|I]; destruct I' as [->|I']; [reflexivity|exfalso; apply N1; rewrite E; apply in_map, I'|exfalso; apply N1; rewrite <- E; apply in_map, I|exact (IH o o' N2 I I' E)]. }
  constructor; cbn [t_cmds t_opts cards_table].
  - vm_compute. repeat constructor; cbn; intuition discriminate.
  - intros o o' I I' E _. exact (G _ o o' Ol I I' E).
  - intros o o' c I I' E E'. apply (G cards_opts o o' Ol I I'). revert E E'.
    unfold cards_opts in I, I'. cbn [In] in I, I'. repeat (destruct I as [<-|I]); try contradiction; cbn [o_short o_long]; try discriminate; intro E; injection E as <-; repeat (destruct I' as [<-|I']); try contradiction; cbn [o_short o_long]; try discriminate; reflexivity.
  - intros o I. unfold cards_opts in I. cbn [In] in I. repeat (destruct I as [<-|I]); try contradiction; cbn [o_short]; discriminate.
  - intros o I. apply cfind_None. unfold cards_opts in I. cbn [In] in I. repeat (destruct I as [<-|I]); try contradiction; reflexivity.
  - intros c r I. unfold cards_cmds in I. cbn [In] in I. repeat (destruct I as [<-|I]); try contradiction; discriminate.
Qed.
Lemma cards_no_short_values : no_short_values cards_table.
Proof. intros o c I. cbn [t_opts cards_table] in I. unfold cards_opts in I. cbn [In] in I. repeat (destruct I as [<-|I]); try contradiction; cbn [o_short o_val]; try discriminate; reflexivity. Qed.
(** the command cards: accepted iff the line has a meaning that satisfies the rules *)
Theorem C42_cards : forall args c others, (exists set, parse cards_table args = Go c set others) <-> exists items, line_means cards_table args c items /\ acceptable cards_table c items /\ others = args_of items.
Proof.
  intros args c others. split.
  - intros [set H]. destruct (C42_sound _ _ _ _ _ cards_ok cards_no_short_values H) as [items (M & A & E & _)]. exists items. auto.
  - intros [items (M & A & ->)]. destruct (C42_complete _ _ _ _ cards_ok M A) as [set [H _]]. exists set. exact H.
Qed.
(** the number of other arguments that reach a command that asks for one *)
Theorem C42_count : forall args c set others, parse cards_table args = Go c set others ->
  (In (a_name c) (map L ["files"; "query"; "info"; "search"; "depends"; "deptree"; "create"; "dependent"]%string) -> exists a, others = [a]) /\
  (In (a_name c) (map L ["install"; "remove"]%string) -> others <> []).
Proof.
  intros args c set others H. destruct (C42_sound _ _ _ _ _ cards_ok cards_no_short_values H) as [items (M & (A1 & A2 & A3) & -> & _)]. destruct M as (pre & post & i1 & i2 & _ & I & _). cbn [t_cmds cards_table] in I. unfold cards_cmds in I. cbn [In] in I.
  assert (K : forall l : list str, length l = 1 -> exists a, l = [a]) by (intros [|a [|b l]] E; [discriminate|eauto|discriminate]).
  split; intro J.
  - repeat (destruct I as [<-|I]; [solve [apply K; exact A3 | exfalso; cbn [a_name] in J; revert J; vm_compute; intuition discriminate]|]). contradiction.
  - assert (Z : 1 <= length (args_of items) -> args_of items <> []) by (intros Q E; rewrite E in Q; cbn in Q; lia). repeat (destruct I as [<-|I]; [solve [apply Z; exact A3 | exfalso; cbn [a_name] in J; revert J; vm_compute; intuition discriminate]|]). contradiction.
Qed.
(** for a table with a short option that takes a value, the command itself can be swallowed as that value *)
Definition odd_table : atable := Atable [Acmd (L "remove") Min 1 [] [1; 2]] [Aopt 1 (L "help") (Some "h"%char) false; Aopt 2 (L "root") (Some "r"%char) true] 1.
Example C42_command_as_value : parse odd_table [L "-r"; L "remove"; L "foo"] = Go (Acmd (L "remove") Min 1 [] [1; 2]) [(2, L "remove")] [L "foo"].
Proof. reflexivity. Qed.
(** options of other commands are accepted *)
Example C42_foreign_option : exists c set, parse cards_table [L "level"; L "--root=/mnt"; L "--force"] = Go c set [] /\ opt_value 10 set = Some (L "/mnt") /\ ~ In 10 (a_opts c).
Proof. eexists _, _. split; [vm_compute; reflexivity|]. split; [reflexivity|]. cbn. intuition discriminate. Qed.
Example C42_example : exists set, parse cards_table [L "--conf=/a"; L "install"; L "-u"; L "x"; L "--conf=/b=c"; L "y"] = Go (Acmd (L "install") Min 1 [] [1; 14; 15; 16; 10; 17; 2]) set [L "x"; L "y"] /\ opt_value 2 set = Some (L "/b=c") /\ opt_value 15 set = Some [] /\ opt_value 16 set = None.
Proof. eexists. split; [vm_compute; reflexivity|]. repeat split. Qed.
Example C42_meaning_example : exists items, line_means cards_table [L "--conf=/a"; L "remove"; L "x"] (Acmd (L "remove") Min 1 [] [1; 10; 2; 16]) items /\ acceptable cards_table (Acmd (L "remove") Min 1 [] [1; 10; 2; 16]) items.
Proof.
  assert (H : exists set, parse cards_table [L "--conf=/a"; L "remove"; L "x"] = Go (Acmd (L "remove") Min 1 [] [1; 10; 2; 16]) set [L "x"]) by (eexists; vm_compute; reflexivity). apply C42_cards in H. destruct H as [items (M & A & _)]. exists items. auto.
Qed.
Example C42_errors : map (fun a => match parse cards_table a with Usage => 0 | HelpFor _ => 1 | Bad => 2 | Go _ _ _ => 3 end)
  [[]; [L "--help"; L "zz"]; [L "foo"]; [L "remove"]; [L "remove"; L "-h"]; [L "remove"; L "--root"; L "/mnt"; L "x"]; [L "remove"; L "--root="; L "x"]; [L "remove"; L "-"; L "x"]; [L "remove"; L "-fx"]; [L "info"; L "a"; L "b"]; [L "remove"; L "-f"; L "x"]]
  = [2; 0; 2; 2; 1; 2; 2; 2; 2; 2; 3].
Proof. vm_compute. reflexivity. Qed.
