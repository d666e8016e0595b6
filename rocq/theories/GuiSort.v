(** C103: what a click on a column header of flcards does to the rows. *)
From Verif Require Import Base BaseProofs StrModel StrSpec MetaModel MetaSpec MetaProofs IndexModel GuiModel GuiProps.
From Coq Require Import ZArith NArith Lia Permutation Sorted.

(** What is compared: the text of the column up to a NUL byte, nothing if the row has no such column. Texts fall into three groups:
    the empty one and those whose first character is below '0'; those that start with a digit; the others. *)
Definition group (t : str) : nat :=
  match t with [] => 0 | c :: _ => if (N_of_ascii c <? 48)%N then 0 else if (N_of_ascii c <=? 57)%N then 1 else 2 end.
(** the order of a first click: the groups in this order; the texts with a digit by decreasing number, all others as in a dictionary *)
Definition before (a b : str) : Prop :=
  group a < group b \/ (group a = group b /\ group a = 1 /\ (atoi_int b < atoi_int a)%Z) \/ (group a = group b /\ group a <> 1 /\ slt a b).

Lemma isdigit_group t : isdigit t = (group t =? 1).
Proof.
  destruct t as [|c t]; [reflexivity|]. unfold isdigit, group. destruct (N.ltb_spec (N_of_ascii c) 48) as [H|H].
  - replace (48 <=? N_of_ascii c)%N with false; [reflexivity|]. symmetry. apply N.leb_gt. exact H.
  - rewrite (proj2 (N.leb_le _ _) H). cbn [andb]. destruct (N_of_ascii c <=? 57)%N; reflexivity.
Qed.
Lemma group_lt a b : group a < group b -> sltb a b = true.
Proof.
  unfold group. destruct a as [|c a]; destruct b as [|d b]; cbn [sltb].
  - lia.
  - reflexivity.
  - destruct (N_of_ascii c <? 48)%N; [lia|]. destruct (N_of_ascii c <=? 57)%N; lia.
  - unfold cltb. destruct (N.ltb_spec (N_of_ascii c) 48) as [C|C]; destruct (N.ltb_spec (N_of_ascii d) 48) as [D|D]; intro H; try lia.
    + rewrite (proj2 (N.ltb_lt _ _)) by lia. reflexivity.
    + destruct (N.leb_spec (N_of_ascii c) 57) as [C2|C2]; destruct (N.leb_spec (N_of_ascii d) 57) as [D2|D2]; try lia.
      rewrite (proj2 (N.ltb_lt _ _)) by lia. reflexivity.
Qed.
Lemma before_less a b : (if isdigit a && isdigit b then (atoi_int b <? atoi_int a)%Z else sltb a b) = true <-> before a b.
Proof.
  rewrite !isdigit_group. unfold before. destruct (Nat.eqb_spec (group a) 1) as [A|A]; destruct (Nat.eqb_spec (group b) 1) as [B|B]; cbn [andb].
  - rewrite Z.ltb_lt. split; [intro H; right; left; split; [lia|split; [exact A|exact H]]|]. intros [H|[(_ & _ & H)|(_ & H & _)]]; [lia|exact H|contradiction].
  - split.
    + intro H. destruct (Nat.lt_total (group a) (group b)) as [C|[C|C]]; [left; exact C|lia|].
      apply group_lt in C. rewrite (sltb_asym _ _ C) in H. discriminate H.
    + intros [H|[(H & _)|(H & _)]]; [apply group_lt; exact H|lia|lia].
  - split.
    + intro H. destruct (Nat.lt_total (group a) (group b)) as [C|[C|C]]; [left; exact C|lia|].
      apply group_lt in C. rewrite (sltb_asym _ _ C) in H. discriminate H.
    + intros [H|[(H & _)|(H & _)]]; [apply group_lt; exact H|lia|lia].
  - split.
    + intro H. destruct (Nat.lt_total (group a) (group b)) as [C|[C|C]]; [left; exact C|right; right; split; [exact C|split; [exact A|exact H]]|].
      apply group_lt in C. rewrite (sltb_asym _ _ C) in H. discriminate H.
    + intros [H|[(_ & H & _)|(_ & _ & H)]]; [apply group_lt; exact H|contradiction|exact H].
Qed.

(** The comparison is this order, or the opposite one. *)
Theorem C103_order c a b :
  (row_less c false a b = true <-> before (cell c a) (cell c b)) /\ (row_less c true a b = true <-> before (cell c b) (cell c a)).
Proof.
  split; [apply before_less|]. unfold row_less. rewrite <- before_less. rewrite (andb_comm (isdigit (cell c b))). reflexivity.
Qed.

(** the number that a text starts with *)
Lemma num_run ds r : Forall is_digit ds -> (forall c t, r = c :: t -> ~ is_digit c) -> forall acc, num 10 acc (ds ++ r) = num 10 acc ds.
Proof.
  intros F. induction F as [|c ds D F IH]; intros R acc.
  - destruct r as [|c t]; [reflexivity|]. cbn [app num]. specialize (R c t eq_refl). unfold is_digit in R.
    assert (X : (digval c <? 10)%N = false); [|rewrite X; reflexivity]. apply N.ltb_ge. unfold digval.
    destruct (N.leb_spec 48 (N_of_ascii c)) as [A|A]; destruct (N.leb_spec (N_of_ascii c) 57) as [B|B]; cbn [andb]; [exfalso; apply R; split; assumption| | |];
    destruct ((97 <=? N_of_ascii c) && (N_of_ascii c <=? 122))%N eqn:E1; try (apply andb_true_iff in E1; destruct E1 as (E1 & _); apply N.leb_le in E1; lia);
    destruct ((65 <=? N_of_ascii c) && (N_of_ascii c <=? 90))%N eqn:E2; try (apply andb_true_iff in E2; destruct E2 as (E2 & _); apply N.leb_le in E2; lia); lia.
  - cbn [app num]. destruct (digval c <? 10)%N; [|reflexivity]. apply IH. exact R.
Qed.
Lemma atoi_small v : (0 <= v < 2 ^ 31)%Z -> ((Z.min (2 ^ 63 - 1) v + 2 ^ 31) mod 2 ^ 32 - 2 ^ 31 = v)%Z.
Proof.
  intro H. assert (B : (2 ^ 31 < 2 ^ 63 - 1 /\ 2 ^ 32 = 2 ^ 31 + 2 ^ 31)%Z) by (split; vm_compute; reflexivity). destruct B as (B1 & B2).
  rewrite Z.min_r by lia. rewrite Z.mod_small by lia. lia.
Qed.
Theorem C103_number ds r : ds <> [] -> Forall is_digit ds -> (forall c t, r = c :: t -> ~ is_digit c) -> ~ In zero r -> (read_dec ds < 2 ^ 31)%N ->
  atoi_int (ds ++ r) = Z.of_N (read_dec ds).
Proof.
  intros N F R Z0 B. unfold atoi_int, strtol10.
  assert (Zd : ~ In zero (ds ++ r)).
  { intro H. apply in_app_iff in H. destruct H as [H|H]; [|contradiction]. rewrite Forall_forall in F. exact (is_digit_nozero zero (F zero H) eq_refl). }
  rewrite (cstr_nozero _ Zd). destruct ds as [|c ds]; [contradiction|]. inversion F as [|? ? Dc Fd]; subst.
  change ((c :: ds) ++ r) with (c :: (ds ++ r)). cbn [drop_space]. rewrite (is_digit_nospace c Dc).
  assert (S1 : MetaModel.sign (c :: (ds ++ r)) = (false, c :: (ds ++ r))).
  { cbn [MetaModel.sign]. assert (ceqb c "-" = false) as ->. { apply ceqb_neq. intros ->. destruct Dc as [D1 D2]. cbn in *. lia. }
    assert (ceqb c "+" = false) as ->. { apply ceqb_neq. intros ->. destruct Dc as [D1 D2]. cbn in *. lia. } reflexivity. }
  rewrite S1. change (c :: (ds ++ r)) with ((c :: ds) ++ r). rewrite (num_run _ r F R), (num_digits _ F). fold (read_dec (c :: ds)).
  apply atoi_small. split; [lia|]. change (2 ^ 31)%Z with (Z.of_N (2 ^ 31)). lia.
Qed.

(** It is a strict weak order, as std::sort requires: otherwise sorting could run out of the table. *)
Lemma before_trans a b c : before a b -> before b c -> before a c.
Proof.
  unfold before. intros [H|[(H1 & H2 & H3)|(H1 & H2 & H3)]] [K|[(K1 & K2 & K3)|(K1 & K2 & K3)]]; try (left; lia); try lia.
  - right; right. split; [lia|]. split; [lia|]. exact (slt_trans _ _ _ H3 K3).
Qed.
Lemma before_irrefl a : ~ before a a.
Proof. unfold before. intros [H|[(_ & _ & H)|(_ & _ & H)]]; [lia|lia|exact (slt_irrefl a H)]. Qed.
Lemma before_weak a b c : before a c -> before a b \/ before b c.
Proof.
  intro H. destruct (Nat.lt_total (group a) (group b)) as [A|[A|A]]; [left; left; exact A| |].
  - destruct (Nat.lt_total (group b) (group c)) as [B|[B|B]]; [right; left; exact B| |].
    + unfold before in H. destruct H as [H|[(H1 & H2 & H3)|(H1 & H2 & H3)]]; [lia| |].
      * destruct (Z.lt_ge_cases (atoi_int b) (atoi_int a)) as [C|C]; [left; right; left; split; [exact A|split; [exact H2|exact C]]|].
        right; right; left. split; [exact B|]. split; [lia|lia].
      * destruct (sltb_total a b) as [C|[C|C]]; [left; right; right; split; [exact A|split; [exact H2|exact C]]|subst b; right; right; right; split; [exact B|split; [exact H2|exact H3]]|].
        right; right; right. split; [exact B|]. split; [lia|]. exact (slt_trans _ _ _ C H3).
    + unfold before in H. destruct H as [H|[(H & _)|(H & _)]]; lia.
  - right. left. unfold before in H. destruct H as [H|[(H & _)|(H & _)]]; lia.
Qed.
Theorem C103_weak_order c r :
  (forall a, row_less c r a a = false) /\
  (forall x y z, row_less c r x y = true -> row_less c r y z = true -> row_less c r x z = true) /\
  (forall x y z, row_less c r x y = false -> row_less c r y x = false -> row_less c r y z = false -> row_less c r z y = false ->
    row_less c r x z = false /\ row_less c r z x = false).
Proof.
  assert (O : forall a b, row_less c r a b = true <-> if r then before (cell c b) (cell c a) else before (cell c a) (cell c b)).
  { intros a b. destruct (C103_order c a b) as (O1 & O2). destruct r; assumption. }
  assert (F : forall a b, row_less c r a b = false <-> ~ if r then before (cell c b) (cell c a) else before (cell c a) (cell c b)).
  { intros a b. rewrite <- O. rewrite Bool.not_true_iff_false. reflexivity. }
  split; [|split].
  - intro a. apply F. destruct r; apply before_irrefl.
  - intros x y z. rewrite !O. destruct r; [intros A B; exact (before_trans _ _ _ B A)|apply before_trans].
  - intros x y z. rewrite !F. destruct r; intros A B C D; split; intro H.
    + destruct (before_weak _ (cell c y) _ H); contradiction.
    + destruct (before_weak _ (cell c y) _ H); contradiction.
    + destruct (before_weak _ (cell c y) _ H); contradiction.
    + destruct (before_weak _ (cell c y) _ H); contradiction.
Qed.

Section C103.
  Variable W : Type.
  Variable avail : W -> list (str * details).
  Variable inst : W -> list str.
  Variables remove_pkgs install_pkgs : list str -> W -> W * bool.
  Variable sync_run : W -> W.
  Variable sort_rows : nat -> bool -> list row -> list row.
  Hypothesis unique : forall w, NoDup (map fst (avail w)).
  (** what std::sort guarantees for a strict weak order *)
  Hypothesis moves : forall c r l, Permutation (sort_rows c r l) l.
  Hypothesis sorts : forall c r l, StronglySorted (fun a b => row_less c r b a = false) (sort_rows c r l).

  Notation step := (step W avail inst remove_pkgs install_pkgs sync_run sort_rows).
  Notation run := (run W avail inst remove_pkgs install_pkgs sync_run sort_rows).
  Notation start := (start W avail inst).
  Notation seen_by := (seen_by W avail inst).

  (** the headers clicked in a session, the latest first *)
  Fixpoint headers (os : list (seen W)) (acc : list nat) : list nat :=
    match os with [] => acc | GuiModel.Sorted c :: t => headers t (c :: acc) | _ :: t => headers t acc end.
  (** how often the header was clicked since another one was *)
  Fixpoint times (c : nat) (l : list nat) : nat := match l with [] => 0 | d :: t => if d =? c then S (times c t) else 0 end.

  Definition sort_ok (l : list nat) (g : gui) : Prop :=
    match l with [] => g_lastcol g = None | d :: _ => g_lastcol g = Some d /\ g_reverse g = Nat.even (times d l) end.

  Lemma step_sort e g w o g' w' acc : sort_ok acc g -> step e g w = Ok (o, g', w') -> sort_ok (headers [o] acc) g'.
  Proof.
    intros T. destruct e as [i pick|i|s|c|root|root]; cbn [GuiModel.step].
    - destruct (nth_error (g_rows g) i) as [r|]; [|intro H; injection H as <- <- <-; exact T].
      destruct (deref g (r_data r)) as [p|]; [|discriminate]. destruct (rev (menus (k_status p))) as [|label l]; [discriminate|].
      destruct pick; [|intro H; injection H as <- <- <-; exact T].
      destruct (chosen label (k_status p)); intro H; injection H as <- <- <-; exact T.
    - destruct (nth_error (g_rows g) i) as [r|]; [|intro H; injection H as <- <- <-; exact T].
      destruct (deref g (r_data r)) as [p|]; [|discriminate]. intro H; injection H as <- <- <-; exact T.
    - intro H; injection H as <- <- <-; exact T.
    - intro H; injection H as <- <- <-. cbn [headers sort_ok g_lastcol g_reverse]. split; [reflexivity|]. cbn [times]. rewrite Nat.eqb_refl.
      destruct acc as [|d acc]; cbn [sort_ok] in T.
      + rewrite T. reflexivity.
      + destruct T as (T1 & T2). rewrite T1. destruct (Nat.eqb_spec d c) as [->|N].
        * rewrite T2. rewrite Nat.even_succ, <- Nat.negb_even. reflexivity.
        * cbn [times]. apply Nat.eqb_neq in N. rewrite N. reflexivity.
    - destruct (negb (g_active g)); [intro H; injection H as <- <- <-; exact T|]. destruct root.
      + destruct (job_sets g (g_jobs g)) as [(rm & ins)|]; [|discriminate]. intro H; injection H as <- <- <-; exact T.
      + intro H; injection H as <- <- <-; exact T.
    - destruct root; intro H; injection H as <- <- <-; exact T.
  Qed.
  Lemma headers_cons o os acc : headers (o :: os) acc = headers os (headers [o] acc).
  Proof. destruct o; reflexivity. Qed.
  Lemma run_sort es : forall g os g' acc, sort_ok acc g -> run es g = Ok (os, g') -> sort_ok (headers os acc) g'.
  Proof.
    induction es as [|(e & w) es IH]; intros g os g' acc T H; cbn [GuiModel.run] in H.
    - injection H as <- <-. exact T.
    - destruct (step e g w) as [((o & g1) & w1)| |] eqn:E; [|discriminate H|discriminate H].
      destruct (run es g1) as [(os1 & g2)| |] eqn:R; [|discriminate H|discriminate H]. injection H as <- <-. rewrite headers_cons.
      apply (IH g1); [|exact R]. exact (step_sort _ _ _ _ _ _ _ T E).
  Qed.

  (** A click on a header only moves the rows, and puts them in the order of that column: the first click, and every second one after it on
      the same header, in the order [before], the others in the opposite order. *)
  Theorem C103_click es w0 os g c w : run es (start w0) = Ok (os, g) ->
    exists g', step (Header c) g w = Ok (GuiModel.Sorted c, g', w) /\ Permutation (g_rows g') (g_rows g) /\
      StronglySorted (fun a b => if Nat.even (times c (headers os [])) then ~ before (cell c b) (cell c a) else ~ before (cell c a) (cell c b)) (g_rows g').
  Proof.
    intro H. pose proof (run_sort es (start w0) os g [] eq_refl H) as T. eexists. split; [reflexivity|]. cbn [g_rows]. split; [apply moves|].
    set (r := match g_lastcol g with Some d => if d =? c then negb (g_reverse g) else false | None => false end).
    assert (E : r = negb (Nat.even (times c (headers os [])))).
    { unfold r. destruct (headers os []) as [|d l]; cbn [sort_ok] in T; [rewrite T; reflexivity|]. destruct T as (T1 & T2). rewrite T1.
      destruct (Nat.eqb_spec d c) as [->|N]; [rewrite T2; reflexivity|]. cbn [times]. apply Nat.eqb_neq in N. rewrite N. reflexivity. }
    pose proof (sorts c r (g_rows g)) as O. clearbody r. destruct (Nat.even (times c (headers os []))); cbn [negb] in E; subst r.
    - induction O as [|a l O IH F]; constructor; [exact IH|]. eapply Forall_impl; [|exact F]. intros b B X. apply (proj1 (C103_order c b a)) in X. cbn beta in B. congruence.
    - induction O as [|a l O IH F]; constructor; [exact IH|]. eapply Forall_impl; [|exact F]. intros b B X. apply (proj2 (C103_order c b a)) in X. cbn beta in B. congruence.
  Qed.

  (** Picking a menu entry, searching, a job and a Sync put the rows back in the order of the list of packages. *)
  Definition resets (o : seen W) : Prop :=
    match o with Picked _ _ | Searched _ | Done _ _ _ _ | Synced _ | GoRefused => True | _ => False end.
  Theorem C103_reset es w0 os g e w o g' w' : run es (start w0) = Ok (os, g) -> step e g w = Ok (o, g', w') -> resets o ->
    let v := seen_by w0 (os ++ [o]) in
    exists keep, Forall2 (fun r x => says v x (r_cols r)) (g_rows g') (filter keep (v_list v)) /\ g_lastcol g' = g_lastcol g /\ g_reverse g' = g_reverse g.
  Proof.
    intros H E RS v. pose proof (run_tied W avail inst remove_pkgs install_pkgs sync_run sort_rows unique moves es _ _ _ _ (start_tied W avail inst sort_rows unique moves w0) H) as T.
    pose proof (step_tied W avail inst remove_pkgs install_pkgs sync_run sort_rows unique moves _ _ _ _ _ _ _ T E) as T'.
    assert (EV : fold_left (see W avail inst) os (first W avail inst w0) = seen_by w0 os) by reflexivity.
    assert (EV' : see W avail inst (seen_by w0 os) o = v) by (unfold v, GuiProps.seen_by; rewrite fold_left_app; reflexivity).
    rewrite EV, EV' in T'. rewrite EV in T.
    assert (X : g_rows g' = table_of g' /\ g_lastcol g' = g_lastcol g /\ g_reverse g' = g_reverse g).
    { clear T T' EV EV' v H. revert E. destruct e as [i pick|i|s|c|root|root]; cbn [GuiModel.step].
      - destruct (nth_error (g_rows g) i) as [r|]; [|intro H; injection H as <- <- <-; destruct RS].
        destruct (deref g (r_data r)) as [p|]; [|discriminate]. destruct (rev (menus (k_status p))) as [|label l] eqn:M; [discriminate|].
        destruct pick; [|intro H; injection H as <- <- <-; destruct RS].
        destruct (chosen label (k_status p)) as [s|] eqn:C; [intro H; injection H as <- <- <-; split; [reflexivity|split; reflexivity]|].
        exfalso. assert (I : In label (menus (k_status p))) by (apply in_rev; rewrite M; left; reflexivity). unfold menus in I. unfold chosen in C.
        repeat (apply in_app_iff in I; destruct I as [I|I]).
        + destruct (has_bit INSTALLED (k_status p)) eqn:B; cbn [andb] in I; [|destruct I].
          destruct (negb (has_bit TO_REMOVE (k_status p))); [|destruct I]. destruct I as [<-|[]]. vm_compute in C. discriminate C.
        + destruct (negb (has_bit INSTALLED (k_status p)) && negb (has_bit TO_INSTALL (k_status p))); [|destruct I]. destruct I as [<-|[]]. discriminate C.
        + destruct (has_bit TO_REMOVE (k_status p)); [|destruct I]. destruct I as [<-|[]]. discriminate C.
        + destruct (has_bit TO_INSTALL (k_status p)); [|destruct I]. destruct I as [<-|[]]. discriminate C.
      - destruct (nth_error (g_rows g) i) as [r|]; [|intro H; injection H as <- <- <-; destruct RS].
        destruct (deref g (r_data r)) as [p|]; [|discriminate]. intro H; injection H as <- <- <-; destruct RS.
      - intro H; injection H as <- <- <-. split; [reflexivity|split; reflexivity].
      - intro H; injection H as <- <- <-. destruct RS.
      - destruct (negb (g_active g)); [intro H; injection H as <- <- <-; destruct RS|]. destruct root.
        + destruct (job_sets g (g_jobs g)) as [(rm & ins)|]; [|discriminate]. intro H; injection H as <- <- <-. split; [reflexivity|split; reflexivity].
        + intro H; injection H as <- <- <-. split; [reflexivity|split; reflexivity].
      - destruct root; intro H; injection H as <- <- <-; [split; [reflexivity|split; reflexivity]|destruct RS]. }
    destruct X as (X1 & X2). exists (fun x => matches (v_filter v) (pk_of v x)). split; [|exact X2].
    rewrite X1. unfold table_of. rewrite (t_pkgs _ _ T'), (t_filter _ _ T').
    assert (G : forall l k, Forall2 (fun r x => says v x (r_cols r))
      (map (row_of (g_gen g')) (filter (fun e0 => matches (v_filter v) (snd e0)) (combine (seq k (length (map (pk_of v) l))) (map (pk_of v) l))))
      (filter (fun x => matches (v_filter v) (pk_of v x)) l)).
    { induction l as [|a l IH]; intro k; cbn [map length seq combine filter snd]; [constructor|].
      destruct (matches (v_filter v) (pk_of v a)); [|apply IH]. cbn [map]. constructor; [|apply IH].
      exists (letter (st v (fst a))). split; [apply letter_sign; exact (t_sane _ _ T')|reflexivity]. }
    apply G.
  Qed.
End C103.
