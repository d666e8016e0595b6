(** C102: flcards: what the table shows, what its menus offer and what "Go !" does follow the choices the user made. *)
From Verif Require Import Base BaseProofs StrModel MetaModel IndexModel GuiModel.
From Coq Require Import ZArith NArith Lia Permutation.

(** What the user knows: the packages and the installed ones when the list was last read, the menu entries picked since (the latest first),
    the text of the search field, and whether a "Sync" threw choices away since which nothing was picked. *)
Record view := View { v_list : list (str * details); v_inst : list str; v_picks : list (str * str); v_filter : str; v_stale : bool }.
(** the latest entry picked for a package decides *)
Definition to_install (v : view) (n : str) : Prop := mget n (v_picks v) = Some (L "Install").
Definition to_remove (v : view) (n : str) : Prop := mget n (v_picks v) = Some (L "Remove").
Definition pending (v : view) (n : str) : Prop := to_install v n \/ to_remove v n.
Definition wants (p : str * str) : bool := seqb (snd p) (L "Install") || seqb (snd p) (L "Remove").
Definition pendingb (v : view) : bool := existsb (fun n => match mget n (v_picks v) with Some l => wants (n, l) | None => false end) (map fst (v_picks v)).
(** the menu entry of a package *)
Definition entry (v : view) (n label : str) : Prop :=
  (to_install v n /\ label = L "Cancel Install") \/ (to_remove v n /\ label = L "Cancel Remove") \/
  (~ pending v n /\ In n (v_inst v) /\ label = L "Remove") \/ (~ pending v n /\ ~ In n (v_inst v) /\ label = L "Install").
(** the sign of a package: A to be installed, B to be removed, C installed, D none of these *)
Definition sign (v : view) (n l : str) : Prop :=
  (to_install v n /\ l = L "A") \/ (to_remove v n /\ l = L "B") \/
  (~ pending v n /\ In n (v_inst v) /\ l = L "C") \/ (~ pending v n /\ ~ In n (v_inst v) /\ l = L "D").
(** what the search field selects *)
Definition selected (f : str) (e : str * details) : Prop :=
  occurs f (fst e) \/ occurs f (d_coll (snd e)) \/ occurs f (d_text (snd e)) \/ occurs f (d_version (snd e)).
(** what a row says of a package *)
Definition says (v : view) (e : str * details) (cols : list str) : Prop :=
  exists l, sign v (fst e) l /\ cols = [l; fst e; d_version (snd e); d_text (snd e); d_coll (snd e); d_packager (snd e)].

Section C102.
  Variable W : Type.
  Variable avail : W -> list (str * details).
  Variable inst : W -> list str.
  Variables remove_pkgs install_pkgs : list str -> W -> W * bool.
  Variable sync_run : W -> W.
  Variable sort_rows : nat -> bool -> list row -> list row.
  (** the index has one record per name; sorting only moves rows *)
  Hypothesis unique : forall w, NoDup (map fst (avail w)).
  Hypothesis moves : forall c r l, Permutation (sort_rows c r l) l.

  Definition first (w : W) : view := View (avail w) (inst w) [] [] false.
  (** what an event tells the user *)
  Definition see (v : view) (o : seen W) : view :=
    match o with
    | Picked n l => View (v_list v) (v_inst v) ((n, l) :: v_picks v) (v_filter v) false
    | Searched s => View (v_list v) (v_inst v) (v_picks v) s (v_stale v)
    | Done _ _ _ w => View (avail w) (inst w) [] (v_filter v) false
    | GoRefused => View (v_list v) (v_inst v) (v_picks v) (v_filter v) false
    | Synced w => View (avail w) (inst w) [] (v_filter v) (v_stale v || pendingb v)
    | Dismissed _ _ | Looked _ | Sorted _ | Nothing | SyncRefused => v
    end.

  Notation step := (step W avail inst remove_pkgs install_pkgs sync_run sort_rows).
  Notation run := (run W avail inst remove_pkgs install_pkgs sync_run sort_rows).
  Notation start := (start W avail inst).

  (** * the invariant *)
  Definition mark (v : view) (n : str) : N :=
    match mget n (v_picks v) with
    | Some l => if seqb l (L "Install") then TO_INSTALL else if seqb l (L "Remove") then TO_REMOVE else 0%N
    | None => 0%N
    end.
  Definition st (v : view) (n : str) : N := N.lor (if smem n (v_inst v) then INSTALLED else 0%N) (mark v n).
  Definition pk_of (v : view) (e : str * details) : pk := Pk (fst e) (snd e) (st v (fst e)).

  Definition sane (v : view) : Prop :=
    NoDup (map fst (v_list v)) /\
    (forall n, to_install v n -> ~ In n (v_inst v)) /\ (forall n, to_remove v n -> In n (v_inst v)) /\
    (forall n l, In (n, l) (v_picks v) -> In n (map fst (v_list v))).
  Definition table_of (g : gui) : list row := map (row_of (g_gen g)) (filter (fun e => matches (g_filter g) (snd e)) (numbered (g_pkgs g))).
  Record tied (v : view) (g : gui) : Prop := Tied {
    t_sane : sane v;
    t_pkgs : g_pkgs g = map (pk_of v) (v_list v);
    t_filter : g_filter g = v_filter v;
    t_rows : Permutation (g_rows g) (table_of g);
    t_jobs : if v_stale v then v_picks v = [] /\ g_jobs g <> [] /\ Forall (fun p => fst p < g_gen g) (g_jobs g) else g_jobs g = jobs_of g;
    t_active : g_active g = negb (emptyb (g_jobs g)) }.

  Lemma pending_dec v n : {pending v n} + {~ pending v n}.
  Proof.
    unfold pending, to_install, to_remove. destruct (mget n (v_picks v)) as [l|]; [|right; intros [H|H]; discriminate].
    destruct (seqb l (L "Install")) eqn:A; [left; left; f_equal; apply seqb_eq; exact A|].
    destruct (seqb l (L "Remove")) eqn:B; [left; right; f_equal; apply seqb_eq; exact B|].
    right. intros [H|H]; injection H as ->; [rewrite seqb_refl in A|rewrite seqb_refl in B]; discriminate.
  Qed.
  Lemma no_mark v n : ~ pending v n -> mark v n = 0%N.
  Proof.
    unfold pending, to_install, to_remove, mark. intro H. destruct (mget n (v_picks v)) as [l|]; [|reflexivity].
    destruct (seqb l (L "Install")) eqn:A; [exfalso; apply H; left; f_equal; apply seqb_eq; exact A|].
    destruct (seqb l (L "Remove")) eqn:B; [exfalso; apply H; right; f_equal; apply seqb_eq; exact B|]. reflexivity.
  Qed.
  Lemma not_both v n : to_install v n -> ~ to_remove v n.
  Proof. unfold to_install, to_remove. intros A B. rewrite A in B. discriminate B. Qed.

  Lemma st_cases v n : sane v ->
    (to_install v n /\ ~ In n (v_inst v) /\ st v n = 2%N) \/ (to_remove v n /\ In n (v_inst v) /\ st v n = 5%N) \/
    (~ pending v n /\ In n (v_inst v) /\ st v n = 1%N) \/ (~ pending v n /\ ~ In n (v_inst v) /\ st v n = 0%N).
  Proof.
    intros (_ & SI & SR & _). unfold st. destruct (pending_dec v n) as [[P|P]|P].
    - left. split; [exact P|]. split; [exact (SI n P)|]. unfold mark. unfold to_install in P. rewrite P, seqb_refl.
      rewrite (proj2 (smem_nIn n (v_inst v)) (SI n P)). reflexivity.
    - right; left. split; [exact P|]. split; [exact (SR n P)|]. unfold mark. unfold to_remove in P. rewrite P.
      change (seqb (L "Remove") (L "Install")) with false. rewrite seqb_refl. rewrite (proj2 (smem_In n (v_inst v)) (SR n P)). reflexivity.
    - rewrite (no_mark v n P). destruct (smem n (v_inst v)) eqn:M.
      + right; right; left. split; [exact P|]. split; [apply smem_In; exact M|reflexivity].
      + right; right; right. split; [exact P|]. split; [apply smem_nIn; exact M|reflexivity].
  Qed.

  (** lists with their positions *)
  Lemma numbered_from {A} (l : list A) : forall k i x, In (i, x) (combine (seq k (length l)) l) <-> k <= i /\ nth_error l (i - k) = Some x.
  Proof.
    induction l as [|y l IH]; intros k i x; cbn [length seq combine In].
    - split; [intros []|]. intros [_ H]. destruct (i - k); discriminate H.
    - rewrite IH. split.
      + intros [H|[H1 H2]]; [injection H as <- <-; split; [lia|rewrite Nat.sub_diag; reflexivity]|].
        split; [lia|]. replace (i - k) with (S (i - S k)) by lia. exact H2.
      + intros [H1 H2]. destruct (Nat.eq_dec i k) as [->|N].
        * left. rewrite Nat.sub_diag in H2. injection H2 as ->. reflexivity.
        * right. split; [lia|]. replace (i - k) with (S (i - S k)) in H2 by lia. exact H2.
  Qed.
  Lemma numbered_In {A} (l : list A) i x : In (i, x) (numbered l) <-> nth_error l i = Some x.
  Proof. unfold numbered. rewrite numbered_from. rewrite Nat.sub_0_r. split; [intros [_ H]; exact H|intro H; split; [lia|exact H]]. Qed.
  Lemma numbered_snd {A} (l : list A) : map snd (numbered l) = l.
  Proof.
    unfold numbered. generalize 0 as k. induction l as [|y l IH]; intro k; [reflexivity|]. cbn [length seq combine map snd]. rewrite IH. reflexivity.
  Qed.

  Lemma row_deref v g r : tied v g -> In r (g_rows g) ->
    exists i e, nth_error (v_list v) i = Some e /\ r = row_of (g_gen g) (i, pk_of v e) /\ deref g (r_data r) = Some (pk_of v e).
  Proof.
    intros T H. apply (Permutation_in _ (t_rows _ _ T)) in H. unfold table_of in H. apply in_map_iff in H. destruct H as ((i & p) & <- & H).
    apply filter_In in H. destruct H as (H & _). apply numbered_In in H. rewrite (t_pkgs _ _ T) in H. rewrite nth_error_map in H.
    destruct (nth_error (v_list v) i) as [e|] eqn:E; [|discriminate H]. injection H as <-. exists i, e.
    split; [exact E|]. split; [reflexivity|]. unfold deref. cbn [r_data row_of fst snd]. rewrite Nat.eqb_refl.
    rewrite (t_pkgs _ _ T), nth_error_map, E. reflexivity.
  Qed.

  Lemma update_pk v v' (l : list (str * details)) : forall i e, NoDup (map fst l) -> nth_error l i = Some e ->
    (forall e', fst e' <> fst e -> pk_of v' e' = pk_of v e') ->
    update i (with_status (st v' (fst e))) (map (pk_of v) l) = map (pk_of v') l.
  Proof.
    induction l as [|a l IH]; intros i e ND NE O; [destruct i; discriminate NE|].
    cbn [map fst] in ND. apply NoDup_cons_iff in ND. destruct ND as (ND1 & ND2). destruct i as [|i]; cbn [nth_error] in NE.
    - injection NE as <-. cbn [map update]. f_equal. apply map_ext_in. intros b Hb. symmetry. apply O. intro E. apply ND1. rewrite <- E. apply in_map. exact Hb.
    - cbn [map update]. f_equal; [|apply IH; assumption]. symmetry. apply O. intro E. apply ND1. rewrite E. apply in_map. apply (nth_error_In _ _ NE).
  Qed.

  Lemma refresh_tied v g : g_pkgs g = map (pk_of v) (v_list v) -> g_filter g = v_filter v -> sane v -> v_stale v = false -> tied v (refresh_jobs g).
  Proof.
    intros P F SA V. constructor; cbn [refresh_jobs refresh_table g_pkgs g_filter g_rows g_jobs g_active g_gen]; try assumption.
    - apply Permutation_refl.
    - rewrite V. reflexivity.
    - reflexivity.
  Qed.
  Lemma info_tied v g n : tied v g -> tied v (show_info n g).
  Proof. intros [A B C D E F]. constructor; [exact A|exact B|exact C|exact D|exact E|exact F]. Qed.

  Lemma pick_tied v g i e label s : tied v g -> nth_error (v_list v) i = Some e ->
    let v' := View (v_list v) (v_inst v) ((fst e, label) :: v_picks v) (v_filter v) false in
    st v' (fst e) = s -> (label = L "Install" -> ~ In (fst e) (v_inst v)) -> (label = L "Remove" -> In (fst e) (v_inst v)) ->
    tied v' (refresh_jobs (put_status i s g)).
  Proof.
    intros T NE v' S0 CI CR. destruct (t_sane _ _ T) as (ND & SI & SR & SP). apply refresh_tied.
    - cbn [put_status g_pkgs]. rewrite (t_pkgs _ _ T), <- S0. change (v_list v') with (v_list v). apply update_pk; [exact ND|exact NE|].
      intros e' N. unfold pk_of, st, mark, v'. cbn [v_inst v_picks mget fst snd]. rewrite (proj2 (seqb_neq _ _) N). reflexivity.
    - exact (t_filter _ _ T).
    - unfold sane, to_install, to_remove, v'. cbn [v_list v_inst v_picks mget]. split; [exact ND|]. split; [|split].
      + intros n H. destruct (seqb n (fst e)) eqn:E; [|exact (SI n H)]. apply seqb_eq in E. subst n. injection H as ->. exact (CI eq_refl).
      + intros n H. destruct (seqb n (fst e)) eqn:E; [|exact (SR n H)]. apply seqb_eq in E. subst n. injection H as ->. exact (CR eq_refl).
      + intros n l [H|H]; [injection H as <- <-; apply in_map; exact (nth_error_In _ _ NE)|exact (SP n l H)].
    - reflexivity.
  Qed.

  Lemma fresh_sane w f b : sane (View (avail w) (inst w) [] f b).
  Proof. split; [apply unique|]. split; [intros n H; discriminate H|]. split; [intros n H; discriminate H|]. intros n l []. Qed.
  Lemma read_pk w f b : read_pkgs W avail inst w = map (pk_of (View (avail w) (inst w) [] f b)) (avail w).
  Proof. unfold read_pkgs. apply map_ext. intros (n & d). unfold pk_of, st, mark. cbn [v_inst v_picks mget fst snd]. destruct (smem n (inst w)); reflexivity. Qed.

  Lemma fresh_jobs w g : g_pkgs g = read_pkgs W avail inst w -> jobs_of g = [].
  Proof.
    intro P. unfold jobs_of. rewrite P, (read_pk w [] false). generalize (avail w) at 2 as l. intro l.
    rewrite <- (List.filter_ext_in (fun _ => false)); [induction (numbered _); [reflexivity|assumption]|].
    intros (i & p) H. apply numbered_In in H. rewrite nth_error_map in H. destruct (nth_error l i) as [e|]; [|discriminate H]. injection H as <-.
    cbn [snd pk_of k_status]. unfold st, mark. cbn [v_inst v_picks mget]. destruct (smem (fst e) (inst w)); reflexivity.
  Qed.
  Lemma start_tied w : tied (first w) (start w).
  Proof.
    unfold first, GuiModel.start. constructor; cbn [refresh_pkgs refresh_table g_pkgs g_filter g_rows g_jobs g_active g_gen v_stale v_filter v_list].
    - apply fresh_sane.
    - apply read_pk.
    - reflexivity.
    - apply Permutation_refl.
    - symmetry. apply (fresh_jobs w). reflexivity.
    - reflexivity.
  Qed.

  Lemma pendingb_spec v : pendingb v = true <-> exists n, pending v n.
  Proof.
    unfold pendingb. rewrite existsb_exists. unfold pending, to_install, to_remove, wants. cbn [snd]. split.
    - intros (n & _ & H). exists n. destruct (mget n (v_picks v)) as [l|]; [|discriminate H]. apply Bool.orb_true_iff in H.
      destruct H as [H|H]; apply seqb_eq in H; subst l; [left|right]; reflexivity.
    - intros (n & H). exists n. destruct (mget n (v_picks v)) as [l|] eqn:E; [|destruct H as [H|H]; discriminate H].
      split; [apply in_map_iff; exists (n, l); split; [reflexivity|apply mget_In; exact E]|].
      apply Bool.orb_true_iff. destruct H as [H|H]; injection H as ->; [left|right]; apply seqb_refl.
  Qed.

  Lemma marked_in v g n : tied v g -> v_stale v = false -> pending v n ->
    exists i d, nth_error (v_list v) i = Some (n, d) /\ In (g_gen g, i) (jobs_of g).
  Proof.
    intros T V P. assert (In n (map fst (v_list v))) as H.
    { destruct (t_sane _ _ T) as (_ & _ & _ & SP). destruct P as [P|P]; exact (SP n _ (mget_In _ _ _ P)). }
    apply in_map_iff in H. destruct H as ((n' & d) & E & H). cbn [fst] in E. subst n'. apply In_nth_error in H. destruct H as (i & H).
    exists i, d. split; [exact H|]. unfold jobs_of. apply in_map_iff. exists (i, pk_of v (n, d)). split; [reflexivity|]. apply filter_In. split.
    - apply numbered_In. rewrite (t_pkgs _ _ T), nth_error_map, H. reflexivity.
    - cbn [snd pk_of k_status fst]. destruct (st_cases v n (t_sane _ _ T)) as [(_ & _ & E)|[(_ & _ & E)|[(N & _)|(N & _)]]];
        [rewrite E; reflexivity|rewrite E; reflexivity|contradiction|contradiction].
  Qed.
  Lemma job_marked v g p : tied v g -> In p (jobs_of g) ->
    exists i e, p = (g_gen g, i) /\ nth_error (v_list v) i = Some e /\ deref g p = Some (pk_of v e) /\ pending v (fst e).
  Proof.
    intros T H. unfold jobs_of in H. apply in_map_iff in H. destruct H as ((i & k) & <- & H). apply filter_In in H. destruct H as (H & M).
    apply numbered_In in H. rewrite (t_pkgs _ _ T), nth_error_map in H. destruct (nth_error (v_list v) i) as [e|] eqn:E; [|discriminate H].
    injection H as <-. exists i, e. split; [reflexivity|]. split; [exact E|]. split.
    - unfold deref. cbn [fst snd]. rewrite Nat.eqb_refl, (t_pkgs _ _ T), nth_error_map, E. reflexivity.
    - cbn [snd pk_of k_status] in M. destruct (st_cases v (fst e) (t_sane _ _ T)) as [(P & _)|[(P & _)|[(_ & _ & Z)|(_ & _ & Z)]]];
        [left; exact P|right; exact P|rewrite Z in M; discriminate M|rewrite Z in M; discriminate M].
  Qed.

  Lemma jobs_pending v g : tied v g -> v_stale v = false -> (jobs_of g <> [] <-> exists n, pending v n).
  Proof.
    intros T V. split.
    - intro H. destruct (jobs_of g) as [|p l] eqn:E; [contradiction|].
      destruct (job_marked v g p T) as (i & e & _ & _ & _ & P); [rewrite E; left; reflexivity|]. exists (fst e). exact P.
    - intros (n & P) E. destruct (marked_in v g n T V P) as (i & d & _ & H). rewrite E in H. exact H.
  Qed.

  (** the sets of the job *)
  Lemma job_sets_spec g : forall l, (forall p, In p l -> deref g p <> None) ->
    exists rm ins, job_sets g l = Some (rm, ins) /\ ssorted rm /\ ssorted ins /\
      (forall n, In n rm <-> exists p k, In p l /\ deref g p = Some k /\ k_name k = n /\ has_bit TO_REMOVE (k_status k) = true) /\
      (forall n, In n ins <-> exists p k, In p l /\ deref g p = Some k /\ k_name k = n /\ has_bit TO_INSTALL (k_status k) = true).
  Proof.
    induction l as [|p l IH]; intro D.
    - exists [], []. split; [reflexivity|]. split; [constructor|]. split; [constructor|].
      split; intro n; (split; [intros []|intros (q & k & [] & _)]).
    - destruct IH as (rm & ins & E & SR & SI & HR & HI); [intros q Hq; apply D; right; exact Hq|].
      destruct (deref g p) as [k|] eqn:DP; [|exfalso; apply (D p); [left; reflexivity|exact DP]].
      cbn [job_sets]. rewrite DP, E. eexists. eexists. split; [reflexivity|].
      split; [destruct (has_bit TO_REMOVE (k_status k)); [apply sins_sorted; exact SR|exact SR]|].
      split; [destruct (has_bit TO_INSTALL (k_status k)); [apply sins_sorted; exact SI|exact SI]|].
      assert (G : forall b s, (forall n, In n s <-> exists p k, In p l /\ deref g p = Some k /\ k_name k = n /\ has_bit b (k_status k) = true) ->
        forall n, In n (if has_bit b (k_status k) then sins (k_name k) s else s) <->
          exists q k, In q (p :: l) /\ deref g q = Some k /\ k_name k = n /\ has_bit b (k_status k) = true).
      { intros b s Hs n. destruct (has_bit b (k_status k)) eqn:B.
        - rewrite sins_In. rewrite Hs. split.
          + intros [->|(q & k' & Q1 & Q)]; [exists p, k; split; [left; reflexivity|split; [exact DP|split; [reflexivity|exact B]]]|
              exists q, k'; split; [right; exact Q1|exact Q]].
          + intros (q & k' & [<-|Q1] & Q2 & Q3 & Q4); [left; rewrite DP in Q2; injection Q2 as <-; symmetry; exact Q3|
              right; exists q, k'; split; [exact Q1|split; [exact Q2|split; [exact Q3|exact Q4]]]].
        - rewrite Hs. split.
          + intros (q & k' & Q1 & Q); exists q, k'; split; [right; exact Q1|exact Q].
          + intros (q & k' & [<-|Q1] & Q2 & Q3 & Q4); [rewrite DP in Q2; injection Q2 as <-; rewrite B in Q4; discriminate Q4|
              exists q, k'; split; [exact Q1|split; [exact Q2|split; [exact Q3|exact Q4]]]]. }
      split; [apply (G TO_REMOVE rm HR)|apply (G TO_INSTALL ins HI)].
  Qed.

  Lemma sets_of v g : tied v g -> v_stale v = false ->
    exists rm ins, job_sets g (g_jobs g) = Some (rm, ins) /\ ssorted rm /\ ssorted ins /\
      (forall n, In n rm <-> to_remove v n) /\ (forall n, In n ins <-> to_install v n).
  Proof.
    intros T V. pose proof (t_jobs _ _ T) as J. rewrite V in J. rewrite J.
    destruct (job_sets_spec g (jobs_of g)) as (rm & ins & E & SR & SI & HR & HI).
    { intros p H. destruct (job_marked v g p T H) as (i & e & _ & _ & D & _). rewrite D. discriminate. }
    exists rm, ins. split; [exact E|]. split; [exact SR|]. split; [exact SI|]. split; intro n.
    - rewrite HR. split.
      + intros (p & k & H & D & N & B). destruct (job_marked v g p T H) as (i & e & _ & _ & D' & _). rewrite D in D'. injection D' as ->.
        cbn [pk_of k_name k_status] in N, B. subst n. destruct (st_cases v (fst e) (t_sane _ _ T)) as [(_ & _ & Z)|[(P & _)|[(_ & _ & Z)|(_ & _ & Z)]]];
          [rewrite Z in B; discriminate B|exact P|rewrite Z in B; discriminate B|rewrite Z in B; discriminate B].
      + intro P. destruct (marked_in v g n T V (or_intror P)) as (i & d & NE & H). destruct (job_marked v g _ T H) as (i' & e & E' & NE' & D & _).
        injection E' as <-. rewrite NE in NE'. injection NE' as <-. exists (g_gen g, i), (pk_of v (n, d)).
        split; [exact H|]. split; [exact D|]. split; [reflexivity|]. cbn [pk_of k_status fst].
        destruct (st_cases v n (t_sane _ _ T)) as [(Q & _)|[(_ & _ & Z)|[(Q & _)|(Q & _)]]];
          [exfalso; exact (not_both v n Q P)|rewrite Z; reflexivity|exfalso; apply Q; right; exact P|exfalso; apply Q; right; exact P].
    - rewrite HI. split.
      + intros (p & k & H & D & N & B). destruct (job_marked v g p T H) as (i & e & _ & _ & D' & _). rewrite D in D'. injection D' as ->.
        cbn [pk_of k_name k_status] in N, B. subst n. destruct (st_cases v (fst e) (t_sane _ _ T)) as [(P & _)|[(_ & _ & Z)|[(_ & _ & Z)|(_ & _ & Z)]]];
          [exact P|rewrite Z in B; discriminate B|rewrite Z in B; discriminate B|rewrite Z in B; discriminate B].
      + intro P. destruct (marked_in v g n T V (or_introl P)) as (i & d & NE & H). destruct (job_marked v g _ T H) as (i' & e & E' & NE' & D & _).
        injection E' as <-. rewrite NE in NE'. injection NE' as <-. exists (g_gen g, i), (pk_of v (n, d)).
        split; [exact H|]. split; [exact D|]. split; [reflexivity|]. cbn [pk_of k_status fst].
        destruct (st_cases v n (t_sane _ _ T)) as [(_ & _ & Z)|[(Q & _)|[(Q & _)|(Q & _)]]];
          [rewrite Z; reflexivity|exfalso; exact (not_both v n P Q)|exfalso; apply Q; left; exact P|exfalso; apply Q; left; exact P].
  Qed.

  Lemma stale_sets v g : tied v g -> v_stale v = true -> job_sets g (g_jobs g) = None.
  Proof.
    intros T V. pose proof (t_jobs _ _ T) as J. rewrite V in J. destruct J as (_ & N & F). destruct (g_jobs g) as [|p l]; [contradiction|].
    apply Forall_inv in F. cbn [job_sets]. unfold deref. replace (fst p =? g_gen g) with false; [reflexivity|].
    symmetry. apply Nat.eqb_neq. lia.
  Qed.

  (** the menu of a package *)
  Lemma menu_of v g n : tied v g -> exists label, menus (st v n) = [label] /\ entry v n label /\
    forall b, let v' := View (v_list v) (v_inst v) ((n, label) :: v_picks v) (v_filter v) b in
      chosen label (st v n) = Some (st v' n) /\ (label = L "Install" -> ~ In n (v_inst v)) /\ (label = L "Remove" -> In n (v_inst v)).
  Proof.
    intro T. unfold entry. destruct (st_cases v n (t_sane _ _ T)) as [(P & I & Z)|[(P & I & Z)|[(P & I & Z)|(P & I & Z)]]]; rewrite Z.
    - exists (L "Cancel Install"). split; [reflexivity|]. split; [left; split; [exact P|reflexivity]|]. intro b. split; [|split; discriminate].
      unfold st, mark. cbn [v_inst v_picks mget]. rewrite seqb_refl, (proj2 (smem_nIn n (v_inst v)) I). reflexivity.
    - exists (L "Cancel Remove"). split; [reflexivity|]. split; [right; left; split; [exact P|reflexivity]|]. intro b. split; [|split; discriminate].
      unfold st, mark. cbn [v_inst v_picks mget]. rewrite seqb_refl, (proj2 (smem_In n (v_inst v)) I). reflexivity.
    - exists (L "Remove"). split; [reflexivity|]. split; [right; right; left; split; [exact P|split; [exact I|reflexivity]]|]. intro b.
      split; [|split; [discriminate|intros _; exact I]]. unfold st, mark. cbn [v_inst v_picks mget]. rewrite seqb_refl, (proj2 (smem_In n (v_inst v)) I). reflexivity.
    - exists (L "Install"). split; [reflexivity|]. split; [right; right; right; split; [exact P|split; [exact I|reflexivity]]|]. intro b.
      split; [|split; [intros _; exact I|discriminate]]. unfold st, mark. cbn [v_inst v_picks mget]. rewrite seqb_refl, (proj2 (smem_nIn n (v_inst v)) I). reflexivity.
  Qed.

  Lemma step_tied v g e w o g' w' : tied v g -> step e g w = Ok (o, g', w') -> tied (see v o) g'.
  Proof.
    intros T. destruct e as [i pick|i|s|c|root|root]; cbn [GuiModel.step].
    - destruct (nth_error (g_rows g) i) as [r|] eqn:NR; [|intro H; injection H as <- <- <-; exact T].
      destruct (row_deref v g r T (nth_error_In _ _ NR)) as (j & e & NE & -> & D). rewrite D. cbn [pk_of k_status k_name].
      destruct (menu_of v g (fst e) T) as (label & M & _ & C). rewrite M. cbn [rev app].
      destruct pick; [|intro H; injection H as <- <- <-; exact T].
      destruct (C false) as (C1 & C2 & C3). rewrite C1. intro H. injection H as <- <- <-. apply info_tied. cbn [see row_of r_data snd].
      apply (pick_tied v g j e label _ T NE); [reflexivity|exact C2|exact C3].
    - destruct (nth_error (g_rows g) i) as [r|] eqn:NR; [|intro H; injection H as <- <- <-; exact T].
      destruct (deref g (r_data r)); [|discriminate]. intro H. injection H as <- <- <-. apply info_tied. exact T.
    - intro H. injection H as <- <- <-. destruct T as [A B C D E F].
      constructor; cbn [see v_stale v_filter v_list v_picks refresh_table g_pkgs g_filter g_rows g_jobs g_active g_gen]; [exact A|exact B|reflexivity|apply Permutation_refl|exact E|exact F].
    - intro H. injection H as <- <- <-. destruct T as [A B C D E F]. constructor; [exact A|exact B|exact C| |exact E|exact F].
      cbn [g_rows]. etransitivity; [apply moves|exact D].
    - destruct (g_active g) eqn:AC; cbn [negb]; [|intro H; injection H as <- <- <-; exact T]. destruct root.
      + destruct (job_sets g (g_jobs g)) as [(rm & ins)|]; [|discriminate]. intro H. injection H as <- <- <-. cbn [see]. apply refresh_tied.
        * cbn [refresh_pkgs refresh_table g_pkgs v_list]. apply read_pk.
        * exact (t_filter _ _ T).
        * apply fresh_sane.
        * reflexivity.
      + intro H. injection H as <- <- <-. cbn [see]. apply refresh_tied; [exact (t_pkgs _ _ T)|exact (t_filter _ _ T)|exact (t_sane _ _ T)|reflexivity].
    - destruct root; intro H; injection H as <- <- <-; [|exact T]. cbn [see].
      constructor; cbn [refresh_pkgs refresh_table g_pkgs g_filter g_rows g_jobs g_active g_gen v_stale v_filter v_list v_picks].
      + apply fresh_sane.
      + apply read_pk.
      + exact (t_filter _ _ T).
      + apply Permutation_refl.
      + pose proof (t_jobs _ _ T) as J. destruct (v_stale v) eqn:V; cbn [orb].
        * destruct J as (_ & J1 & J2). split; [reflexivity|]. split; [exact J1|]. eapply Forall_impl; [|exact J2]. intros p H. cbn beta in *. apply Nat.lt_lt_succ_r. exact H.
        * destruct (pendingb v) eqn:P.
          -- split; [reflexivity|]. rewrite J. split; [apply (jobs_pending v g T V); apply pendingb_spec; exact P|].
             apply Forall_forall. intros p H. destruct (job_marked v g p T H) as (i & _ & -> & _). cbn [fst]. apply Nat.lt_succ_diag_r.
          -- assert (jobs_of g = []) as N.
             { destruct (jobs_of g) as [|p l] eqn:E; [reflexivity|]. exfalso.
               assert (exists n, pending v n) as X by (apply (jobs_pending v g T V); rewrite E; discriminate). apply pendingb_spec in X. rewrite P in X. discriminate X. }
             rewrite J, N. symmetry. apply (fresh_jobs (sync_run w)). reflexivity.
      + exact (t_active _ _ T).
  Qed.

  (** the view after a session *)
  Definition seen_by (w0 : W) (os : list (seen W)) : view := fold_left see os (first w0).

  Lemma run_tied es : forall v g os g', tied v g -> run es g = Ok (os, g') -> tied (fold_left see os v) g'.
  Proof.
    induction es as [|(e & w) es IH]; intros v g os g' T H; cbn [GuiModel.run] in H.
    - injection H as <- <-. exact T.
    - destruct (step e g w) as [((o & g1) & w1)| |] eqn:E; [|discriminate H|discriminate H].
      destruct (run es g1) as [(os1 & g2)| |] eqn:R; [|discriminate H|discriminate H]. injection H as <- <-. cbn [fold_left].
      apply (IH _ g1); [|exact R]. apply (step_tied _ _ _ _ _ _ _ T E).
  Qed.

  Lemma has_occurs f s : has f s = true <-> occurs f s.
  Proof.
    unfold has. destruct (sfind f s) as [k|] eqn:E.
    - split; [intros _|reflexivity]. apply sfind_Some in E. destruct E as (E & _). exists (firstn k s), (skipn (k + length f) s). exact E.
    - split; [discriminate|]. intro H. exfalso. exact (proj1 (sfind_None f s) E H).
  Qed.
  Lemma matches_spec v f e : matches f (pk_of v e) = true <-> selected f e.
  Proof.
    unfold matches, selected. cbn [pk_of k_name k_info]. destruct f as [|c f]; cbn [emptyb].
    - split; [intros _; left; exists [], (fst e); reflexivity|reflexivity].
    - rewrite !Bool.orb_true_iff, !has_occurs. split; [intros [[[H|H]|H]|H]|intros [H|[H|[H|H]]]]; auto.
  Qed.
  Lemma letter_sign v n : sane v -> sign v n (letter (st v n)).
  Proof.
    intro SA. unfold sign. destruct (st_cases v n SA) as [(P & I & Z)|[(P & I & Z)|[(P & I & Z)|(P & I & Z)]]]; rewrite Z.
    - left. split; [exact P|reflexivity].
    - right; left. split; [exact P|reflexivity].
    - right; right; left. split; [exact P|split; [exact I|reflexivity]].
    - right; right; right. split; [exact P|split; [exact I|reflexivity]].
  Qed.

  Lemma nodup_of_fst {A B} (l : list (A * B)) : NoDup (map fst l) -> NoDup l.
  Proof. apply NoDup_map_inv. Qed.

  (** The table: one row for every package that the search field selects, in some order, saying its name, version, description, collection,
      packager and its sign. *)
  Theorem C102_table es w0 os g : run es (start w0) = Ok (os, g) ->
    let v := seen_by w0 os in
    exists shown, NoDup shown /\ (forall e, In e shown <-> In e (v_list v) /\ selected (v_filter v) e) /\
      Forall2 (fun r e => says v e (r_cols r)) (g_rows g) shown.
  Proof.
    intros H v. pose proof (run_tied es _ _ _ _ (start_tied w0) H) as T. change (fold_left see os (first w0)) with v in T. clear H.
    assert (P : Permutation (g_rows g) (map (fun e => Row [letter (st v (fst (snd e))); fst (snd e); d_version (snd (snd e)); d_text (snd (snd e)); d_coll (snd (snd e)); d_packager (snd (snd e))] (g_gen g, fst e))
      (filter (fun e => matches (v_filter v) (pk_of v (snd e))) (numbered (v_list v))))).
    { rewrite (t_rows _ _ T). unfold table_of. rewrite (t_pkgs _ _ T), (t_filter _ _ T).
      assert (X : numbered (map (pk_of v) (v_list v)) = map (fun e => (fst e, pk_of v (snd e))) (numbered (v_list v))).
      { unfold numbered. rewrite map_length. generalize 0 as k. induction (v_list v) as [|a l IH]; intro k; [reflexivity|]. cbn [map length seq combine]. rewrite IH. reflexivity. }
      rewrite X. clear X. induction (numbered (v_list v)) as [|a l IH]; [apply Permutation_refl|]. cbn [map filter snd fst].
      destruct (matches (v_filter v) (pk_of v (snd a))); [|exact IH]. cbn [map]. apply perm_skip. exact IH. }
    apply Permutation_map_inv in P. destruct P as (l & E & P).
    exists (map snd l). assert (Q : Permutation (map snd l) (filter (fun e => matches (v_filter v) (pk_of v e)) (v_list v))).
    { etransitivity; [apply Permutation_map; symmetry; exact P|]. rewrite <- (numbered_snd (v_list v)) at 2. clear P E.
      induction (numbered (v_list v)) as [|a m IH]; [apply Permutation_refl|]. cbn [map filter snd].
      destruct (matches (v_filter v) (pk_of v (snd a))); [cbn [map]; apply perm_skip; exact IH|exact IH]. }
    split; [|split].
    - apply (Permutation_NoDup (Permutation_sym Q)). apply NoDup_filter. apply NoDup_map_inv with (f := fst). exact (proj1 (t_sane _ _ T)).
    - intro e. split.
      + intro H. apply (Permutation_in _ Q) in H. apply filter_In in H. destruct H as (H1 & H2). split; [exact H1|]. apply (matches_spec v). exact H2.
      + intros (H1 & H2). apply (Permutation_in _ (Permutation_sym Q)). apply filter_In. split; [exact H1|]. apply matches_spec. exact H2.
    - rewrite E. clear E P Q. induction l as [|a l IH]; [constructor|]. cbn [map]. constructor; [|exact IH]. cbn [r_cols].
      exists (letter (st v (fst (snd a)))). split; [apply letter_sign; exact (t_sane _ _ T)|reflexivity].
  Qed.

  (** The menu of a row: exactly one entry, the one that fits what was chosen for that package so far. *)
  Theorem C102_menu es w0 os g i r w : run es (start w0) = Ok (os, g) -> nth_error (g_rows g) i = Some r ->
    exists n label g', nth_error (r_cols r) 1 = Some n /\ entry (seen_by w0 os) n label /\
      step (Click i true) g w = Ok (Picked n label, g', w) /\ step (Click i false) g w = Ok (Dismissed n label, g, w).
  Proof.
    intros H NR. pose proof (run_tied es _ _ _ _ (start_tied w0) H) as T. change (fold_left see os (first w0)) with (seen_by w0 os) in T.
    destruct (row_deref _ g r T (nth_error_In _ _ NR)) as (j & e & NE & E & D). destruct (menu_of _ g (fst e) T) as (label & M & EN & C).
    destruct (C false) as (C1 & _). exists (fst e), label. eexists. split; [rewrite E; reflexivity|]. split; [exact EN|].
    cbn [GuiModel.step]. rewrite NR, D. cbn [pk_of k_status k_name]. rewrite M. cbn [rev app]. rewrite C1. split; reflexivity.
  Qed.

  (** The button "Go !" can be pressed when something is pending (or was, before a Sync). *)
  Theorem C102_button es w0 os g : run es (start w0) = Ok (os, g) ->
    (g_active g = true <-> (exists n, pending (seen_by w0 os) n) \/ v_stale (seen_by w0 os) = true).
  Proof.
    intro H. pose proof (run_tied es _ _ _ _ (start_tied w0) H) as T. change (fold_left see os (first w0)) with (seen_by w0 os) in T.
    rewrite (t_active _ _ T). pose proof (t_jobs _ _ T) as J. destruct (v_stale (seen_by w0 os)) eqn:V.
    - destruct J as (_ & J & _). destruct (g_jobs g); [contradiction|]. split; [intros _; right; reflexivity|reflexivity].
    - rewrite J. rewrite <- (jobs_pending _ g T V). destruct (jobs_of g) as [|p l]; cbn [emptyb negb].
      + split; [discriminate|]. intros [X|X]; [contradiction|discriminate X].
      + split; [intros _; left; discriminate|reflexivity].
  Qed.

  (** removals first; the installations only if these succeed; nothing is called for an empty set *)
  Definition performed (rm ins : list str) (w : W) (o : W * bool) : Prop :=
    exists w1 ok1, (rm = [] /\ w1 = w /\ ok1 = true \/ rm <> [] /\ remove_pkgs rm w = (w1, ok1)) /\
      (ok1 = false /\ o = (w1, false) \/ ok1 = true /\ ins = [] /\ o = (w1, true) \/ ok1 = true /\ ins <> [] /\ o = install_pkgs ins w1).

  (** "Go !" as root: removes and installs exactly the packages whose latest choice says so. *)
  Theorem C102_go es w0 os g w : run es (start w0) = Ok (os, g) ->
    let v := seen_by w0 os in v_stale v = false -> (exists n, pending v n) ->
    exists rm ins ok w' g', step (Go true) g w = Ok (Done rm ins ok w', g', w') /\
      ssorted rm /\ ssorted ins /\ (forall n, In n rm <-> to_remove v n) /\ (forall n, In n ins <-> to_install v n) /\
      performed rm ins w (w', ok).
  Proof.
    intros H v V P. pose proof (run_tied es _ _ _ _ (start_tied w0) H) as T. change (fold_left see os (first w0)) with v in T.
    assert (A : g_active g = true) by (apply (C102_button es w0 os g H); left; exact P).
    destruct (sets_of v g T V) as (rm & ins & E & SR & SI & HR & HI).
    exists rm, ins, (snd (do_jobs W remove_pkgs install_pkgs rm ins w)), (fst (do_jobs W remove_pkgs install_pkgs rm ins w)). eexists.
    split; [cbn [GuiModel.step]; rewrite A, E; reflexivity|]. split; [exact SR|]. split; [exact SI|]. split; [exact HR|]. split; [exact HI|].
    unfold performed, do_jobs. destruct rm as [|a rm]; cbn [emptyb fst snd].
    - exists w, true. split; [left; split; [reflexivity|split; reflexivity]|]. destruct ins as [|b ins]; cbn [emptyb fst snd].
      + right; left. split; [reflexivity|split; reflexivity].
      + right; right. split; [reflexivity|]. split; [discriminate|]. rewrite <- surjective_pairing. reflexivity.
    - exists (fst (remove_pkgs (a :: rm) w)), (snd (remove_pkgs (a :: rm) w)). split; [right; split; [discriminate|apply surjective_pairing]|].
      destruct (snd (remove_pkgs (a :: rm) w)) eqn:O.
      + destruct ins as [|b ins]; cbn [emptyb fst snd].
        * right; left. split; [reflexivity|]. split; [reflexivity|]. rewrite O. reflexivity.
        * right; right. split; [reflexivity|]. split; [discriminate|]. rewrite <- surjective_pairing. reflexivity.
      + left. split; [reflexivity|]. rewrite O. reflexivity.
  Qed.

  (** Not as root: nothing is done to the system. *)
  Theorem C102_user es w0 os g w : run es (start w0) = Ok (os, g) -> (exists n, pending (seen_by w0 os) n) ->
    (exists g', step (Go false) g w = Ok (GoRefused, g', w)) /\ step (Sync false) g w = Ok (SyncRefused, g, w).
  Proof.
    intros H P. assert (A : g_active g = true) by (apply (C102_button es w0 os g H); left; exact P).
    split; [|reflexivity]. eexists. cbn [GuiModel.step]. rewrite A. reflexivity.
  Qed.

  (** The one event that goes wrong: "Go !" after choices were thrown away by a "Sync" and nothing was picked since. *)
  Theorem C102_safe es w0 os g w e : run es (start w0) = Ok (os, g) ->
    step e g w <> Throw /\ (step e g w = UB <-> e = Go true /\ v_stale (seen_by w0 os) = true).
  Proof.
    intro H. pose proof (run_tied es _ _ _ _ (start_tied w0) H) as T. change (fold_left see os (first w0)) with (seen_by w0 os) in T.
    destruct e as [i pick|i|s|c|root|root]; cbn [GuiModel.step].
    - destruct (nth_error (g_rows g) i) as [r|] eqn:NR; [|split; [discriminate|split; [discriminate|intros [X _]; discriminate X]]].
      destruct (row_deref _ g r T (nth_error_In _ _ NR)) as (j & e & NE & E & D). destruct (menu_of _ g (fst e) T) as (label & M & EN & C).
      destruct (C false) as (C1 & _). rewrite D. cbn [pk_of k_status k_name]. rewrite M. cbn [rev app]. rewrite C1.
      destruct pick; (split; [discriminate|split; [discriminate|intros [X _]; discriminate X]]).
    - destruct (nth_error (g_rows g) i) as [r|] eqn:NR; [|split; [discriminate|split; [discriminate|intros [X _]; discriminate X]]].
      destruct (row_deref _ g r T (nth_error_In _ _ NR)) as (j & e & NE & E & D). rewrite D. split; [discriminate|split; [discriminate|intros [X _]; discriminate X]].
    - split; [discriminate|split; [discriminate|intros [X _]; discriminate X]].
    - split; [discriminate|split; [discriminate|intros [X _]; discriminate X]].
    - destruct root.
      + destruct (v_stale (seen_by w0 os)) eqn:V.
        * assert (A : g_active g = true) by (apply (C102_button es w0 os g H); right; exact V). rewrite A, (stale_sets _ g T V).
          split; [discriminate|]. split; [intros _; split; reflexivity|reflexivity].
        * destruct (sets_of _ g T V) as (rm & ins & E & _). rewrite E.
          destruct (negb (g_active g)); (split; [discriminate|split; [discriminate|intros [_ X]; discriminate X]]).
      + destruct (negb (g_active g)); (split; [discriminate|split; [discriminate|intros [X _]; discriminate X]]).
    - destruct root; (split; [discriminate|split; [discriminate|intros [X _]; discriminate X]]).
  Qed.

  (** The information pane describes the package of the row. *)
  Definition text_ok (s : str) : Prop := ~ In zero s.
  Definition described (e : str * details) : str :=
    fst e ++ L " " ++ d_version (snd e) ++ NL ++ d_text (snd e) ++ NL ++ L "build by: " ++ d_packager (snd e) ++ NL ++ L "from    : " ++ d_coll (snd e) ++ L " collection/set of packages".

  Lemma cstr_id s : text_ok s -> cstr s = s.
  Proof.
    induction s as [|c s IH]; intro H; [reflexivity|]. cbn [cstr]. destruct (ceqb c zero) eqn:E.
    - exfalso. apply H. left. apply ceqb_eq. exact E.
    - f_equal. apply IH. intro X. apply H. right. exact X.
  Qed.
  Lemma text_app a b : text_ok a -> text_ok b -> text_ok (a ++ b).
  Proof. unfold text_ok. intros A B H. apply in_app_iff in H. destruct H; contradiction. Qed.
  Lemma info_is v e : fst e <> [] -> text_ok (fst e) -> text_ok (d_version (snd e)) -> text_ok (d_text (snd e)) -> text_ok (d_packager (snd e)) -> text_ok (d_coll (snd e)) ->
    info_text (pk_of v e) = described e.
  Proof.
    intros N A B C D E.
    assert (Q : emptyb (k_name (pk_of v e)) = false) by (change (k_name (pk_of v e)) with (fst e); destruct (fst e); [contradiction|reflexivity]).
    unfold info_text, described. rewrite Q. cbn [pk_of k_name k_info].
    assert (Z : forall s0 : str, In zero s0 <-> existsb (ceqb zero) s0 = true).
    { intro s0. rewrite existsb_exists. split; [intro H; exists zero; split; [exact H|apply ceqb_eq; reflexivity]|intros (x & H & X); apply ceqb_eq in X; subst x; exact H]. }
    assert (NLok : text_ok NL) by (unfold text_ok; rewrite Z; discriminate).
    rewrite !cstr_id; try assumption.
    - rewrite <- !app_assoc. reflexivity.
    - apply text_app; [unfold text_ok; rewrite Z; discriminate|]. apply text_app; [exact E|unfold text_ok; rewrite Z; discriminate].
    - apply text_app; [unfold text_ok; rewrite Z; discriminate|]. apply text_app; [exact D|exact NLok].
    - apply text_app; [exact C|exact NLok].
    - apply text_app; [unfold text_ok; rewrite Z; discriminate|]. apply text_app; [exact B|exact NLok].
  Qed.
  Lemma find_pk v l e : NoDup (map fst l) -> In e l -> find (fun p => seqb (k_name p) (fst e)) (map (pk_of v) l) = Some (pk_of v e).
  Proof.
    induction l as [|a l IH]; intros ND H; [contradiction|]. cbn [map fst] in ND. apply NoDup_cons_iff in ND. destruct ND as (N1 & N2).
    cbn [map find pk_of k_name]. destruct (seqb (fst a) (fst e)) eqn:E.
    - destruct H as [->|H]; [reflexivity|]. exfalso. apply seqb_eq in E. apply N1. rewrite E. apply in_map. exact H.
    - destruct H as [->|H]; [rewrite seqb_refl in E; discriminate E|]. apply IH; assumption.
  Qed.

  Theorem C102_info es w0 os g i r ev w o g' w' : run es (start w0) = Ok (os, g) -> nth_error (g_rows g) i = Some r -> ev = Click i true \/ ev = Look i ->
    step ev g w = Ok (o, g', w') ->
    exists e, In e (v_list (seen_by w0 os)) /\ nth_error (r_cols r) 1 = Some (fst e) /\
      (fst e <> [] -> Forall text_ok [fst e; d_version (snd e); d_text (snd e); d_packager (snd e); d_coll (snd e)] -> g_info g' = described e).
  Proof.
    intros H NR EV ST. pose proof (run_tied es _ _ _ _ (start_tied w0) H) as T. change (fold_left see os (first w0)) with (seen_by w0 os) in T.
    set (v := seen_by w0 os) in *.
    destruct (row_deref _ g r T (nth_error_In _ _ NR)) as (j & e & NE & E & D). exists e. split; [exact (nth_error_In _ _ NE)|]. split; [rewrite E; reflexivity|].
    intros N F. apply Forall_inv_tail in F as F1. apply Forall_inv in F. apply Forall_inv_tail in F1 as F2. apply Forall_inv in F1.
    apply Forall_inv_tail in F2 as F3. apply Forall_inv in F2. apply Forall_inv_tail in F3 as F4. apply Forall_inv in F3. apply Forall_inv in F4.
    pose proof (t_sane _ _ T) as (ND & _). destruct (menu_of _ g (fst e) T) as (label & M & EN & C). destruct (C false) as (C1 & C2 & C3).
    destruct EV as [->| ->]; cbn [GuiModel.step] in ST; rewrite NR, D in ST; cbn [pk_of k_status k_name] in ST.
    - rewrite M in ST. cbn [rev app] in ST. rewrite C1 in ST. injection ST as _ <- _. cbn [show_info g_info]. rewrite E.
      pose proof (pick_tied v g j e label _ T NE eq_refl C2 C3) as T'. cbn [row_of r_data fst snd]. rewrite (t_pkgs _ _ T'). cbn [v_list].
      rewrite (find_pk _ (v_list v) e ND (nth_error_In _ _ NE)). apply info_is; assumption.
    - injection ST as _ <- _. cbn [show_info g_info]. rewrite (t_pkgs _ _ T). rewrite (find_pk _ (v_list v) e ND (nth_error_In _ _ NE)). apply info_is; assumption.
  Qed.
End C102.

(** a package has one menu entry *)
Lemma entry_unique v n a b : entry v n a -> entry v n b -> a = b.
Proof.
  unfold entry, pending. intros [(A & ->)|[(A & ->)|[(A & A2 & ->)|(A & A2 & ->)]]] [(B & ->)|[(B & ->)|[(B & B2 & ->)|(B & B2 & ->)]]]; try reflexivity; exfalso;
    unfold to_install, to_remove in *; try tauto; rewrite A in B; discriminate B.
Qed.
