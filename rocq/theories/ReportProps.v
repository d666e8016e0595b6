(** C92: what the report of 'cards diff' says. *)
From Verif Require Import Base BaseProofs StrModel StrSpec StrProofs MetaModel DbModel DbLoad DbInv IndexModel DiffModel DiffProps DiffAmounts SizeModel ReportModel.
From Coq Require Import ZArith NArith Lia Sorted.
Open Scope nat_scope.

(** ** reading a report: under the first line that begins with a heading, up to the next empty line *)
Fixpoint paragraph (ls : list str) : list str := match ls with [] => [] | [] :: _ => [] | l :: t => l :: paragraph t end.
Fixpoint under (h : str) (ls : list str) : option (str * list str) :=
  match ls with [] => None | l :: t => if prefixb h l then Some (skipn (length h) l, paragraph t) else under h t end.
(** the packages of a class, in the order of their names *)
Definition of_class (j : junk) (repo : list (str * irec)) (m : mem) (u : upg) (l : list str) : Prop :=
  ssorted l /\ forall n, In n l <-> exists r, mget n (m_pkgs m) = Some r /\ class j repo n r u.
Definition unspaced (s : str) : Prop := s <> [] /\ ~ In " "%char s.
(** names and versions are words *)
Definition words_only (repo : list (str * irec)) (m : mem) : Prop :=
  (forall n r, mget n (m_pkgs m) = Some r -> unspaced n /\ ~ In " "%char (r_version r)) /\ (forall n i, mget n repo = Some i -> ~ In " "%char (i_text "V"%char i)).
(** the versions compared, as they are written *)
Definition version_of (j : junk) (repo : list (str * irec)) (m : mem) (n v v' : str) : Prop :=
  exists r i, mget n (m_pkgs m) = Some r /\ mget n repo = Some i /\
    v = r_version r ++ "-"%char :: dec (known (j_irel j n) (r_release r)) /\ v' = i_text "V"%char i ++ "-"%char :: dec (known (j_rrel j n) (i_release i)).
Definition h_new := L "Rebuild Packages (newer build date):      ".
Definition h_obs := L "Obsoletes Packages (will be removed):     ".
Definition h_unm := L "Unmaintained Packages (should be removed):".
Definition h_out := L "Out of Date Packages (different version): ".
Definition h_all := L "Number of Packages:                       ".
Definition h_ok := L "Unchanged Packages:                       ".

(** ** proofs *)
Fixpoint gaps (s : str) : nat := match s with [] => 0 | c :: t => match t with [] => 0 | d :: _ => (if ceqb c " "%char && negb (ceqb d " "%char) then 1 else 0) + gaps t end end.
Lemma gaps_cons c d t : gaps (c :: d :: t) = (if ceqb c " "%char && negb (ceqb d " "%char) then 1 else 0) + gaps (d :: t).
Proof. reflexivity. Qed.
Lemma gaps_prefix : forall p s, prefixb p s = true -> gaps p <= gaps s.
Proof.
  induction p as [|c p IH]; intros s H; [cbn; lia|]. destruct s as [|c' s]; [discriminate|]. cbn [prefixb] in H. apply andb_true_iff in H. destruct H as [E H]. apply ceqb_eq in E. subst c'. destruct p as [|d p]; [cbn [gaps]; lia|].
  destruct s as [|d' s]; [discriminate|]. pose proof (IH _ H) as Q. cbn [prefixb] in H. apply andb_true_iff in H. destruct H as [E _]. apply ceqb_eq in E. subst d'. rewrite !gaps_cons. lia.
Qed.
Lemma gaps_word a b : ~ In " "%char a -> gaps (a ++ b) = gaps b.
Proof.
  induction a as [|c a IH]; intro N; [reflexivity|]. cbn [List.app]. destruct (a ++ b) as [|d t] eqn:E.
  - apply app_eq_nil in E. destruct E as [_ ->]. reflexivity.
  - rewrite gaps_cons. destruct (ceqb_spec c " "%char) as [->|_]; [exfalso; apply N; left; reflexivity|]. cbn [andb Nat.add]. apply IH. intro I. apply N. right. exact I.
Qed.
Lemma gaps_blanks k b : gaps (repeat " "%char k ++ b) <= 1 + gaps b.
Proof.
  induction k as [|k IH]; [cbn [repeat List.app]; lia|]. cbn [repeat List.app]. destruct (repeat " "%char k ++ b) as [|d t] eqn:E; [cbn [gaps]; lia|]. rewrite gaps_cons. destruct k as [|k].
  - cbn [repeat List.app] in E. rewrite E. destruct (ceqb " " " " && negb (ceqb d " ")); lia.
  - cbn [repeat List.app] in E. injection E as <- E. rewrite ceqb_refl. cbn [andb negb Nat.add]. exact IH.
Qed.
Lemma setw_gaps w s b : ~ In " "%char s -> gaps (setw w s ++ b) <= 1 + gaps b.
Proof. intro N. unfold setw. rewrite <- app_assoc, gaps_word by exact N. apply gaps_blanks. Qed.
Lemma no_heading h l : 3 <= gaps h -> gaps l <= 2 -> prefixb h l = false.
Proof. intros A B. apply not_true_is_false. intro H. apply gaps_prefix in H. lia. Qed.
Lemma under_skip h a b : Forall (fun l => prefixb h l = false) a -> under h (a ++ b) = under h b.
Proof. induction 1 as [|l a H _ IH]; [reflexivity|]. cbn [List.app under]. rewrite H. exact IH. Qed.
Lemma under_none h a : Forall (fun l => prefixb h l = false) a -> under h a = None.
Proof. intro F. rewrite <- (app_nil_r a), under_skip by exact F. reflexivity. Qed.
Lemma paragraph_ends a b : Forall (fun l : str => l <> []) a -> paragraph (a ++ [] :: b) = a.
Proof. induction 1 as [|l a H _ IH]; [reflexivity|]. cbn [List.app paragraph]. destruct l; [contradiction|]. rewrite IH. reflexivity. Qed.
Lemma under_here h rest a b : Forall (fun l : str => l <> []) a -> under h ((h ++ rest) :: a ++ [] :: b) = Some (rest, a).
Proof. intro F. cbn [under]. rewrite (proj2 (prefixb_spec h (h ++ rest)) (ex_intro _ rest eq_refl)), paragraph_ends by exact F. rewrite skipn_app, skipn_all, Nat.sub_diag. reflexivity. Qed.

Lemma Forall_tail {A} (P : A -> Prop) l : Forall P l -> Forall P (List.tl l).
Proof. intro F. destruct F; [constructor|assumption]. Qed.
Section Report.
  Variables (jk : bool) (d : disk) (m : mem) (j : junk) (js jz : str -> N) (repo : list (str * irec)) (space ratio : N).
  Hypothesis El : load jk d = Ok m.
  Hypothesis J : junk_ok j.
  Lemma rows_get n : mget n (rows j repo m) = match mget n (m_pkgs m) with Some r => Some (row_turn j repo m (n, r)) | None => None end.
  Proof.
    pose proof (ssorted_NoDup _ (load_keys jk d m El)) as N. unfold rows.
    assert (G : forall l acc, NoDup (keys l) -> mget n (fold_left (fun (acc : list (str * row)) (p : str * rec) => mset (fst p) (row_turn j repo m p) acc) l acc) =
      match mget n l with Some r => Some (row_turn j repo m (n, r)) | None => mget n acc end).
    { clear. induction l as [|[k r] l IH]; intros acc N; [reflexivity|]. cbn [fold_left fst]. unfold keys in N. cbn [map fst] in N. apply NoDup_cons_iff in N. destruct N as [Nk N]. rewrite IH by exact N.
      cbn [mget]. destruct (seqb n k) eqn:B.
      - apply seqb_eq in B. subst k. assert (Z : mget n l = None). { destruct (mget n l) as [r'|] eqn:G; [|reflexivity]. exfalso. apply Nk. apply mget_In in G. apply (in_map fst) in G. exact G. }
        rewrite Z, mget_mset, seqb_refl. reflexivity.
      - destruct (mget n l); [reflexivity|]. rewrite mget_mset, B. reflexivity. }
    rewrite (G (m_pkgs m) [] N). destruct (mget n (m_pkgs m)); reflexivity.
  Qed.
  Lemma rows_sorted : ssorted (keys (rows j repo m)).
  Proof.
    unfold rows. assert (G : forall l (acc : list (str * row)), ssorted (keys acc) -> ssorted (keys (fold_left (fun (acc : list (str * row)) (p : str * rec) => mset (fst p) (row_turn j repo m p) acc) l acc))).
    { induction l as [|p l IH]; intros acc S; [exact S|]. cbn [fold_left]. apply IH. apply mset_keys_sorted. exact S. }
    apply G. constructor.
  Qed.
  Lemma rows_In n w : In (n, w) (rows j repo m) <-> exists r, mget n (m_pkgs m) = Some r /\ w = row_turn j repo m (n, r).
  Proof.
    split.
    - intro I. apply (In_mget _ _ _ (ssorted_NoDup _ rows_sorted)) in I. rewrite rows_get in I. destruct (mget n (m_pkgs m)) as [r|]; [|discriminate I]. injection I as <-. exists r. split; reflexivity.
    - intros (r & G & ->). apply mget_In. rewrite rows_get, G. reflexivity.
  Qed.
  Lemma is_status_eq u p : is_status u p = true <-> w_status (snd p) = u.
  Proof. unfold is_status. destruct u, (w_status (snd p)); split; (reflexivity || discriminate). Qed.
  Lemma keys_filter (f : str * row -> bool) l : ssorted (keys l) -> ssorted (map fst (filter f l)).
  Proof.
    unfold keys. induction l as [|p l IH]; intro S; [constructor|]. cbn [map] in S. inversion S as [|? ? S1 S2]; subst. cbn [filter]. destruct (f p); [|exact (IH S1)]. cbn [map]. constructor; [exact (IH S1)|].
    rewrite Forall_forall in *. intros y I. apply S2. apply in_map_iff in I. destruct I as (q & <- & I). apply in_map. apply filter_In in I. exact (proj1 I).
  Qed.
  Lemma row_class n r u : mget n (m_pkgs m) = Some r -> (classify j repo m (n, r) = u <-> class j repo n r u).
  Proof.
    intro G. pose proof (ssorted_NoDup _ (load_keys jk d m El)) as N. pose proof (load_rels jk d m El) as R. pose proof (classify_class j repo m n r N (mget_In _ _ _ G) J R) as C.
    split; [intros <-; exact C|]. intro C'. exact (class_unique j repo n r _ _ C C').
  Qed.
  Lemma listed_of u : of_class j repo m u (map fst (filter (is_status u) (rows j repo m))).
  Proof.
    split; [apply keys_filter, rows_sorted|]. intro n. rewrite in_map_iff. split.
    - intros ([k w] & <- & I). apply filter_In in I. destruct I as [I S]. apply rows_In in I. destruct I as (r & G & ->). apply is_status_eq in S. exists r. split; [exact G|]. apply row_class; [exact G|exact S].
    - intros (r & G & C). exists (n, row_turn j repo m (n, r)). split; [reflexivity|]. apply filter_In. split; [apply rows_In; exists r; split; [exact G|reflexivity]|]. apply is_status_eq. cbn [snd row_turn w_status]. apply row_class; assumption.
  Qed.
  Lemma of_class_unique u l l' : of_class j repo m u l -> of_class j repo m u l' -> l = l'.
  Proof. intros [S H] [S' H']. apply ssorted_ext; [exact S|exact S'|]. intro x. rewrite H, H'. reflexivity. Qed.
  Lemma count_length u k l : counts j repo m u k -> of_class j repo m u l -> k = length l.
  Proof.
    intros (l0 & N & <- & H) [S H']. apply Nat.le_antisymm; apply NoDup_incl_length; [exact N| |apply ssorted_NoDup; exact S|]; intros x I; [apply H', H|apply H, H']; exact I.
  Qed.

  Lemma widths_ok l : forall p, In p l -> is_status UOut p = true -> length (fst p) < fst (widths l) /\ length (w_inst (snd p)) < snd (widths l).
  Proof.
    unfold widths. cbv zeta. cbn [fst snd]. set (f := fun (w : nat * nat) (p : str * row) => if is_status UOut p then
      ((if fst w <? length (fst p) then length (fst p) else fst w), (if snd w <? length (w_inst (snd p)) then length (w_inst (snd p)) else snd w)) else w).
    generalize ((if 2 <? length (L "Name:") then length (L "Name:") else 2), (if 4 <? length (L "Installed:") then length (L "Installed:") else 4)).
    assert (Mono : forall l w, fst w <= fst (fold_left f l w) /\ snd w <= snd (fold_left f l w)).
    { clear l. induction l as [|p l IH]; intro w; [cbn; lia|]. cbn [fold_left]. destruct (IH (f w p)) as [A B]. unfold f at 1 in A. unfold f at 1 in B. destruct (is_status UOut p); [|split; assumption]. cbn [fst snd] in A, B.
      destruct (Nat.ltb_spec (fst w) (length (fst p))), (Nat.ltb_spec (snd w) (length (w_inst (snd p)))); lia. }
    induction l as [|q l IH]; intros w p I S; [destruct I|]. cbn [fold_left]. destruct I as [->|I]; [|apply IH; assumption].
    destruct (Mono l (f w p)) as [A B]. unfold f at 1 in A. unfold f at 1 in B. rewrite S in A, B. cbn [fst snd] in A, B. destruct (Nat.ltb_spec (fst w) (length (fst p))), (Nat.ltb_spec (snd w) (length (w_inst (snd p)))); lia.
  Qed.
  Lemma vtext_unspaced v r : ~ In " "%char v -> unspaced (vtext v r).
  Proof.
    intro N. split; [unfold vtext; destruct v; discriminate|]. unfold vtext. intro I. apply in_app_iff in I. destruct I as [I|[I|I]]; [exact (N I)|discriminate I|].
    destruct (dec_spec (r mod 2 ^ 32) ltac:(pose proof (N.mod_upper_bound r (2 ^ 32) ltac:(discriminate)); lia)) as (_ & D & _). rewrite Forall_forall in D. apply D in I. unfold is_digit in I. cbn in I. lia.
  Qed.
  Lemma row_tokens w1 w2 n v v' : unspaced n -> unspaced v -> unspaced v' -> length n < w1 -> length v < w2 -> tokens (eq " "%char) (setw w1 n ++ setw w2 v ++ v') [n; v; v'].
  Proof.
    intros [Nn Sn] [Nv Sv] [Nw Sw] L1 L2. assert (NS : forall s : str, ~ In " "%char s -> Forall (fun c => " "%char <> c) s) by (intros s N; apply Forall_forall; intros c I E; subst c; exact (N I)). assert (B : forall k, Forall (eq " "%char) (repeat " "%char k)) by (intro k; apply Forall_forall; intros c I; symmetry; exact (repeat_spec _ _ _ I)).
    unfold setw. rewrite <- !app_assoc. apply (tok_one _ [] n); [constructor|exact Nn|exact (NS n Sn)| |].
    - right. destruct (w1 - length n) as [|k] eqn:E; [lia|]. eexists. eexists. split; [cbn [repeat List.app]; reflexivity|reflexivity].
    - apply tok_one; [apply B|exact Nv|exact (NS v Sv)| |].
      + right. destruct (w2 - length v) as [|k] eqn:E; [lia|]. eexists. eexists. split; [cbn [repeat List.app]; reflexivity|reflexivity].
      + pose proof (tok_one (eq " "%char) (repeat " "%char (w2 - length v)) v' [] [] (B _) Nw (NS v' Sw) (or_introl eq_refl) (tok_end _ [] (Forall_nil _))) as T. rewrite app_nil_r in T. exact T.
  Qed.

  Hypothesis Few : (N.of_nat (length (m_pkgs m)) < 2 ^ 32)%N.
  Hypothesis W : words_only repo m.
  Hypothesis Due : d_size (diff j repo m) <> 0.
  Let R := show_info true space ratio js jz j repo m.
  Let l0 := rows j repo m.
  Let head := [[]; counted "Number of Packages:                       " (length (m_pkgs m)); counted "Unchanged Packages:                       " (d_ok (diff j repo m)); counted "Added packages (new dependencies):        " 0; []].
  Let table := (setw (fst (widths l0)) (L "Name:") ++ setw (snd (widths l0)) (L "Installed:") ++ L "Available:") ::
       map (fun p : str * row => setw (fst (widths l0)) (fst p) ++ setw (snd (widths l0)) (w_inst (snd p)) ++ w_avail (snd p)) (filter (is_status UOut) l0).
  Let tail := amount_info space (deal j js jz repo m) ++ advice ratio.
  Let lpart (h : string) (u : upg) (k : nat) := part true h k (fst (widths l0)) u l0.
  Lemma R_eq : R = head ++ counted "Out of Date Packages (different version): " (d_out (diff j repo m)) :: table ++
    lpart "Rebuild Packages (newer build date):      " UNew (d_new (diff j repo m)) ++ lpart "Obsoletes Packages (will be removed):     " UObs (d_obs (diff j repo m)) ++
    lpart "Unmaintained Packages (should be removed):" UUnm (d_unm (diff j repo m)) ++ tail.
  Proof.
    unfold R, show_info. cbv zeta. destruct (Nat.eqb_spec (d_size (diff j repo m)) 0) as [E|_]; [contradiction|]. fold l0. unfold lpart, table, head, tail. destruct (widths l0) as [w1 w2]. cbn [fst snd List.app]. reflexivity.
  Qed.
  Lemma counted_eq h k : k <= length (m_pkgs m) -> counted h k = L h ++ dec (N.of_nat k).
  Proof. intro Le. unfold counted. rewrite N.mod_small by lia. reflexivity. Qed.
  Lemma name_ok n w : In (n, w) l0 -> unspaced n.
  Proof. intro I. apply rows_In in I. destruct I as (r & G & _). exact (proj1 (proj1 W n r G)). Qed.
  Lemma out_row n w : In (n, w) l0 -> is_status UOut (n, w) = true -> unspaced (w_inst w) /\ unspaced (w_avail w) /\ version_of j repo m n (w_inst w) (w_avail w).
  Proof.
    intros I S. apply rows_In in I. destruct I as (r & G & ->). apply is_status_eq in S. cbn [snd row_turn w_status w_inst w_avail fst] in *. pose proof (load_rels jk d m El) as Rl.
    assert (C : class j repo n r UOut) by (apply row_class; assumption). destruct C as (i & Gi & _). unfold in_repo in Gi. rewrite Gi. split; [apply vtext_unspaced; exact (proj2 (proj1 W n r G))|]. split; [apply vtext_unspaced; exact (proj2 W n i Gi)|].
    exists r, i. split; [exact G|]. split; [exact Gi|]. destruct (J n) as [J1 J2]. unfold vtext. split; f_equal; f_equal; f_equal; apply N.mod_small.
    - destruct (r_release r) as [v|] eqn:Er; cbn [known]; [pose proof (Rl n r v (mget_In _ _ _ G) Er)|]; lia.
    - destruct (i_release i) as [v|] eqn:Er; cbn [known]; [pose proof (i_release_small i v Er)|]; lia.
  Qed.
  Definition quiet (h : str) (l : str) : Prop := prefixb h l = false.
  Lemma table_gaps : Forall (fun l => gaps l <= 2 /\ l <> []) table.
  Proof.
    assert (G : forall a b w, ~ In " "%char a -> ~ In " "%char b -> forall w', gaps (setw w a ++ setw w' b ++ L "Available:") <= 2).
    { intros a b w Na Nb w'. pose proof (setw_gaps w a (setw w' b ++ L "Available:") Na). pose proof (setw_gaps w' b (L "Available:") Nb). change (gaps (L "Available:")) with 0 in *. lia. }
    unfold table. constructor.
    - split; [|intro X; apply (f_equal (@length _)) in X; rewrite !app_length in X; cbn in X; lia]. apply G; (cbn; intuition discriminate).
    - apply Forall_forall. intros x I. apply in_map_iff in I. destruct I as ([n w] & <- & I). apply filter_In in I. destruct I as [I S]. cbn [fst snd]. destruct (out_row n w I S) as (A & B & _). pose proof (name_ok n w I) as Nn.
      split; [|unfold setw; destruct n; [destruct (proj1 Nn eq_refl)|discriminate]].
      pose proof (setw_gaps (fst (widths l0)) n (setw (snd (widths l0)) (w_inst w) ++ w_avail w) (proj2 Nn)). pose proof (setw_gaps (snd (widths l0)) (w_inst w) (w_avail w) (proj2 A)).
      pose proof (gaps_word (w_avail w) [] (proj2 B)) as Z. rewrite app_nil_r in Z. cbn [gaps] in Z. lia.
  Qed.
  Definition names_at (u : upg) := map (fun p : str * row => setw (fst (widths l0)) (fst p)) (filter (is_status u) l0).
  Lemma names_gaps u : Forall (fun l => gaps l <= 2 /\ l <> []) (names_at u).
  Proof.
    apply Forall_forall. intros x I. apply in_map_iff in I. destruct I as ([n w] & <- & I). apply filter_In in I. destruct I as [I _]. cbn [fst]. pose proof (name_ok n w I) as Nn. split; [|unfold setw; destruct n; [destruct (proj1 Nn eq_refl)|discriminate]].
    pose proof (setw_gaps (fst (widths l0)) n [] (proj2 Nn)) as Z. rewrite app_nil_r in Z. cbn [gaps] in Z. lia.
  Qed.
  Lemma quiet_gaps h l : 3 <= gaps h -> Forall (fun l => gaps l <= 2 /\ l <> []) l -> Forall (fun l => prefixb h l = false) l.
  Proof. intros G F. eapply Forall_impl; [|exact F]. intros a [A _]. apply no_heading; assumption. Qed.
  Lemma full l : Forall (fun l => gaps l <= 2 /\ l <> []) l -> Forall (fun l : str => l <> []) l.
  Proof. intro F. eapply Forall_impl; [|exact F]. intros a [_ A]. exact A. Qed.
  Lemma tail_starts : exists t, tail = [] :: t.
  Proof. eexists. reflexivity. Qed.
  Lemma lpart_quiet h hs u k : 3 <= gaps h -> prefixb h [] = false -> prefixb h (counted hs k) = false -> Forall (fun l => prefixb h l = false) (lpart hs u k).
  Proof.
    intros G H0 H. unfold lpart, part. destruct (0 <? k); [|constructor]. cbn [List.app]. constructor; [exact H0|]. constructor; [exact H|]. apply quiet_gaps; [exact G|exact (names_gaps u)].
  Qed.
  Lemma tail_quiet h : prefixb h [] = false -> (forall v, prefixb h (amount "Available space on your system:           " v) = false) -> (forall v, prefixb h (amount "Total download size:                      " v) = false) -> (forall v, prefixb h (amount "Total size of reinstalled packages:       " v) = false) ->
    (forall v, prefixb h (amount "Total size of remove packages:            " v) = false) -> (forall v, prefixb h (amount "Total amount of added bytes:              " v) = false) -> (forall v, prefixb h (amount "Total amount of removed bytes:            " v) = false) ->
    (forall v, prefixb h (L "Percentage of obsoletes packages: " ++ v) = false) -> (forall v, prefixb h (L "Use the command: " ++ v) = false) -> prefixb h (L "when you're ready to upgrade your system.") = false ->
    Forall (fun l => prefixb h l = false) tail.
  Proof.
    intros H0 H1 H2 H3 H4 H5 H6 H7 H8 H9. unfold tail, amount_info, advice. apply Forall_app. split.
    - apply Forall_app. split; [repeat (constructor; [first [exact H0|apply H1|apply H2|apply H3|apply H4]|]); constructor|]. apply Forall_app. split; [destruct (removeSize _ <? addSize _)%N|destruct (addSize _ <? removeSize _)%N]; repeat (constructor; [first [apply H5|apply H6]|]); constructor.
    - destruct (20 <? ratio)%N; [|constructor]. repeat (constructor; [first [exact H0|apply H7|apply H8|exact H9]|]). constructor.
  Qed.
  Lemma counters u k : (u, k) = (UOk, d_ok (diff j repo m)) \/ (u, k) = (UOut, d_out (diff j repo m)) \/ (u, k) = (UNew, d_new (diff j repo m)) \/ (u, k) = (UObs, d_obs (diff j repo m)) \/ (u, k) = (UUnm, d_unm (diff j repo m)) ->
    forall l, of_class j repo m u l -> k = length l /\ k <= length (m_pkgs m).
  Proof.
    intros H l C. destruct (C44_counters jk d m j repo El J) as (A & B & D0 & D1 & D2 & S & _). unfold d_size in S.
    destruct H as [H|[H|[H|[H|H]]]]; injection H as -> ->; (split; [eapply count_length; eassumption|lia]).
  Qed.
  Definition named_rows (b l : list str) : Prop := Forall2 (fun line n => exists k, line = n ++ repeat " "%char k) b l.
  Lemma part_found h hs u k A B l : L hs = h -> k <= length (m_pkgs m) -> k = length l -> of_class j repo m u l -> prefixb h [] = false -> Forall (fun x => prefixb h x = false) A -> R = A ++ lpart hs u k ++ [] :: B ->
    (l = [] -> Forall (fun x => prefixb h x = false) B) ->
    (l = [] -> under h R = None) /\ (l <> [] -> exists b, under h R = Some (dec (N.of_nat (length l)), b) /\ named_rows b l).
  Proof.
    intros Hh Le Ek C H0 Qa E Qb. rewrite E. split.
    - intros ->. cbn [List.length] in Ek. subst k. unfold lpart, part. cbn [Nat.ltb Nat.leb List.app]. apply under_none. apply Forall_app. split; [exact Qa|]. constructor; [exact H0|]. apply Qb. reflexivity.
    - intro Nl. exists (names_at u). rewrite under_skip by exact Qa. unfold lpart, part. assert (Kp : 0 <? k = true) by (apply Nat.ltb_lt; destruct l; [contradiction|cbn [List.length] in Ek; lia]). rewrite Kp. cbn [List.app under]. rewrite H0.
      fold (names_at u). rewrite counted_eq, Hh by exact Le. split; [rewrite <- Ek; apply under_here, full, names_gaps|].
      rewrite (of_class_unique u l _ C (listed_of u)). unfold names_at, named_rows. fold l0. clear. induction (filter (is_status u) l0) as [|p t IH]; [constructor|]. cbn [map]. constructor; [eexists; reflexivity|exact IH].
  Qed.
  Lemma found_new l : of_class j repo m UNew l -> (l = [] -> under h_new R = None) /\ (l <> [] -> exists b, under h_new R = Some (dec (N.of_nat (length l)), b) /\ named_rows b l).
  Proof.
    intro C. destruct (counters UNew _ ltac:(right; right; left; reflexivity) l C) as [K Le].
    apply (part_found h_new "Rebuild Packages (newer build date):      " UNew (d_new (diff j repo m)) (head ++ [counted "Out of Date Packages (different version): " (d_out (diff j repo m))] ++ table)
      (List.tl (lpart "Obsoletes Packages (will be removed):     " UObs (d_obs (diff j repo m)) ++ lpart "Unmaintained Packages (should be removed):" UUnm (d_unm (diff j repo m)) ++ tail))); [reflexivity|exact Le|exact K|exact C|reflexivity| | |].
    - apply Forall_app. split; [repeat (constructor; [reflexivity|]); constructor|]. apply Forall_app. split; [constructor; [reflexivity|constructor]|]. apply quiet_gaps; [vm_compute; lia|exact table_gaps].
    - rewrite R_eq. rewrite <- !app_assoc. cbn [List.app]. f_equal. f_equal. f_equal. f_equal. destruct tail_starts as (t & ->). unfold lpart, part. destruct (0 <? d_obs (diff j repo m)), (0 <? d_unm (diff j repo m)); reflexivity.
    - intros _. assert (F : Forall (fun x => prefixb h_new x = false) (lpart "Obsoletes Packages (will be removed):     " UObs (d_obs (diff j repo m)) ++ lpart "Unmaintained Packages (should be removed):" UUnm (d_unm (diff j repo m)) ++ tail)).
      { apply Forall_app. split; [apply lpart_quiet; [vm_compute; lia|reflexivity|reflexivity]|]. apply Forall_app. split; [apply lpart_quiet; [vm_compute; lia|reflexivity|reflexivity]|]. apply tail_quiet; reflexivity. }
      exact (Forall_tail _ _ F).
  Qed.
  Lemma found_obs l : of_class j repo m UObs l -> (l = [] -> under h_obs R = None) /\ (l <> [] -> exists b, under h_obs R = Some (dec (N.of_nat (length l)), b) /\ named_rows b l).
  Proof.
    intro C. destruct (counters UObs _ ltac:(right; right; right; left; reflexivity) l C) as [K Le].
    apply (part_found h_obs "Obsoletes Packages (will be removed):     " UObs (d_obs (diff j repo m)) (head ++ [counted "Out of Date Packages (different version): " (d_out (diff j repo m))] ++ table ++ lpart "Rebuild Packages (newer build date):      " UNew (d_new (diff j repo m)))
      (List.tl (lpart "Unmaintained Packages (should be removed):" UUnm (d_unm (diff j repo m)) ++ tail))); [reflexivity|exact Le|exact K|exact C|reflexivity| | |].
    - apply Forall_app. split; [repeat (constructor; [reflexivity|]); constructor|]. apply Forall_app. split; [constructor; [reflexivity|constructor]|]. apply Forall_app. split; [apply quiet_gaps; [vm_compute; lia|exact table_gaps]|]. apply lpart_quiet; [vm_compute; lia|reflexivity|reflexivity].
    - rewrite R_eq. rewrite <- !app_assoc. cbn [List.app]. f_equal. f_equal. f_equal. f_equal. f_equal. destruct tail_starts as (t & ->). unfold lpart, part. destruct (0 <? d_unm (diff j repo m)); reflexivity.
    - intros _. assert (F : Forall (fun x => prefixb h_obs x = false) (lpart "Unmaintained Packages (should be removed):" UUnm (d_unm (diff j repo m)) ++ tail)).
      { apply Forall_app. split; [apply lpart_quiet; [vm_compute; lia|reflexivity|reflexivity]|]. apply tail_quiet; reflexivity. }
      exact (Forall_tail _ _ F).
  Qed.
  Lemma found_unm l : of_class j repo m UUnm l -> (l = [] -> under h_unm R = None) /\ (l <> [] -> exists b, under h_unm R = Some (dec (N.of_nat (length l)), b) /\ named_rows b l).
  Proof.
    intro C. destruct (counters UUnm _ ltac:(right; right; right; right; reflexivity) l C) as [K Le].
    apply (part_found h_unm "Unmaintained Packages (should be removed):" UUnm (d_unm (diff j repo m)) (head ++ [counted "Out of Date Packages (different version): " (d_out (diff j repo m))] ++ table ++ lpart "Rebuild Packages (newer build date):      " UNew (d_new (diff j repo m)) ++ lpart "Obsoletes Packages (will be removed):     " UObs (d_obs (diff j repo m)))
      (List.tl tail)); [reflexivity|exact Le|exact K|exact C|reflexivity| | |].
    - apply Forall_app. split; [repeat (constructor; [reflexivity|]); constructor|]. apply Forall_app. split; [constructor; [reflexivity|constructor]|]. apply Forall_app. split; [apply quiet_gaps; [vm_compute; lia|exact table_gaps]|]. apply Forall_app. split; apply lpart_quiet; (vm_compute; lia) || reflexivity.
    - rewrite R_eq. rewrite <- !app_assoc. cbn [List.app]. f_equal.
    - intros _. assert (F : Forall (fun x => prefixb h_unm x = false) tail) by (apply tail_quiet; reflexivity).
      exact (Forall_tail _ _ F).
  Qed.
  Lemma found_out l : of_class j repo m UOut l -> exists t b, under h_out R = Some (dec (N.of_nat (length l)), t :: b) /\ tokens (eq " "%char) t [L "Name:"; L "Installed:"; L "Available:"] /\
    Forall2 (fun line n => exists v v', version_of j repo m n v v' /\ tokens (eq " "%char) line [n; v; v']) b l.
  Proof.
    intro C. destruct (counters UOut _ ltac:(right; left; reflexivity) l C) as [K Le]. eexists. eexists. split; [|split].
    - rewrite R_eq. rewrite under_skip by (repeat (constructor; [reflexivity|]); constructor). rewrite counted_eq by exact Le. rewrite <- K.
      assert (S0 : exists B, lpart "Rebuild Packages (newer build date):      " UNew (d_new (diff j repo m)) ++ lpart "Obsoletes Packages (will be removed):     " UObs (d_obs (diff j repo m)) ++ lpart "Unmaintained Packages (should be removed):" UUnm (d_unm (diff j repo m)) ++ tail = [] :: B).
      { destruct tail_starts as (t & ->). unfold lpart, part. destruct (0 <? d_new (diff j repo m)), (0 <? d_obs (diff j repo m)), (0 <? d_unm (diff j repo m)); eexists; reflexivity. }
      destruct S0 as (B & ->). change (L "Out of Date Packages (different version): ") with h_out. rewrite under_here by (apply full, table_gaps). unfold table. reflexivity.
    - assert (Wd : 5 < fst (widths l0) /\ 10 < snd (widths l0)).
      { unfold widths. cbv zeta. cbn [fst snd]. change (if 2 <? length (L "Name:") then length (L "Name:") else 2) with 5. change (if 4 <? length (L "Installed:") then length (L "Installed:") else 4) with 10.
        assert (Mo : forall l w, fst w <= fst (fold_left (fun (w : nat * nat) (p : str * row) => if is_status UOut p then ((if fst w <? length (fst p) then length (fst p) else fst w), (if snd w <? length (w_inst (snd p)) then length (w_inst (snd p)) else snd w)) else w) l w) /\
          snd w <= snd (fold_left (fun (w : nat * nat) (p : str * row) => if is_status UOut p then ((if fst w <? length (fst p) then length (fst p) else fst w), (if snd w <? length (w_inst (snd p)) then length (w_inst (snd p)) else snd w)) else w) l w)).
        { clear. induction l as [|p l IH]; intro w; [cbn; lia|]. cbn [fold_left]. destruct (is_status UOut p); [|apply IH]. match goal with |- context [fold_left _ l ?w0] => specialize (IH w0) end. cbn [fst snd] in IH. destruct (Nat.ltb_spec (fst w) (length (fst p))), (Nat.ltb_spec (snd w) (length (w_inst (snd p)))); lia. }
        specialize (Mo l0 (5, 10)). cbn [fst snd] in Mo. lia. }
      apply row_tokens; [split; [discriminate|cbn; intuition discriminate]|split; [discriminate|cbn; intuition discriminate]|split; [discriminate|cbn; intuition discriminate]|exact (proj1 Wd)|exact (proj2 Wd)].
    - rewrite (of_class_unique UOut l _ C (listed_of UOut)). fold l0. assert (F : forall p, In p (filter (is_status UOut) l0) -> In p l0 /\ is_status UOut p = true) by (intros p I; apply filter_In in I; exact I).
      pose proof (widths_ok l0) as Wd. pose proof name_ok as Nk. pose proof out_row as Or. revert F. generalize (filter (is_status UOut) l0). induction l1 as [|[n w] t IH]; intro F; [constructor|]. cbn [map fst]. constructor; [|apply IH; intros p I; apply F; right; exact I].
      destruct (F _ (or_introl eq_refl)) as [I S]. destruct (Or n w I S) as (A & B & V). exists (w_inst w), (w_avail w). split; [exact V|]. destruct (Wd _ I S) as [W1 W2]. cbn [fst snd] in *. apply row_tokens; [exact (Nk n w I)|exact A|exact B|exact W1|exact W2].
  Qed.
  Lemma found_heads l : of_class j repo m UOk l -> (exists b, under h_all R = Some (dec (N.of_nat (length (m_pkgs m))), b)) /\ exists b, under h_ok R = Some (dec (N.of_nat (length l)), b).
  Proof.
    intro C. destruct (counters UOk _ ltac:(left; reflexivity) l C) as [K Le]. rewrite R_eq. unfold head. rewrite !counted_eq by (exact Le || lia). rewrite <- K.
    split; eexists; cbn [List.app under]; match goal with |- context [prefixb ?h (?a ++ ?b)] => idtac end.
    - change (prefixb h_all []) with false. cbv iota. change (L "Number of Packages:                       ") with h_all. rewrite (proj2 (prefixb_spec h_all (h_all ++ _)) (ex_intro _ _ eq_refl)), skipn_app, skipn_all, Nat.sub_diag. reflexivity.
    - change (prefixb h_ok []) with false. cbv iota. change (prefixb h_ok (L "Number of Packages:                       " ++ dec (N.of_nat (length (m_pkgs m))))) with false. cbv iota. change (L "Unchanged Packages:                       ") with h_ok. rewrite (proj2 (prefixb_spec h_ok (h_ok ++ _)) (ex_intro _ _ eq_refl)), skipn_app, skipn_all, Nat.sub_diag. reflexivity.
  Qed.
End Report.

(** ** C92 *)
(** "Your system is up to date." is printed exactly if every installed package is in the repositories and not older there *)
Theorem C92_current : forall jk d m j js jz repo space ratio details, load jk d = Ok m -> junk_ok j ->
  (show_info details space ratio js jz j repo m = [L "Your system is up to date."] <-> forall n r, mget n (m_pkgs m) = Some r -> class j repo n r UOk).
Proof.
  intros jk d m j js jz repo space ratio details E J. destruct (C44_counters jk d m j repo E J) as (_ & _ & _ & _ & _ & _ & Z). rewrite <- Z. unfold show_info. cbv zeta. destruct (Nat.eqb_spec (d_size (diff j repo m)) 0) as [E0|N]; [split; [intros _; exact E0|reflexivity]|].
  split; [|intro X; contradiction]. destruct (widths (rows j repo m)) as [w1 w2]. intro X. discriminate X.
Qed.
(** otherwise the lists: out of date with both versions, rebuilt, obsolete and unmaintained packages, each list complete, without anything else, in
    the order of the names, and counted *)
Theorem C92_out_of_date : forall jk d m j js jz repo space ratio l, load jk d = Ok m -> junk_ok j -> (N.of_nat (length (m_pkgs m)) < 2 ^ 32)%N -> words_only repo m ->
  (exists n r, mget n (m_pkgs m) = Some r /\ ~ class j repo n r UOk) -> of_class j repo m UOut l ->
  exists t b, under h_out (show_info true space ratio js jz j repo m) = Some (dec (N.of_nat (length l)), t :: b) /\ tokens (eq " "%char) t [L "Name:"; L "Installed:"; L "Available:"] /\
    Forall2 (fun line n => exists v v', version_of j repo m n v v' /\ tokens (eq " "%char) line [n; v; v']) b l.
Proof.
  intros jk d m j js jz repo space ratio l E J Few W (n & r & G & C) Ol. apply (found_out jk d m j js jz repo space ratio E J Few W); [|exact Ol]. intro Z. apply C. apply (C44_counters jk d m j repo E J); assumption.
Qed.
Theorem C92_lists : forall jk d m j js jz repo space ratio u h l, load jk d = Ok m -> junk_ok j -> (N.of_nat (length (m_pkgs m)) < 2 ^ 32)%N -> words_only repo m ->
  (exists n r, mget n (m_pkgs m) = Some r /\ ~ class j repo n r UOk) -> (u, h) = (UNew, h_new) \/ (u, h) = (UObs, h_obs) \/ (u, h) = (UUnm, h_unm) -> of_class j repo m u l ->
  let report := show_info true space ratio js jz j repo m in
  (l = [] -> under h report = None) /\ (l <> [] -> exists b, under h report = Some (dec (N.of_nat (length l)), b) /\ Forall2 (fun line n => exists k, line = n ++ repeat " "%char k) b l).
Proof.
  intros jk d m j js jz repo space ratio u h l E J Few W (n & r & G & C) Hu Ol. cbv zeta. assert (Due : d_size (diff j repo m) <> 0) by (intro Z; apply C; apply (C44_counters jk d m j repo E J); assumption).
  destruct Hu as [X|[X|X]]; injection X as -> ->; [eapply found_new|eapply found_obs|eapply found_unm]; eassumption.
Qed.
Theorem C92_totals : forall jk d m j js jz repo space ratio l, load jk d = Ok m -> junk_ok j -> (N.of_nat (length (m_pkgs m)) < 2 ^ 32)%N ->
  (exists n r, mget n (m_pkgs m) = Some r /\ ~ class j repo n r UOk) -> of_class j repo m UOk l -> let report := show_info true space ratio js jz j repo m in
  (exists b, under h_all report = Some (dec (N.of_nat (length (m_pkgs m))), b)) /\ exists b, under h_ok report = Some (dec (N.of_nat (length l)), b).
Proof.
  intros jk d m j js jz repo space ratio l E J Few (n & r & G & C) Ol. cbv zeta. assert (Due : d_size (diff j repo m) <> 0) by (intro Z; apply C; apply (C44_counters jk d m j repo E J); assumption). eapply found_heads; eassumption.
Qed.
Definition wordb (s : str) : bool := negb (existsb (ceqb " "%char) s).
Lemma wordb_spec s : wordb s = true -> ~ In " "%char s.
Proof. unfold wordb. intros H I. apply Bool.negb_true_iff in H. rewrite <- not_true_iff_false in H. apply H. apply existsb_exists. exists " "%char. split; [exact I|apply ceqb_refl]. Qed.
Lemma words_check repo m : forallb (fun p : str * rec => match fst p with [] => false | _ => wordb (fst p) && wordb (r_version (snd p)) end) (m_pkgs m) && forallb (fun p : str * irec => wordb (i_text "V"%char (snd p))) repo = true -> words_only repo m.
Proof.
  intro H. apply andb_true_iff in H. destruct H as [H1 H2]. rewrite forallb_forall in H1, H2. split.
  - intros n r G. specialize (H1 _ (mget_In _ _ _ G)). cbn [fst snd] in H1. destruct n as [|c n]; [discriminate|]. apply andb_true_iff in H1. destruct H1 as [A B]. split; [split; [discriminate|exact (wordb_spec _ A)]|exact (wordb_spec _ B)].
  - intros n i G. exact (wordb_spec _ (H2 _ (mget_In _ _ _ G))).
Qed.
Example C92_some : exists m, load false ex_disk = Ok m /\ junk_ok ex_junk /\ words_only ex_repo m /\ of_class ex_junk ex_repo m UOut [L "c"] /\ of_class ex_junk ex_repo m UUnm [L "e"] /\ (exists n r, mget n (m_pkgs m) = Some r /\ ~ class ex_junk ex_repo n r UOk) /\
  under h_out (show_info true 0 0 (fun _ => 0%N) (fun _ => 0%N) ex_junk ex_repo m) = Some (L "1", [L "Name: Installed: Available:"; L "c     1-1        1-1-1"]).
Proof.
  assert (J : junk_ok ex_junk) by (intro n; split; reflexivity). eexists. match goal with |- ?a = _ /\ _ => set (ld := a) end. split; [unfold ld; vm_compute; reflexivity|].
  match goal with |- _ /\ words_only _ ?m0 /\ _ => set (m := m0) end. assert (El : load false ex_disk = Ok m) by (vm_compute; reflexivity).
  assert (Lo : forall u, of_class ex_junk ex_repo m u (map fst (filter (is_status u) (rows ex_junk ex_repo m)))) by (intro u; exact (listed_of false ex_disk m ex_junk ex_repo El J u)).
  split; [exact J|]. split; [apply words_check; vm_compute; reflexivity|].
  assert (O : of_class ex_junk ex_repo m UOut [L "c"]) by (pose proof (Lo UOut) as X; vm_compute (map fst _) in X; exact X). split; [exact O|].
  split; [pose proof (Lo UUnm) as X; vm_compute (map fst _) in X; exact X|]. split; [|vm_compute; reflexivity].
  destruct (proj1 (proj2 O (L "c")) (or_introl eq_refl)) as (r & G & C). exists (L "c"), r. split; [exact G|]. intro C'. pose proof (class_unique _ _ _ _ _ _ C C') as X. discriminate X.
Qed.
