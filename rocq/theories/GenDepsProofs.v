(** C22, C23, C24: dependency resolution. *)
From Verif Require Import Base BaseProofs StrModel RulesModel FsModel MetaModel DbModel GenDeps.
From Coq Require Import ZArith Lia.

(** ** specification *)
Section Spec.
  (** installed packages: name and build date; [jb]: see GenDeps *)
  Variable db : list (str * rec).
  Variable jb : Z.
  (** the archive the repositories give for a name *)
  Variable arch : str -> apkg.
  (** package [k] is installed in a build at least as recent as [t]; a date 0 never counts as installed *)
  Definition in_build (k : str) (t : Z) : Prop := t <> 0%Z /\ exists r, mget k db = Some r /\ (t <= build_of jb r)%Z.
  (** [n] itself is installed in the version, release and (at least) the build of its archive, and in the same collection *)
  Definition current (n : str) : Prop :=
    let a := arch n in
    exists r, mget (a_name a) db = Some r /\ r_version r = a_version a /\ Z.of_N (match r_release r with Some k => k | None => 1%N end) = a_release a /\
      (a_build a <= build_of jb r)%Z /\ (r_coll r = [] \/ a_coll a = [] \/ r_coll r = a_coll a).
  (** [k] must be installed before [n]: a dependency of a package that is not current, not itself, not there in that build *)
  Definition missing (n k : str) : Prop := exists t, In (k, t) (a_deps (arch n)) /\ k <> n /\ ~ in_build k t /\ ~ current n.
  Inductive wants (root : str) : str -> Prop :=
  | wants_root : wants root root
  | wants_dep n k : wants root n -> missing n k -> wants root k.
End Spec.

Lemma dep_eqb_eq x y : dep_eqb x y = true <-> x = y.
Proof.
  unfold dep_eqb. rewrite andb_true_iff, seqb_eq, Z.eqb_eq. destruct x, y; cbn. split; [intros [-> ->]; reflexivity|intro E; inversion E; auto].
Qed.
Lemma dep_eq_dec (x y : dep) : {x = y} + {x <> y}.
Proof. destruct (dep_eqb x y) eqn:E; [left; apply dep_eqb_eq, E|right; intro H; apply dep_eqb_eq in H; congruence]. Qed.
Lemma erase1_incl x l : incl (erase1 x l) l.
Proof. induction l as [|y t IH]; intros z Z; [exact Z|]. cbn [erase1] in Z. destruct (dep_eqb x y); [right; exact Z|]. destruct Z as [->|Z]; [left; reflexivity|right; apply IH, Z]. Qed.
Lemma erase1_keep x y l : x <> y -> In y l -> In y (erase1 x l).
Proof.
  intro N. induction l as [|z t IH]; intro I; [destruct I|]. cbn [erase1]. destruct (dep_eqb x z) eqn:E.
  - apply dep_eqb_eq in E. subst z. destruct I as [I|I]; [contradiction|exact I].
  - destruct I as [->|I]; [left; reflexivity|right; apply IH, I].
Qed.
Lemma erase_fold_incl ds : forall p, incl (fold_left (fun p d => erase1 d p) ds p) p.
Proof. induction ds as [|d t IH]; intro p; [apply incl_refl|]. cbn. intros x X. apply IH in X. apply (erase1_incl d p), X. Qed.
Lemma erase_fold_keep ds y : ~ In y ds -> forall p, In y p -> In y (fold_left (fun p d => erase1 d p) ds p).
Proof.
  induction ds as [|d t IH]; intros N p I; [exact I|]. cbn. apply IH; [intro K; apply N; right; exact K|]. apply erase1_keep; [intros ->; apply N; left; reflexivity|exact I].
Qed.

Section GenProofs.
  Variable db : list (str * rec).
  Variable jb : Z.
  Variable idx : list (str * list dep).
  Variable st : Type.
  Variable fetch : str -> st -> res (apkg * st).
  Variable arch : str -> apkg.
  (** during the run every name has one archive, the archive of its own name *)
  Hypothesis fetch_arch : forall n s a s', mget n idx <> None -> fetch n s = Ok (a, s') -> a = arch n.
  Hypothesis arch_name : forall n, a_name (arch n) = n.
  (** the index and the archive agree on the dependencies that are not installed *)
  Hypothesis idx_arch : forall n ds, mget n idx = Some ds -> filter (fun d => negb (same db jb d)) (others n ds) = filter (fun d => negb (same db jb d)) (others n (a_deps (arch n))).
  Notation same := (same db jb).
  Notation loop := (loop db jb idx st fetch).
  Notation direct := (direct db jb idx st fetch).
  Notation push := (push db jb).
  Notation missing := (missing db jb arch).
  Notation wants := (wants db jb arch).
  Notation current := (current db jb arch).

  Lemma same_spec k t : same (k, t) = true <-> in_build db jb k t.
  Proof.
    unfold GenDeps.same, in_build. cbn [fst snd]. destruct (Z.eqb_spec t 0); [split; [discriminate|intros [H _]; contradiction]|].
    destruct (mget k db) as [r|]; [|split; [discriminate|intros [_ [r [H _]]]; discriminate]]. rewrite negb_true_iff, Z.ltb_ge. split; [intro H; split; eauto|].
    intros [_ [r' [H1 H2]]]. inversion H1; subst. exact H2.
  Qed.
  Lemma uptodate_spec n : uptodate db jb (arch n) = true <-> current n.
  Proof.
    clear fetch_arch arch_name idx_arch fetch st idx. unfold uptodate, GenDepsProofs.current. cbv zeta. destruct (mget (a_name (arch n)) db) as [r|]; [|split; [discriminate|intros [r [H _]]; discriminate]].
    destruct (seqb (r_version r) (a_version (arch n))) eqn:E1; cbn [negb].
    2:{ split; [discriminate|]. intros [r' [H [V _]]]. inversion H; subst. rewrite V, seqb_refl in E1. discriminate. }
    apply seqb_eq in E1. destruct (Z.of_N _ =? a_release (arch n))%Z eqn:E2; cbn [negb].
    2:{ split; [discriminate|]. intros [r' [H [_ [V _]]]]. inversion H; subst. rewrite V, Z.eqb_refl in E2. discriminate. }
    apply Z.eqb_eq in E2. destruct (build_of jb r <? a_build (arch n))%Z eqn:E3.
    { split; [discriminate|]. intros [r' [H [_ [_ [V _]]]]]. inversion H; subst. apply Z.ltb_lt in E3. lia. }
    apply Z.ltb_ge in E3. destruct (seqb (r_coll r) []) eqn:E4.
    { apply seqb_eq in E4. split; [|reflexivity]. intros _. exists r. auto 8. }
    destruct (seqb (a_coll (arch n)) []) eqn:E5.
    { apply seqb_eq in E5. split; [|reflexivity]. intros _. exists r. auto 8. }
    rewrite seqb_eq. split; [intro H; exists r; auto 8|]. intros [r' [H [_ [_ [_ C]]]]]. inversion H; subst r'.
    destruct C as [C|[C|C]]; [rewrite C, seqb_refl in E4; discriminate|rewrite C, seqb_refl in E5; discriminate|exact C].
  Qed.
  (** the packages pushed for [n] *)
  Definition succs (n : str) : list dep :=
    if uptodate db jb (arch n) then [] else filter (fun d => negb (seqb (fst d) n)) (filter (fun d => negb (same d)) (a_deps (arch n))).
  Lemma missing_succs n k : missing n k <-> exists t, In (k, t) (succs n).
  Proof.
    clear fetch_arch arch_name idx_arch fetch st idx. unfold GenDepsProofs.missing, succs. split.
    - intros [t [I [N [B C]]]]. exists t. destruct (uptodate db jb (arch n)) eqn:U; [apply uptodate_spec in U; contradiction|]. apply filter_In. split.
      + apply filter_In. split; [exact I|]. apply negb_true_iff, not_true_iff_false. intro H. apply B, same_spec, H.
      + cbn. apply negb_true_iff, seqb_neq, N.
    - intros [t I]. exists t. destruct (uptodate db jb (arch n)) eqn:U; [destruct I|]. apply filter_In in I as [I K]. cbn in K. apply negb_true_iff, seqb_neq in K. apply filter_In in I as [I S].
      split; [exact I|]. split; [exact K|]. split; [intro H; apply same_spec in H; rewrite H in S; discriminate|]. intro H. apply uptodate_spec in H. congruence.
  Qed.
  Lemma succs_not_same n d : In d (succs n) -> same d = false.
  Proof. unfold succs. destruct (uptodate db jb (arch n)); [intros []|]. intro I. apply filter_In in I as [I _]. apply filter_In in I as [_ I]. apply negb_true_iff, I. Qed.
  Lemma filter_comm {A} (f g : A -> bool) l : filter f (filter g l) = filter g (filter f l).
  Proof. induction l as [|x t IH]; [reflexivity|]. cbn. destruct (g x) eqn:G, (f x) eqn:F; cbn; rewrite ?G, ?F, IH; reflexivity. Qed.
  Lemma filter_idem {A} (f : A -> bool) l : filter f (filter f l) = filter f l.
  Proof. induction l as [|x t IH]; [reflexivity|]. cbn. destruct (f x) eqn:F; cbn; rewrite ?F, IH; reflexivity. Qed.
  (** the cache holds names that are not current *)
  Definition seen_ok (g : gst st) : Prop := forall n, In n (g_seen g) -> mget n idx <> None /\ uptodate db jb (arch n) = false.
  Lemma direct_ok n g ds g' : seen_ok g -> direct n g = Ok (ds, g') ->
    seen_ok g' /\ filter (fun d => negb (same d)) (others n ds) = succs n /\ mget n idx <> None.
  Proof.
    intros S E. unfold GenDeps.direct in E. destruct (smem n (g_seen g)) eqn:M.
    - apply smem_In in M. destruct (S n M) as [Hi U]. destruct (mget n idx) as [l|] eqn:G; [|contradiction]. inversion E; subst ds g'.
      split; [exact S|]. split; [|discriminate]. unfold succs. rewrite U, (idx_arch n l G), filter_comm. reflexivity.
    - destruct (mget n idx) as [l|] eqn:G; [|discriminate]. destruct (fetch n (g_st g)) as [[a s']| |] eqn:F; cbn [rbind] in E; try discriminate.
      assert (A : a = arch n) by (apply (fetch_arch n (g_st g) a s'); [rewrite G; discriminate|exact F]). subst a. destruct (uptodate db jb (arch n)) eqn:U; inversion E; subst ds g'.
      + split; [exact S|]. unfold others, succs. rewrite U. split; [reflexivity|discriminate].
      + split; [|split; [|discriminate]].
        * intros k [K|K]; [rewrite arch_name in K; subst k; rewrite G; split; [discriminate|exact U]|apply S, K].
        * unfold others, succs. rewrite U, filter_comm, filter_idem. reflexivity.
  Qed.

  (** ** the order of the treated packages *)
  (** in [out] the last occurrence of the name [k] comes after the last one of [n] *)
  Definition after (n k : str) (out : list dep) : Prop := exists u v, out = u ++ v /\ In k (map fst v) /\ ~ In n (map fst v).
  Definition names (l : list dep) : list str := map fst l.
  Record inv (root : str) (pend out : list dep) (g : gst st) : Prop := Inv {
    i_same : forall d, In d pend -> same d = false;
    i_wants : forall d, In d (pend ++ out) -> wants root (fst d);
    i_root : In root (names (pend ++ out));
    i_next : forall n d, In n (names out) -> In d (succs n) -> In d pend \/ after n (fst d) out;
    i_idx : forall d, In d out -> mget (fst d) idx <> None;
    i_seen : seen_ok g }.
  Lemma push_In n ds pend d : In d (push n ds pend) -> In d pend \/ In d (filter (fun d => negb (same d)) (others n ds)).
  Proof. unfold GenDeps.push. rewrite in_app_iff. intros [I|I]; [left; eapply erase_fold_incl, I|right; exact I]. Qed.
  Lemma push_keep n ds pend d : same d = false -> In d pend -> In d (push n ds pend).
  Proof.
    intros S I. unfold GenDeps.push. apply in_app_iff. destruct (in_dec dep_eq_dec d (others n ds)) as [K|K].
    - right. apply filter_In. split; [exact K|]. rewrite S. reflexivity.
    - left. apply erase_fold_keep; assumption.
  Qed.
  Lemma step_inv root x pend out g ds g' : inv root (x :: pend) out g -> direct (fst x) g = Ok (ds, g') -> inv root (push (fst x) ds pend) (out ++ [x]) g'.
  Proof.
    intros [H1 H2 H3 H4 H6 H5] E. pose proof (direct_ok (fst x) g ds g' H5 E) as [S' [Sc Xi]]. constructor.
    - intros d I. apply push_In in I as [I|I]; [apply H1; right; exact I|]. rewrite Sc in I. apply (succs_not_same (fst x)), I.
    - intros d I. apply in_app_iff in I as [I|I].
      + apply push_In in I as [I|I]; [apply H2; right; apply in_app_iff; left; exact I|]. rewrite Sc in I.
        apply wants_dep with (fst x); [apply H2; left; reflexivity|]. apply missing_succs. exists (snd d). destruct d; exact I.
      + apply in_app_iff in I as [I|[<-|[]]]; [apply H2; right; apply in_app_iff; right; exact I|apply H2; left; reflexivity].
    - unfold names in *. rewrite map_app, in_app_iff in H3. destruct H3 as [[H3|H3]|H3].
      + rewrite !map_app, !in_app_iff. right. right. left. exact H3.
      + apply in_map_iff in H3 as [d [D H3]]. rewrite map_app, in_app_iff. left. apply in_map_iff. exists d. split; [exact D|]. apply push_keep; [apply H1; right; exact H3|exact H3].
      + rewrite !map_app, !in_app_iff. right. left. exact H3.
    - intros n d In_ Id. unfold names in In_. rewrite map_app, in_app_iff in In_.
      destruct (str_eq_dec n (fst x)) as [->|N].
      + left. unfold GenDeps.push. apply in_app_iff. right. rewrite Sc. exact Id.
      + destruct In_ as [In_|[In_|[]]]; [|congruence]. destruct (H4 n d In_ Id) as [[I|I]|I].
        * right. exists out, [x]. split; [reflexivity|]. subst d. split; [left; reflexivity|]. intros [K|[]]. congruence.
        * left. apply push_keep; [apply (succs_not_same n), Id|exact I].
        * right. destruct I as [u [v [-> [A B]]]]. exists u, (v ++ [x]). rewrite <- app_assoc. split; [reflexivity|]. rewrite !map_app, !in_app_iff. split; [left; exact A|].
          intros [K|[K|[]]]; [contradiction|congruence].
    - intros d I. apply in_app_iff in I as [I|[<-|[]]]; [apply H6, I|exact Xi].
    - exact S'.
  Qed.
  Lemma loop_inv root fuel : forall pend out g out' g', inv root pend out g -> loop fuel pend out g = Some (Ok (out', g')) -> inv root [] out' g'.
  Proof.
    induction fuel as [|f IH]; intros pend out g out' g' H E; destruct pend as [|x p]; cbn [GenDeps.loop] in E; try (inversion E; subst; exact H); try discriminate.
    destruct (direct (fst x) g) as [[ds g1]| |] eqn:D; try discriminate.
    assert (S : same x = false) by (apply (i_same _ _ _ _ H); left; reflexivity). rewrite S in E. exact (IH _ _ _ _ _ (step_inv root x p out g ds g1 H D) E).
  Qed.
  Lemma start_inv root g : seen_ok g -> inv root [(root, 0%Z)] [] g.
  Proof.
    intro S. constructor; auto.
    - intros d [<-|[]]. reflexivity.
    - intros d [<-|[]]. constructor.
    - left. reflexivity.
    - intros n d [].
  Qed.
  Lemma loop_ok root fuel g out g' : seen_ok g -> loop fuel [(root, 0%Z)] [] g = Some (Ok (out, g')) ->
    seen_ok g' /\ (forall n, In n (names out) <-> wants root n) /\ (forall n k, In n (names out) -> missing n k -> after n k out) /\ (forall n, In n (names out) -> mget n idx <> None).
  Proof.
    intros S E. pose proof (loop_inv root fuel _ _ _ _ _ (start_inv root g S) E) as [H1 H2 H3 H4 H6 H5]. split; [exact H5|].
    assert (Nx : forall n k, In n (names out) -> missing n k -> after n k out).
    { intros n k In_ M. apply missing_succs in M as [t M]. destruct (H4 n (k, t) In_ M) as [[]|A]. exact A. }
    split; [|split; [exact Nx|intros n I; apply in_map_iff in I as [d [<- I]]; apply H6, I]]. intro n. split.
    - intro I. apply in_map_iff in I as [d [<- I]]. apply H2. exact I.
    - intro W. induction W as [|n k W IH M]; [exact H3|]. destruct (Nx n k IH M) as [u [v [-> [A _]]]]. unfold names. rewrite map_app, in_app_iff. right. exact A.
  Qed.

  (** ** the install list *)
  (** every package comes after the packages it misses; no name twice *)
  Definition ordered (l : list dep) : Prop := forall u x v, l = u ++ x :: v -> forall k, missing (fst x) k -> In k (names u).
  Lemma add_new_names l x n : In n (names (add_new l x)) <-> In n (names l) \/ n = fst x.
  Proof.
    unfold add_new, names. destruct (existsb (fun i => seqb (fst i) (fst x)) l) eqn:E.
    - split; [auto|]. intros [H| ->]; [exact H|]. apply existsb_exists in E as [i [I E]]. apply seqb_eq in E. rewrite <- E. apply in_map, I.
    - rewrite map_app, in_app_iff. cbn. intuition.
  Qed.
  Lemma add_new_nodup l x : NoDup (names l) -> NoDup (names (add_new l x)).
  Proof.
    unfold add_new, names. destruct (existsb (fun i => seqb (fst i) (fst x)) l) eqn:E; [auto|]. intro H. rewrite map_app. apply NoDup_remove_1 with (a := fst x) (l' := []) || idtac.
    cbn [map]. apply (NoDup_Add (a := fst x) (l := map fst l)); [replace (map fst l) with (map fst l ++ []) at 1 by apply app_nil_r; apply Add_app|]. split; [exact H|].
    intro I. apply in_map_iff in I as [i [Ei I]]. apply not_true_iff_false in E. apply E. apply existsb_exists. exists i. split; [exact I|apply seqb_eq, Ei].
  Qed.
  Lemma fold_new_names rest : forall l n, In n (names (fold_left add_new rest l)) <-> In n (names l) \/ In n (names rest).
  Proof.
    induction rest as [|x t IH]; intros l n; [cbn; tauto|]. cbn [fold_left]. rewrite IH, add_new_names. cbn. split; intros [H|H]; auto; destruct H as [H|H]; auto.
  Qed.
  Lemma fold_new_nodup rest : forall l, NoDup (names l) -> NoDup (names (fold_left add_new rest l)).
  Proof. induction rest as [|x t IH]; intros l H; [exact H|]. cbn. apply IH, add_new_nodup, H. Qed.
  Lemma fold_new_ordered out : (forall n k, In n (names out) -> missing n k -> after n k out) ->
    forall rest l done, rev out = done ++ rest -> incl (names done) (names l) -> ordered l -> ordered (fold_left add_new rest l).
  Proof.
    intro A. induction rest as [|x t IH]; intros l done E I O; [exact O|]. cbn [fold_left]. apply (IH _ (done ++ [x])).
    - rewrite <- app_assoc. exact E.
    - intros n K. unfold names in K. rewrite map_app, in_app_iff in K. apply add_new_names. destruct K as [K|[K|[]]]; [left; apply I, K|right; congruence].
    - unfold add_new. destruct (existsb (fun i => seqb (fst i) (fst x)) l) eqn:Ex; [exact O|].
      assert (Nx : ~ In (fst x) (names l)).
      { intro K. apply in_map_iff in K as [i [Ei K]]. apply not_true_iff_false in Ex. apply Ex, existsb_exists. exists i. split; [exact K|apply seqb_eq, Ei]. }
      intros u y v Ey k M. destruct v as [|z v] using rev_ind.
      + apply app_inj_tail in Ey as [-> <-].
        assert (Io : In (fst x) (names out)). { apply in_map. assert (K : In x (rev out)) by (rewrite E; apply in_app_iff; right; left; reflexivity). apply (proj2 (in_rev out x)), K. }
        destruct (A (fst x) k Io M) as [p [q [Eo [B C]]]]. subst out. rewrite rev_app_distr in E.
        assert (Q : exists w, done = rev q ++ w).
        { clear -E C. assert (C' : ~ In (fst x) (map fst (rev q))) by (rewrite map_rev; intro K; apply C, in_rev, K). clear C. revert done E. induction (rev q) as [|y r IHr]; intros done E; [exists done; reflexivity|].
          destruct done as [|d done]; cbn [app] in E; inversion E; subst.
          - exfalso. apply C'. left. reflexivity.
          - destruct (IHr (fun K => C' (or_intror K)) done H1) as [w ->]. exists w. reflexivity. }
        destruct Q as [w ->]. apply I. unfold names. rewrite map_app, in_app_iff. left. rewrite map_rev. apply -> in_rev. exact B.
      + rewrite app_comm_cons, app_assoc in Ey. apply app_inj_tail in Ey as [-> <-]. exact (O u y v eq_refl k M).
  Qed.

  Notation generate := (generate db jb idx st fetch).
  Notation generate_all := (generate_all db jb idx st fetch).
  Lemma generate_ok fuel root l g l' g' : seen_ok g -> NoDup (names l) -> ordered l -> generate fuel root l g = Some (Ok (l', g')) ->
    seen_ok g' /\ NoDup (names l') /\ ordered l' /\ (forall n, In n (names l') <-> In n (names l) \/ wants root n) /\ (forall n, wants root n -> mget n idx <> None).
  Proof.
    intros S N O E. unfold GenDeps.generate in E. destruct (loop fuel [(root, 0%Z)] [] g) as [[[out g1]| |]|] eqn:Lo; try discriminate. inversion E; subst l' g'.
    destruct (loop_ok root fuel g out g1 S Lo) as [S' [W [A Ix]]]. split; [exact S'|]. split; [apply fold_new_nodup, N|]. split; [|split; [|intros n Wn; apply Ix, W, Wn]].
    - apply (fold_new_ordered out A (rev out) l []); [reflexivity|intros ? []|exact O].
    - intro n. rewrite fold_new_names. unfold names at 2. rewrite map_rev, <- in_rev. fold (names out). rewrite W. reflexivity.
  Qed.
  Lemma generate_all_ok fuel : forall roots l g l' g', seen_ok g -> NoDup (names l) -> ordered l -> generate_all fuel roots l g = Some (Ok (l', g')) ->
    seen_ok g' /\ NoDup (names l') /\ ordered l' /\ (forall n, In n (names l') <-> In n (names l) \/ exists r, In r roots /\ wants r n).
  Proof.
    induction roots as [|r t IH]; intros l g l' g' S N O E; cbn [GenDeps.generate_all] in E.
    - inversion E; subst. split; [exact S|split; [exact N|split; [exact O|]]]. intro n. split; [auto|intros [H|[r [[] _]]]; exact H].
    - destruct (generate fuel r l g) as [[[l1 g1]| |]|] eqn:Eg; try discriminate. destruct (generate_ok fuel r l g l1 g1 S N O Eg) as [S1 [N1 [O1 [W1 _]]]].
      destruct (IH l1 g1 l' g' S1 N1 O1 E) as [S2 [N2 [O2 W2]]]. split; [exact S2|split; [exact N2|split; [exact O2|]]]. intro n. rewrite W2, W1. split.
      + intros [[H|H]|[q [I H]]]; [auto|right; exists r; cbn; auto|right; exists q; cbn; auto].
      + intros [H|[q [[->|I] H]]]; [auto|auto|right; exists q; auto].
  Qed.

  (** ** termination *)
  Fixpoint weight (f : nat) (n : str) : nat :=
    match f with 0 => 0 | S f' => S (list_sum (map (fun d => weight f' (fst d)) (succs n))) end.
  Definition total (f : nat) (l : list dep) : nat := list_sum (map (fun d => weight f (fst d)) l).
  Lemma total_app f a b : total f (a ++ b) = total f a + total f b.
  Proof. unfold total. rewrite map_app, list_sum_app. reflexivity. Qed.
  Lemma total_erase f x l : total f (erase1 x l) <= total f l.
  Proof.
    induction l as [|y t IH]; [cbn; lia|]. cbn [erase1]. destruct (dep_eqb x y).
    - change (total f (y :: t)) with (weight f (fst y) + total f t). lia.
    - change (total f (y :: t)) with (weight f (fst y) + total f t). change (total f (y :: erase1 x t)) with (weight f (fst y) + total f (erase1 x t)). lia.
  Qed.
  Lemma total_erases f ds : forall p, total f (fold_left (fun p d => erase1 d p) ds p) <= total f p.
  Proof. induction ds as [|d t IH]; intro p; cbn [fold_left]; [lia|]. specialize (IH (erase1 d p)). pose proof (total_erase f d p). lia. Qed.
  Variable rank : str -> nat.
  Variable P : str -> Prop.
  Hypothesis Pclosed : forall n k, P n -> missing n k -> P k.
  Hypothesis acyclic : forall n k, P n -> missing n k -> rank k < rank n.
  Lemma weight_stable : forall f n, P n -> rank n < f -> weight f n = S (list_sum (map (fun d => weight f (fst d)) (succs n))).
  Proof.
    assert (G : forall f f' n, P n -> rank n < f -> rank n < f' -> weight f n = weight f' n).
    { induction f as [|f IH]; intros f' n Pn H H'; [lia|]. destruct f' as [|f']; [lia|]. cbn [weight]. f_equal. f_equal. apply map_ext_in. intros d I.
      assert (M : missing n (fst d)) by (apply missing_succs; exists (snd d); destruct d; exact I). pose proof (Pclosed _ _ Pn M) as Pk. apply acyclic in M; [|exact Pn]. apply IH; [exact Pk|lia|lia]. }
    intros f n Pn H. destruct f as [|f]; [lia|]. cbn [weight]. f_equal. f_equal. apply map_ext_in. intros d I.
    assert (M : missing n (fst d)) by (apply missing_succs; exists (snd d); destruct d; exact I). pose proof (Pclosed _ _ Pn M) as Pk. apply acyclic in M; [|exact Pn]. apply (G f (S f)); [exact Pk|lia|lia].
  Qed.
  Lemma loop_stops R fuel : forall pend out g, seen_ok g -> (forall d, In d pend -> P (fst d)) -> (forall d, In d pend -> rank (fst d) < R) -> (forall d, In d pend -> same d = false) -> total R pend <= fuel ->
    loop fuel pend out g <> None.
  Proof.
    induction fuel as [|f IH]; intros pend out g S Pp Rk Sm T; destruct pend as [|x p]; cbn [GenDeps.loop]; try discriminate.
    - unfold total in T. cbn [map list_sum fold_right] in T. rewrite (weight_stable R (fst x)) in T; [|apply Pp; left; reflexivity|apply Rk; left; reflexivity]. cbn in T. lia.
    - destruct (direct (fst x) g) as [[ds g1]| |] eqn:D; try discriminate. destruct (direct_ok (fst x) g ds g1 S D) as [S' [Sc _]].
      apply IH; [exact S'| | | |].
      + intros d I. apply push_In in I as [I|I]; [apply Pp; right; exact I|]. rewrite Sc in I.
        assert (M : missing (fst x) (fst d)) by (apply missing_succs; exists (snd d); destruct d; exact I). apply (Pclosed (fst x)); [apply Pp; left; reflexivity|exact M].
      + intros d I. apply push_In in I as [I|I]; [apply Rk; right; exact I|]. rewrite Sc in I.
        assert (M : missing (fst x) (fst d)) by (apply missing_succs; exists (snd d); destruct d; exact I). apply acyclic in M; [|apply Pp; left; reflexivity].
        specialize (Rk x (or_introl eq_refl)). lia.
      + intros d I. apply push_In in I as [I|I]; [apply Sm; right; exact I|]. rewrite Sc in I. apply (succs_not_same (fst x)), I.
      + unfold GenDeps.push. rewrite total_app, Sc. pose proof (total_erases R (others (fst x) ds) p) as Te.
        change (total R (x :: p)) with (weight R (fst x) + total R p) in T. rewrite (weight_stable R (fst x)) in T; [|apply Pp; left; reflexivity|apply Rk; left; reflexivity].
        fold (total R (succs (fst x))) in T. lia.
  Qed.
  Lemma generate_stops root l g : P root -> seen_ok g -> exists fuel, generate fuel root l g <> None.
  Proof.
    intros Pr Sn. exists (total (S (rank root)) [(root, 0%Z)]). unfold GenDeps.generate.
    assert (H : loop (total (S (rank root)) [(root, 0%Z)]) [(root, 0%Z)] [] g <> None).
    { apply (loop_stops (S (rank root))); [exact Sn| | | |lia]; (intros d [<-|[]]); cbn; [exact Pr|lia|reflexivity]. }
    destruct (loop _ _ _ g) as [[[out g1]| |]|]; [discriminate|discriminate|discriminate|contradiction].
  Qed.
End GenProofs.
