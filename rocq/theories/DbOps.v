(** Facts about the single operations of the engine: set difference, deletion of files, conflicts, stripping references. *)
From Verif Require Import Base BaseProofs StrModel StrSpec StrProofs RulesModel FsModel FsSpec FsProofs FsOps FsExtract
  MetaModel MetaSpec MetaProofs DbModel DbLoad.

Lemma sminus_In s t : forall x, In x (sminus s t) <-> In x s /\ ~ In x t.
Proof.
  unfold sminus. revert s. induction t as [|y t IH]; intros s x; cbn [fold_left]; [cbn; tauto|].
  rewrite IH, sdel_In. cbn. split.
  - intros [[A B] C]. split; auto. intros [H|H]; auto.
  - intros [A B]. split; [split; auto|auto]. 
Qed.
Lemma sdel_sorted x s : ssorted s -> ssorted (sdel x s).
Proof. apply filter_sorted. Qed.
Lemma sminus_sorted t : forall s, ssorted s -> ssorted (sminus s t).
Proof. unfold sminus. induction t as [|y t IH]; intros s H; cbn; auto. apply IH, sdel_sorted, H. Qed.
Lemma sdel_length x s : length (sdel x s) <= length s.
Proof. unfold sdel. induction s as [|y t IH]; cbn; auto. destruct (negb (seqb x y)); cbn; lia. Qed.
Lemma sdel_same x s : length (sdel x s) = length s -> sdel x s = s.
Proof.
  induction s as [|y t IH]; cbn; auto. fold (sdel x t). pose proof (sdel_length x t). destruct (negb (seqb x y)); cbn; [|lia].
  intro H1. f_equal. apply IH. lia.
Qed.
Lemma sminus_same t : forall s, length (sminus s t) = length s -> sminus s t = s.
Proof.
  unfold sminus. induction t as [|y t IH]; intros s H; cbn in *; auto.
  assert (LE : forall u, length (fold_left (fun a x => sdel x a) t u) <= length u).
  { clear. induction t as [|z t IHt]; intro u; cbn; auto. eapply Nat.le_trans; [apply IHt|apply sdel_length]. }
  pose proof (LE (sdel y s)). pose proof (sdel_length y s).
  assert (E : sdel y s = s) by (apply sdel_same; lia). rewrite E in *. apply IH. exact H.
Qed.

(** ** Deleting files *)
Section Del.
  Variable root : str.
  Hypothesis Rs : ends_slash root = true.
  Definition R := comps root.
  Lemma comps_root x : comps (root ++ x) = R ++ comps x.
  Proof. apply comps_app. auto. Qed.

  Lemma del_one_frame f x q : q <> R ++ comps x -> fget (del_one root f x) q = fget f q.
  Proof. intro N. unfold del_one. destruct (exists_file f (root ++ x)); auto. apply rm_frame. rewrite comps_root. auto. Qed.
  Lemma del_one_cases f x : (forall q, fget (del_one root f x) q = fget f q) \/
    (forall q, fget (del_one root f x) q = if peqb q (R ++ comps x) then None else fget f q).
  Proof.
    unfold del_one. destruct (exists_file f (root ++ x)); auto. destruct (rm f (root ++ x)) as [b g] eqn:E. cbn.
    apply rm_spec in E as [[_ ->]|[_ [-> _]]]; auto. right. intro q. rewrite fget_fdel, comps_root. reflexivity.
  Qed.
  Lemma del_one_tree f x : tree f -> tree (del_one root f x).
  Proof. intro T. unfold del_one. destruct (exists_file f (root ++ x)); auto. apply rm_tree, T. Qed.
  Lemma del_one_sub f x q : fget (del_one root f x) q = fget f q \/ fget (del_one root f x) q = None.
  Proof. destruct (del_one_cases f x) as [H|H]; rewrite H; auto. destruct (peqb q _); auto. Qed.

  Lemma del_fold_frame xs : forall f q, (forall x, In x xs -> q <> R ++ comps x) -> fget (fold_left (del_one root) xs f) q = fget f q.
  Proof.
    induction xs as [|x xs IH]; intros f q H; cbn; auto. rewrite IH by (intros; apply H; cbn; auto).
    apply del_one_frame, H. cbn. auto.
  Qed.
  Lemma del_fold_tree xs : forall f, tree f -> tree (fold_left (del_one root) xs f).
  Proof. induction xs as [|x xs IH]; intros f T; cbn; auto. apply IH, del_one_tree, T. Qed.
  Lemma del_fold_sub xs : forall f q, fget (fold_left (del_one root) xs f) q = fget f q \/ fget (fold_left (del_one root) xs f) q = None.
  Proof.
    induction xs as [|x xs IH]; intros f q; cbn; auto. destruct (IH (del_one root f x) q) as [H|H]; auto.
    rewrite H. apply del_one_sub.
  Qed.
  Lemma del_files_frame xs f q : (forall x, In x xs -> q <> R ++ comps x) -> fget (del_files root xs f) q = fget f q.
  Proof. intro H. apply del_fold_frame. intros x I. apply H, in_rev, I. Qed.
  Lemma del_files_tree xs f : tree f -> tree (del_files root xs f).
  Proof. apply del_fold_tree. Qed.
  Lemma del_files_sub xs f q : fget (del_files root xs f) q = fget f q \/ fget (del_files root xs f) q = None.
  Proof. apply del_fold_sub. Qed.

  (** how the file system spells a listed name: a directory if the name ends with a slash (or nothing there) *)
  Definition fits (f : fs) (x : str) : Prop := ends_slash x = true -> fget f (R ++ comps x) = None \/ dir_at f (R ++ comps x).
  Lemma ends_slash_app a b : b <> [] -> ends_slash (a ++ b) = ends_slash b.
  Proof.
    intro N. unfold ends_slash. rewrite rev_app_distr. destruct (rev b) as [|c t] eqn:E; [|reflexivity].
    apply (f_equal (@rev ascii)) in E. rewrite rev_involutive in E. cbn in E. congruence.
  Qed.
  Lemma plain_nonempty x cs : plain x cs -> x <> [].
  Proof.
    intros P ->. pose proof (plain_comps _ _ P) as E. cbn in E. destruct (plain_comp _ _ P) as [_ N]. auto.
  Qed.
  Lemma last_dot_plain x cs : plain x cs -> last_is_dot (root ++ x) = false.
  Proof.
    intro P. assert (S : split_char x slash = cs).
    { destruct P as [c N F|c N F]; [|rewrite split_snoc_slash]; apply split_join; eapply Forall_impl; try exact F; intros a [A [B _]]; auto. }
    destruct (plain_comp _ _ P) as [F N]. unfold last_is_dot. rewrite split_app by auto. rewrite S, rev_app_distr.
    destruct (exists_last N) as [ds [c E]]. rewrite E in *. rewrite rev_app_distr. cbn. apply seqb_neq.
    apply Forall_app in F as [_ F]. inversion F as [|? ? C _]; subst. destruct C as [_ [_ C]]. exact C.
  Qed.
  Lemma lstat_fits f x cs n : plain x cs -> fits f x -> fget f (R ++ cs) = Some n -> lstat f (root ++ x) = Some n.
  Proof.
    intros P F G. unfold lstat. rewrite comps_root, (plain_comps _ _ P), G.
    rewrite ends_slash_app by (eapply plain_nonempty; eauto). destruct (ends_slash x) eqn:E; auto.
    destruct (F E) as [H|[m [H K]]]; rewrite (plain_comps _ _ P), G in H; [discriminate|]. inversion H; subst m.
    apply is_dir_kind in K. rewrite K. reflexivity.
  Qed.
  (** one deletion of a listed name: the path is gone, or it is a directory with something below *)
  Lemma del_one_gone f x cs : plain x cs -> fits f x ->
    fget (del_one root f x) (R ++ cs) = None \/ (dir_at f (R ++ cs) /\ has_child f (R ++ cs) = true /\ del_one root f x = f).
  Proof.
    intros P F. destruct (fget f (R ++ cs)) as [n|] eqn:G.
    2:{ left. destruct (del_one_sub f x (R ++ cs)) as [H|H]; congruence. }
    pose proof (lstat_fits f x cs n P F G) as LS. unfold del_one, exists_file. rewrite LS.
    destruct (plain_comp _ _ P) as [_ N].
    assert (Ne : R ++ cs <> []) by (destruct R; [cbn; auto|discriminate]).
    destruct (is_dir n) eqn:D.
    - destruct (has_child f (R ++ cs)) eqn:H.
      + right. split; [exists n; split; auto; apply is_dir_kind; auto|]. split; auto.
        unfold rm. rewrite LS, D, comps_root, (plain_comps _ _ P), H. rewrite !orb_true_r. reflexivity.
      + left. rewrite (rm_ok f (root ++ x) n LS).
        * cbn. rewrite comps_root, (plain_comps _ _ P). apply fget_fdel_same.
        * intros _. rewrite comps_root, (plain_comps _ _ P). split; auto. split; auto. eapply last_dot_plain; eauto.
    - left. rewrite (rm_ok f (root ++ x) n LS).
      + cbn. rewrite comps_root, (plain_comps _ _ P). apply fget_fdel_same.
      + intro K. apply is_dir_kind in K. congruence.
  Qed.
  Lemma fits_sub f g x : (forall q, fget g q = fget f q \/ fget g q = None) -> fits f x -> fits g x.
  Proof.
    intros S F E. destruct (S (R ++ comps x)) as [H|H]; auto. destruct (F E) as [G|[n [G K]]]; [left; congruence|].
    right. exists n. split; congruence.
  Qed.

  (** After the loop every listed path is gone, or is a directory something is left in. *)
  Lemma del_fold_gone xs : forall f, tree f -> (forall x, In x xs -> exists cs, plain x cs) -> (forall x, In x xs -> fits f x) ->
    NoDup xs -> StronglySorted (fun a b => slt b a) xs ->
    forall x, In x xs -> let g := fold_left (del_one root) xs f in
    fget g (R ++ comps x) = None \/ (dir_at g (R ++ comps x) /\ exists q, below (R ++ comps x) q /\ fget g q <> None).
  Proof.
    induction xs as [|y xs IH]; intros f T P F ND SS x I; [destruct I|]. cbn [fold_left].
    inversion ND as [|? ? N1 N2]; subst. inversion SS as [|? ? S1 S2]; subst.
    destruct I as [<-|I].
    - cbv zeta. destruct (P y (or_introl eq_refl)) as [cs Py].
      destruct (del_one_gone f y cs Py (F y (or_introl eq_refl))) as [H|[D [C E]]].
      + left. rewrite (plain_comps _ _ Py). destruct (del_fold_sub xs (del_one root f y) (R ++ cs)) as [K|K]; congruence.
      + (* nothing later is below y: names below sort after y *)
        rewrite E. apply has_child_spec in C as [q [B Nq]].
        assert (Fr : forall q', (q' = R ++ cs \/ below (R ++ cs) q') -> fget (fold_left (del_one root) xs f) q' = fget f q' \/ exists z zs, In z xs /\ plain z zs /\ zs = cs /\ q' = R ++ cs).
        { intros q' H. destruct (existsb (fun z => peqb q' (R ++ comps z)) xs) eqn:X.
          - apply existsb_exists in X as [z [Iz Ez]]. apply peqb_eq in Ez. destruct (P z (or_intror Iz)) as [zs Pz].
            rewrite (plain_comps _ _ Pz) in Ez. destruct H as [H|H].
            + right. exists z, zs. split; auto. split; auto. split; auto. rewrite H in Ez. apply app_inv_head in Ez. auto.
            + exfalso. rewrite Ez in H. apply below_app_inv in H. pose proof (plain_below_slt _ _ _ _ Py Pz H) as Lt.
              rewrite Forall_forall in S2. specialize (S2 z Iz). apply (slt_irrefl y). eapply slt_trans; eauto.
          - left. apply del_fold_frame. intros z Iz Ez. assert (Y : existsb (fun z => peqb q' (R ++ comps z)) xs = true); [|congruence].
            apply existsb_exists. exists z. split; auto. apply peqb_eq, Ez. }
        assert (Q : fget (fold_left (del_one root) xs f) q = fget f q).
        { destruct (Fr q (or_intror B)) as [Z|[z [zs [_ [_ [_ Z]]]]]]; auto. exfalso. rewrite Z in B. apply (below_irrefl _ B). }
        right. rewrite (plain_comps _ _ Py).
        assert (T' : tree (fold_left (del_one root) xs f)) by (apply del_fold_tree; auto).
        split; [eapply tree_below; eauto; congruence|]. exists q. split; auto. congruence.
    - apply IH; auto.
      + apply del_one_tree; auto.
      + intros z Iz. apply P. cbn. auto.
      + intros z Iz. eapply fits_sub; [apply del_one_sub|]. apply F. cbn. auto.
  Qed.
  Lemma rev_desc xs : ssorted xs -> StronglySorted (fun a b => slt b a) (rev xs).
  Proof.
    induction xs as [|x xs IH]; intro S; cbn; [constructor|]. inversion S as [|? ? S1 S2]; subst. specialize (IH S1).
    clear S. revert IH. assert (F : Forall (fun a => slt x a) (rev xs)).
    { apply Forall_forall. intros a I. apply in_rev in I. rewrite Forall_forall in S2. auto. }
    clear - F. induction (rev xs) as [|y ys IHy]; intro H; cbn; [constructor; constructor|].
    inversion F as [|? ? F1 F2]; subst. inversion H as [|? ? H1 H2]; subst. constructor; auto. apply Forall_app. split; auto.
  Qed.
  Lemma del_files_gone xs f x : tree f -> ssorted xs -> (forall x, In x xs -> exists cs, plain x cs) -> (forall x, In x xs -> fits f x) ->
    In x xs -> let g := del_files root xs f in
    fget g (R ++ comps x) = None \/ (dir_at g (R ++ comps x) /\ exists q, below (R ++ comps x) q /\ fget g q <> None).
  Proof.
    intros T S P F I. apply del_fold_gone; auto.
    - intros z Iz. apply P, in_rev, Iz.
    - intros z Iz. apply F, in_rev, Iz.
    - apply NoDup_rev, ssorted_NoDup, S.
    - apply rev_desc, S.
    - apply -> in_rev. exact I.
  Qed.
  (** a listed directory whose whole content is listed is deleted *)
  Lemma del_files_deep xs f x : tree f -> ssorted xs -> (forall x, In x xs -> exists cs, plain x cs) -> (forall x, In x xs -> fits f x) ->
    In x xs -> (forall q, below (R ++ comps x) q -> fget f q <> None -> exists y, In y xs /\ q = R ++ comps y) ->
    fget (del_files root xs f) (R ++ comps x) = None.
  Proof.
    intros T S P F I H.
    assert (K : forall k y, In y xs -> (y = x \/ below (R ++ comps x) (R ++ comps y)) ->
      (forall q, fget (del_files root xs f) q <> None -> length q <= k + length (R ++ comps y)) ->
      fget (del_files root xs f) (R ++ comps y) = None).
    { induction k as [|k IH]; intros y Iy B Lk.
      - destruct (del_files_gone xs f y T S P F Iy) as [G|[_ [q [Bq Nq]]]]; auto.
        exfalso. pose proof (Lk q Nq). pose proof (below_length _ _ Bq). lia.
      - destruct (del_files_gone xs f y T S P F Iy) as [G|[_ [q [Bq Nq]]]]; auto.
        exfalso. assert (Bx : below (R ++ comps x) q) by (destruct B as [->|B]; auto; eapply below_trans; eauto).
        assert (Nf : fget f q <> None) by (destruct (del_files_sub xs f q); congruence).
        destruct (H q Bx Nf) as [z [Iz ->]]. apply Nq. apply IH; auto.
        intros q' Nq'. pose proof (Lk q' Nq'). pose proof (below_length _ _ Bq). lia. }
    destruct (in_dec str_eq_dec x xs) as [_|]; [|contradiction].
    set (g := del_files root xs f) in *.
    assert (B : exists k, forall q, fget g q <> None -> length q <= k + length (R ++ comps x)).
    { clear. exists (list_max (map (fun e => length (fst e)) g)). intros q N. apply fget_In in N as [n N].
      assert (M : length q <= list_max (map (fun e => length (fst e)) g)); [|lia].
      assert (Z := list_max_le (map (fun e => length (fst e)) g) (list_max (map (fun e => length (fst e)) g))).
      destruct Z as [Z _]. specialize (Z (le_n _)). rewrite Forall_forall in Z. apply Z. apply in_map_iff. exists (q, n). auto. }
    destruct B as [k B]. apply (K k x); auto.
  Qed.
End Del.

(** ** Conflicts *)
Lemma fold_sins_In l : forall a x, In x (fold_left (fun a x => sins x a) l a) <-> In x a \/ In x l.
Proof. induction l as [|y l IH]; intros a x; cbn; [tauto|]. rewrite IH, sins_In. intuition. Qed.
Lemma fold_sins_sorted l : forall a, ssorted a -> ssorted (fold_left (fun a x => sins x a) l a).
Proof. induction l as [|y l IH]; intros a H; cbn; auto. apply IH, sins_sorted, H. Qed.
Lemma conflicts_db_In name files pkgs x : In x (conflicts_db name files pkgs) <->
  In x files /\ exists n r, In (n, r) pkgs /\ n <> name /\ In x (r_files r).
Proof.
  unfold conflicts_db.
  assert (G : forall acc, In x (fold_left (fun acc p => if seqb (fst p) name then acc
      else fold_left (fun a x => sins x a) (filter (fun x => smem x (r_files (snd p))) files) acc) pkgs acc) <->
      In x acc \/ In x files /\ exists n r, In (n, r) pkgs /\ n <> name /\ In x (r_files r)).
  { induction pkgs as [|[n r] t IH]; intro acc; cbn [fold_left fst snd].
    - split; [auto|]. intros [H|[_ [? [? [[] _]]]]]; auto.
    - rewrite IH. destruct (seqb n name) eqn:E.
      + apply seqb_eq in E. subst. split; intros [H|[H1 [n' [r' [H2 [H3 H4]]]]]]; auto; right; split; auto; exists n', r'; cbn.
        * auto.
        * destruct H2 as [H2|H2]; [inversion H2; congruence|auto].
      + apply seqb_neq in E. rewrite fold_sins_In, filter_In, smem_In. split.
        * intros [[H|[H1 H2]]|[H1 [n' [r' [H2 H3]]]]]; auto; right; split; auto; [exists n, r | exists n', r']; cbn; auto.
        * intros [H|[H1 [n' [r' [[H2|H2] [H3 H4]]]]]]; auto; [inversion H2; subst; auto | right; split; eauto]. }
  rewrite G. cbn. tauto.
Qed.
Lemma conflicts_db_sorted name files pkgs : ssorted (conflicts_db name files pkgs).
Proof.
  unfold conflicts_db.
  assert (G : forall acc, ssorted acc -> ssorted (fold_left (fun acc p => if seqb (fst p) name then acc
      else fold_left (fun a x => sins x a) (filter (fun x => smem x (r_files (snd p))) files) acc) pkgs acc)).
  { induction pkgs as [|[n r] t IH]; intros acc S; cbn [fold_left fst snd]; auto. apply IH.
    destruct (seqb n name); auto. apply fold_sins_sorted, S. }
  apply G. constructor.
Qed.
Lemma conflicts_fs_In (t : str -> bool) files x : forall acc,
  In x (fold_left (fun acc x => if t x && negb (smem x acc) then sins x acc else acc) files acc) <-> In x acc \/ (In x files /\ t x = true).
Proof.
  induction files as [|y l IH]; intro acc; cbn [fold_left]; [cbn; tauto|]. rewrite IH. cbn.
  destruct (t y) eqn:E; cbn [andb].
  - destruct (smem y acc) eqn:M; cbn [negb].
    + apply smem_In in M. split; [tauto|]. intros [H|[[H|H] H2]]; subst; auto.
    + rewrite sins_In. split; [intros [[->|H]|[H1 H2]]; auto | intros [H|[[H|H] H2]]; auto].
  - split; [tauto|]. intros [H|[[H|H] H2]]; auto. congruence.
Qed.
Lemma conflicts_fs_sorted (t : str -> bool) files : forall acc, ssorted acc ->
  ssorted (fold_left (fun acc x => if t x && negb (smem x acc) then sins x acc else acc) files acc).
Proof.
  induction files as [|y l IH]; intros acc S; cbn [fold_left]; auto. apply IH.
  destruct (t y && negb (smem y acc)); auto. apply sins_sorted, S.
Qed.
Lemma conflicts_In root name files f pkgs x : In x (conflicts root name files f pkgs) <->
  In x files /\ ends_slash x = false /\
  ((exists n r, In (n, r) pkgs /\ n <> name /\ In x (r_files r)) \/ exists_file f (root ++ x) = true) /\
  (forall r, mget name pkgs = Some r -> ~ In x (r_files r)).
Proof.
  unfold conflicts.
  assert (G : In x (filter (fun x => negb (ends_slash x)) (fold_left (fun acc x => if exists_file f (root ++ x) && negb (smem x acc) then sins x acc else acc) files (conflicts_db name files pkgs))) <->
     In x files /\ ends_slash x = false /\ ((exists n r, In (n, r) pkgs /\ n <> name /\ In x (r_files r)) \/ exists_file f (root ++ x) = true)).
  { rewrite filter_In, (conflicts_fs_In (fun x => exists_file f (root ++ x))), conflicts_db_In, negb_true_iff. tauto. }
  destruct (mget name pkgs) as [r|].
  - rewrite sminus_In, G. split; [intros [[A [B C]] D] | intros [A [B [C D]]]].
    + split; auto. split; auto. split; auto. intros r' H. inversion H; subst. auto.
    + split; auto.
  - rewrite G. split; [intros [A [B C]]|intros [A [B [C D]]]]; auto. split; auto. split; auto. split; auto. discriminate.
Qed.
Lemma conflicts_sorted root name files f pkgs : ssorted (conflicts root name files f pkgs).
Proof.
  unfold conflicts. assert (S : ssorted (filter (fun x => negb (ends_slash x)) (fold_left (fun acc x => if exists_file f (root ++ x) && negb (smem x acc) then sins x acc else acc) files (conflicts_db name files pkgs)))).
  { apply filter_sorted. apply (conflicts_fs_sorted (fun x => exists_file f (root ++ x))). apply conflicts_db_sorted. }
  destruct (mget name pkgs); auto. apply sminus_sorted, S.
Qed.

(** ** The list of files removed with a package *)
Lemma minus_refs_In (pk : list (str * rec)) : forall l x, In x (fold_left (fun a p => sminus a (r_files (snd p))) pk l) <->
  In x l /\ forall n r, In (n, r) pk -> ~ In x (r_files r).
Proof.
  induction pk as [|[n r] t IH]; intros l x; cbn [fold_left snd]; [cbn; firstorder|]. rewrite IH, sminus_In. split.
  - intros [[A B] C]. split; auto. intros n' r' [H|H]; [inversion H; subst; auto | eapply C; eauto].
  - intros [A B]. split; [split; auto; apply (B n r); cbn; auto|]. intros n' r' H. apply (B n' r'). cbn. auto.
Qed.
Lemma minus_refs_sorted (pk : list (str * rec)) : forall l, ssorted l -> ssorted (fold_left (fun a p => sminus a (r_files (snd p))) pk l).
Proof. induction pk as [|[n r] t IH]; intros l S; cbn [fold_left snd]; auto. apply IH, sminus_sorted, S. Qed.
Lemma In_mdel {A} k n (v : A) (m : list (str * A)) : In (n, v) (mdel k m) <-> In (n, v) m /\ n <> k.
Proof.
  unfold mdel. rewrite filter_In. cbn. rewrite negb_true_iff, seqb_neq. split; intros [H1 H2]; split; auto.
Qed.

(** ** Stripping references *)
Definition strip_rec (files : list str) (r : rec) : rec := with_files (sminus (r_files r) files) r.
Lemma with_files_id r : with_files (r_files r) r = r. Proof. destruct r; reflexivity. Qed.
Lemma strip_one_fs files wm p : w_fs (fst (strip_one files wm p)) = w_fs (fst wm).
Proof. unfold strip_one. destruct (_ =? _); auto. destruct wm. reflexivity. Qed.
Lemma strip_fold_fs files l : forall wm, w_fs (fst (fold_left (strip_one files) l wm)) = w_fs (fst wm).
Proof. induction l as [|p l IH]; intro wm; cbn; auto. rewrite IH. apply strip_one_fs. Qed.
Lemma strip_one_alias files wm p : m_alias (snd (strip_one files wm p)) = m_alias (snd wm) /\ m_dep (snd (strip_one files wm p)) = m_dep (snd wm).
Proof. unfold strip_one. destruct (_ =? _); auto. destruct wm. auto. Qed.
Lemma strip_fold_alias files l : forall wm, m_alias (snd (fold_left (strip_one files) l wm)) = m_alias (snd wm) /\ m_dep (snd (fold_left (strip_one files) l wm)) = m_dep (snd wm).
Proof.
  induction l as [|p l IH]; intro wm; cbn; auto. destruct (IH (strip_one files wm p)) as [A B].
  destruct (strip_one_alias files wm p) as [C D]. rewrite A, B. auto.
Qed.
Lemma strip_fold_mem files l : NoDup (keys l) -> forall wm n,
  mget n (m_pkgs (snd (fold_left (strip_one files) l wm))) =
  match mget n l with
  | Some r => if length (sminus (r_files r) files) =? length (r_files r) then mget n (m_pkgs (snd wm)) else Some (strip_rec files r)
  | None => mget n (m_pkgs (snd wm)) end.
Proof.
  induction l as [|[k r] l IH]; intros ND [w m] n; cbn [fold_left mget]; auto.
  inversion ND as [|? ? N1 N2]; subst. rewrite (IH N2).
  destruct (seqb n k) eqn:E.
  - apply seqb_eq in E. subst n. apply mget_None in N1. rewrite N1. unfold strip_one. cbn [snd fst].
    destruct (_ =? _) eqn:B; auto. cbn. rewrite mget_mset, seqb_refl. reflexivity.
  - assert (X : mget n (m_pkgs (snd (strip_one files (w, m) (k, r)))) = mget n (m_pkgs m)).
    { unfold strip_one. cbn [snd fst]. destruct (_ =? _); auto. cbn. rewrite mget_mset, E. reflexivity. }
    rewrite X. reflexivity.
Qed.
Lemma strip_fold_disk files l : NoDup (keys l) -> forall wm n,
  mget n (w_db (fst (fold_left (strip_one files) l wm))) =
  match mget n l with
  | Some r => if length (sminus (r_files r) files) =? length (r_files r) then mget n (w_db (fst wm))
              else Some (mset (L "files") (text_of (sminus (r_files r) files)) (match mget n (w_db (fst wm)) with Some d => d | None => [] end))
  | None => mget n (w_db (fst wm)) end.
Proof.
  induction l as [|[k r] l IH]; intros ND [w m] n; cbn [fold_left mget]; auto.
  inversion ND as [|? ? N1 N2]; subst. rewrite (IH N2).
  destruct (seqb n k) eqn:E.
  - apply seqb_eq in E. subst n. apply mget_None in N1. rewrite N1. unfold strip_one. cbn [snd fst].
    destruct (_ =? _) eqn:B; auto. cbn. unfold put_file. rewrite mget_mset, seqb_refl. reflexivity.
  - assert (X : mget n (w_db (fst (strip_one files (w, m) (k, r)))) = mget n (w_db w)).
    { unfold strip_one. cbn [snd fst]. destruct (_ =? _); auto. cbn. unfold put_file. rewrite mget_mset, E. reflexivity. }
    rewrite X. reflexivity.
Qed.
