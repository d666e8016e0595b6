(** Where the files of an archive end up: the content of an entry, the copy in the rejected area, what is left alone. *)
From Verif Require Import Base BaseProofs StrModel StrSpec StrProofs RulesModel FsModel FsSpec FsProofs FsOps FsExtract
  FsMisc MetaModel MetaSpec MetaProofs DbModel DbLoad DbOps DbRun EngineFs EngineRoot.

(** no file (something else than a directory) lies on the way to [p] *)
Definition way_clear (f : fs) (p : path) : Prop := forall q, below q p -> fget f q = None \/ dir_at f q.
(** all paths of the archive are different and nothing is shipped below something that is not a directory *)
Definition tidy (a : archive) : Prop :=
  NoDup (map (fun e => comps (fst e)) a) /\
  (forall x n y m, In (x, n) a -> In (y, m) a -> n_kind n <> KDir -> ~ below (comps x) (comps y)).
(** the archive leaves the area of rejected files alone *)
Definition no_reject_area (a : archive) : Prop :=
  forall y k, In (y, k) a -> ~ prefix_of reject_comps (comps y) /\ (n_kind k <> KDir -> ~ prefix_of (comps y) reject_comps).

Lemma below_app R a b : below (R ++ a) (R ++ b) <-> below a b.
Proof.
  unfold below. split; intros [r [N E]]; exists r; split; auto.
  - rewrite <- app_assoc in E. apply app_inv_head in E. exact E.
  - rewrite <- app_assoc. f_equal. exact E.
Qed.
Lemma prefix_app R a b : prefix_of (R ++ a) (R ++ b) <-> prefix_of a b.
Proof.
  unfold prefix_of. split; intros [r E]; exists r.
  - rewrite <- app_assoc in E. apply app_inv_head in E. exact E.
  - rewrite <- app_assoc. f_equal. exact E.
Qed.
Lemma prefix_below p q : prefix_of p q <-> q = p \/ below p q.
Proof.
  split.
  - intros [r ->]. destruct r as [|c r]; [left; apply app_nil_r|right; exists (c :: r); split; [discriminate|reflexivity]].
  - intros [->|[r [_ ->]]]; [exists []; rewrite app_nil_r; reflexivity|exists r; reflexivity].
Qed.
Lemma prefix_comparable a b c : prefix_of a (b ++ c) -> prefix_of a b \/ prefix_of b a.
Proof.
  intros [r E]. apply app_eq_app in E as [l [[E1 E2]|[E1 E2]]].
  - left. exists l. exact E1.
  - right. exists l. exact E1.
Qed.
Lemma tidy_split a x m : tidy a -> In (x, m) a -> exists a1 a2, a = a1 ++ (x, m) :: a2 /\
  forall y k, In (y, k) a1 \/ In (y, k) a2 -> In (y, k) a /\ comps y <> comps x.
Proof.
  intros [N _] I. apply in_split in I as [a1 [a2 ->]]. exists a1, a2. split; [reflexivity|].
  rewrite map_app in N. cbn [map fst] in N. apply NoDup_remove_2 in N. intros y k H. split.
  - apply in_app_iff. cbn [In]. tauto.
  - intro E. apply N. rewrite <- E. change (comps y) with (comps (fst (y, k))). apply in_app_iff.
    destruct H as [H|H]; [left|right]; apply (in_map (fun e : str * node => comps (fst e))); exact H.
Qed.

Section Way.
  Variable root : str.
  Let R := comps root.

  (** entry [y] stays away from path [t] *)
  Definition off (t : path) (y : str) (k : node) : Prop :=
    ~ prefix_of t (R ++ comps y) /\ ~ prefix_of t (R ++ reject_comps ++ comps y) /\
    (n_kind k <> KDir -> ~ below (R ++ comps y) t /\ ~ below (R ++ reject_comps ++ comps y) t).
  Lemma extract_way f name k b g t : tree f -> extract f name k = (b, g) -> ~ prefix_of t (comps name) -> (n_kind k <> KDir -> ~ below (comps name) t) ->
    way_clear f t -> way_clear g t.
  Proof.
    intros T E NP NB W p Bp. pose proof (extract_spec _ _ _ _ _ T E) as [S0 [S1 [S2 [S3 [S4 [S5 S6]]]]]].
    destruct b; [|rewrite (S0 eq_refl); auto]. destruct (path_eq_dec p (comps name)) as [->|Np].
    - destruct (is_dir k) eqn:D.
      + apply is_dir_kind in D. destruct (S6 eq_refl D) as [o [O1 [O2 _]]]. right. exists o. auto.
      + apply is_dir_false in D. exfalso. exact (NB D Bp).
    - destruct (belowb p (comps name)) eqn:B.
      + apply belowb_below in B. right. apply S4; auto.
      + assert (NBl : ~ below p (comps name)) by (intro Y; apply belowb_below in Y; congruence).
        destruct (W p Bp) as [Z|Z]; [left; rewrite S1; auto|right; eapply dir_at_ext; [symmetry; apply S1; auto|exact Z]].
  Qed.
  Lemma entry_way keep non f y k t : tree f -> off t y k -> way_clear f t ->
    fget (install_entry root keep non f (y, k)) t = fget f t /\ way_clear (install_entry root keep non f (y, k)) t.
  Proof.
    intros T [O1 [O2 O3]] W. destruct (install_entry_cases root keep non f y k) as [->|[[_ [b E]]|[_ [_ [b [g1 [E X]]]]]]]; auto.
    - split.
      + pose proof (extract_spec _ _ _ _ _ T E) as [_ [S1 _]]. rewrite comps_orig in S1. fold R in S1.
        apply S1; intro Z; apply O1, prefix_below; auto.
      + eapply extract_way; [exact T|exact E| | |exact W]; rewrite comps_orig; auto. intro K. apply O3, K.
    - assert (G1 : fget g1 t = fget f t /\ way_clear g1 t).
      { split.
        - pose proof (extract_spec _ _ _ _ _ T E) as [_ [S1 _]]. rewrite comps_rejected in S1. fold R in S1.
          apply S1; intro Z; apply O2, prefix_below; auto.
        - eapply extract_way; [exact T|exact E| | |exact W]; rewrite comps_rejected; auto. intro K. apply O3, K. }
      destruct G1 as [G1 G2]. destruct X as [->|[_ ->]]; [auto|].
      pose proof (extract_tree _ _ _ _ _ T E) as T1. destruct (removeFile_gen g1 (reject_dir root) (rejected_name root y) T1) as [_ RF]. split.
      + destruct (RF t) as [->|[_ [Z _]]]; [auto|]. rewrite comps_rejected in Z. fold R in Z. contradiction.
      + intros p Bp. destruct (RF p) as [Z|[Z _]]; [|auto]. rewrite Z. destruct (G2 p Bp) as [V|V]; [auto|]. right. eapply dir_at_ext; [symmetry; exact Z|exact V].
  Qed.
  Lemma list_way keep non t a : (forall y k, In (y, k) a -> off t y k) -> forall f, tree f -> way_clear f t ->
    fget (install_archive root a keep non f) t = fget f t /\ way_clear (install_archive root a keep non f) t.
  Proof.
    induction a as [|[y k] a IH]; intros O f T W; [auto|]. rewrite install_cons.
    destruct (entry_way keep non f y k t T (O y k (or_introl eq_refl)) W) as [A B].
    destruct (IH (fun z j I => O z j (or_intror I)) _ (install_entry_tree root keep non f (y, k) T) B) as [C D]. split; [congruence|exact D].
  Qed.
  Lemma install_app a b keep non f : install_archive root (a ++ b) keep non f = install_archive root b keep non (install_archive root a keep non f).
  Proof. apply fold_left_app. Qed.

  Lemma extract_free f name n b g : way_clear f (comps name) -> comps name <> [] -> ~ dir_at f (comps name) -> n_kind n <> KDir ->
    extract f name n = (b, g) -> b = true.
  Proof.
    intros W N ND K E. unfold extract in E. destruct (comps name) as [|c p] eqn:C; [congruence|]. rewrite <- C in *. clear C.
    apply is_dir_false in K. rewrite K in E. destruct (blocked f [] (comps name)) eqn:B.
    - exfalso. apply blocked_true in B as [u [v [o [U1 [U2 [U3 [U4 U5]]]]]]]. cbn in U4.
      destruct (W u) as [Z|[o' [Z1 Z2]]]; [exists v; auto| |]; [rewrite U4 in Z; discriminate|]. rewrite U4 in Z1. inversion Z1; subst. contradiction.
    - destruct (fget f (comps name)) as [o|] eqn:G; [|inversion E; auto]. destruct (is_dir o) eqn:D; [|cbn [andb] in E; inversion E; auto].
      exfalso. apply ND. exists o. split; auto. apply is_dir_kind, D.
  Qed.

  (** paths of the archive proper and of the rejected area keep away from each other *)
  Lemma off_orig a x m y k : tidy a -> no_reject_area a -> In (x, m) a -> In (y, k) a -> n_kind m <> KDir -> comps y <> comps x -> off (R ++ comps x) y k.
  Proof.
    intros T NR Ix Iy K Ne. destruct T as [_ T]. unfold off. rewrite !prefix_app, !below_app.
    assert (X : ~ prefix_of (comps x) (reject_comps ++ comps y)).
    { intro P. apply prefix_comparable in P as [P|P]; [exact (proj2 (NR x m Ix) K P)|exact (proj1 (NR x m Ix) P)]. }
    split; [intro P; apply prefix_below in P as [P|P]; [auto|exact (T x m y k Ix Iy K P)]|]. split; [exact X|].
    intro Kk. split; [exact (T y k x m Iy Ix Kk)|]. intros [r [_ E]]. apply (proj1 (NR x m Ix)). exists (comps y ++ r). rewrite app_assoc. exact E.
  Qed.
  Lemma off_reject a x m y k : tidy a -> no_reject_area a -> In (x, m) a -> In (y, k) a -> n_kind m <> KDir -> comps y <> comps x ->
    off (R ++ reject_comps ++ comps x) y k.
  Proof.
    intros T NR Ix Iy K Ne. destruct T as [_ T]. unfold off. rewrite !prefix_app, !below_app.
    split; [intros [r E]; apply (proj1 (NR y k Iy)); exists (comps x ++ r); rewrite app_assoc; exact E|].
    split; [intro P; apply prefix_below in P as [P|P]; [auto|exact (T x m y k Ix Iy K P)]|].
    intro Kk. split; [|exact (T y k x m Iy Ix Kk)]. intro P. assert (P' : prefix_of (comps y) (reject_comps ++ comps x)) by (apply prefix_below; auto).
    apply prefix_comparable in P' as [Q|Q]; [exact (proj2 (NR y k Iy) Kk Q)|exact (proj1 (NR y k Iy) Q)].
  Qed.

  (** an entry that is let through and not kept ends up at its place *)
  Lemma install_content a keep non x m : tidy a -> no_reject_area a -> In (x, m) a -> n_kind m <> KDir -> comps x <> [] ->
    ~ In x keep -> ~ In x non -> forall f, tree f -> way_clear f (R ++ comps x) -> ~ dir_at f (R ++ comps x) ->
    fget (install_archive root a keep non f) (R ++ comps x) = Some m.
  Proof.
    intros T NR I K Nx NK NN f Tf W ND. destruct (tidy_split a x m T I) as [a1 [a2 [E H]]].
    assert (O1 : forall y k, In (y, k) a1 -> off (R ++ comps x) y k).
    { intros y k Iy. destruct (H y k (or_introl Iy)) as [Ia Ne]. exact (off_orig a x m y k T NR I Ia K Ne). }
    assert (O2 : forall y k, In (y, k) a2 -> off (R ++ comps x) y k).
    { intros y k Iy. destruct (H y k (or_intror Iy)) as [Ia Ne]. exact (off_orig a x m y k T NR I Ia K Ne). }
    rewrite E, install_app, install_cons. destruct (list_way keep non _ a1 O1 f Tf W) as [G1 W1].
    assert (T1 := install_tree root a1 keep non f Tf). set (f1 := install_archive root a1 keep non f) in *. clearbody f1.
    assert (X : fget (install_entry root keep non f1 (x, m)) (R ++ comps x) = Some m /\ way_clear (install_entry root keep non f1 (x, m)) (R ++ comps x)).
    { apply smem_nIn in NK, NN. unfold install_entry. rewrite NN, NK, andb_false_r, seqb_refl.
      destruct (extract f1 (orig_name root x) m) as [b g] eqn:Ex. assert (b = true).
      { apply (extract_free f1 (orig_name root x) m b g); [rewrite comps_orig; exact W1|rewrite comps_orig; intro Z; apply app_eq_nil in Z; tauto|rewrite comps_orig; fold R; rewrite <- ?G1|exact K|exact Ex].
        intros [o [Z1 Z2]]. apply ND. exists o. split; [congruence|exact Z2]. }
      subst b. pose proof (extract_spec _ _ _ _ _ T1 Ex) as [_ [_ [_ [_ [S4 [S5 _]]]]]]. rewrite comps_orig in S4, S5. split; [apply S5; auto|].
      intros p Bp. right. apply S4; auto. }
    destruct X as [X1 X2]. destruct (list_way keep non _ a2 O2 _ (install_entry_tree root keep non f1 (x, m) T1) X2) as [G2 _]. fold R in G2. congruence.
  Qed.

  (** *** the copy in the rejected area *)
  (** same type, permissions and owner, and empty or same content *)
  Definition alike (m n : node) : Prop :=
    n_perm m = n_perm n /\ n_uid m = n_uid n /\ n_gid m = n_gid n /\ (n_data m = [] \/ n_data m = n_data n).
  Lemma rejected_ends x : x <> [] -> ends_slash (rejected_name root x) = ends_slash x.
  Proof. intro N. unfold rejected_name. rewrite trim_squeeze, squeeze_ends. rewrite !ends_slash_app; auto. destruct x; cbn; congruence. Qed.
  Lemma lstat_rejected f x n : x <> [] -> ends_slash x = false -> fget f (R ++ reject_comps ++ comps x) = Some n -> lstat f (rejected_name root x) = Some n.
  Proof. intros N E G. unfold lstat. rewrite comps_rejected, rejected_ends, E by auto. fold R. rewrite G. reflexivity. Qed.
  Lemma lstat_orig f x n : x <> [] -> ends_slash x = false -> fget f (R ++ comps x) = Some n -> lstat f (orig_name root x) = Some n.
  Proof. intros N E G. unfold lstat. rewrite comps_orig, orig_ends, E by auto. fold R. rewrite G. reflexivity. Qed.
  Lemma orig_ne_reject x : R ++ comps x <> R ++ reject_comps ++ comps x.
  Proof. intro Z. apply app_inv_head in Z. apply (f_equal (@List.length str)) in Z. rewrite app_length in Z. cbn [reject_comps List.length] in Z. lia. Qed.
  Lemma removeFile_target f base file n : tree f -> file <> base -> lstat f file = Some n -> is_dir n = false -> fget (removeFile f base file) (comps file) = None.
  Proof.
    intros T N G D. unfold removeFile. replace (length file + 2) with (S (length file + 1)) by lia. cbn [remove_file].
    apply seqb_neq in N. rewrite N. unfold rm. rewrite G, D.
    assert (NE : comps file <> []).
    { intro Z. unfold lstat in G. rewrite Z in G. destruct T as [[o [O1 O2]] _]. rewrite O1 in G. apply is_dir_kind in O2.
      rewrite O2 in G. rewrite andb_false_r in G. inversion G; subst. congruence. }
    assert (T' : tree (fdel (comps file) f)).
    { assert (X : rm f file = (true, fdel (comps file) f)) by (unfold rm; rewrite G, D; reflexivity). pose proof (rm_tree f file T) as Y. rewrite X in Y. exact Y. }
    destruct (remove_file_gen (length file + 1) (fdel (comps file) f) base (dirname file) T') as [g [Eg [_ H]]].
    - destruct (dirname_split file) as [E|[E|[c [_ E]]]]; [right; split; [auto|lia]|right; split; [auto|lia]|left; lia].
    - rewrite Eg. destruct (H (comps file)) as [Z|[Z _]]; rewrite Z; [apply fget_fdel_same|reflexivity].
  Qed.
  Lemma perms_dec (m n : node) : {n_perm m = n_perm n /\ n_uid m = n_uid n /\ n_gid m = n_gid n} + {~ (n_perm m = n_perm n /\ n_uid m = n_uid n /\ n_gid m = n_gid n)}.
  Proof. destruct (N.eq_dec (n_perm m) (n_perm n)); [|right; tauto]. destruct (N.eq_dec (n_uid m) (n_uid n)); [|right; tauto]. destruct (N.eq_dec (n_gid m) (n_gid n)); [left|right]; tauto. Qed.
  Lemma entry_rejects keep non f x m n : tree f -> x <> [] -> ends_slash x = false -> comps x <> [] -> In x keep -> ~ In x non ->
    fget f (R ++ comps x) = Some n -> n_kind n = KReg -> n_kind m = KReg ->
    way_clear f (R ++ reject_comps ++ comps x) -> ~ dir_at f (R ++ reject_comps ++ comps x) ->
    let g := install_entry root keep non f (x, m) in
    (alike m n -> fget g (R ++ reject_comps ++ comps x) = None) /\ (~ alike m n -> fget g (R ++ reject_comps ++ comps x) = Some m) /\
    way_clear g (R ++ reject_comps ++ comps x).
  Proof.
    intros T Nx Es Ncx IK NN Gn Kn Km W ND. cbv zeta. apply smem_nIn in NN. apply smem_In in IK.
    unfold install_entry. rewrite NN. assert (EX : exists_file f (orig_name root x) = true).
    { unfold exists_file. rewrite (lstat_orig f x n); auto. }
    rewrite EX, IK. cbn [andb]. assert (NE : seqb (rejected_name root x) (orig_name root x) = false).
    { apply seqb_neq. intro Z. apply (f_equal comps) in Z. rewrite comps_rejected, comps_orig in Z. exact (orig_ne_reject x (eq_sym Z)). }
    rewrite NE. destruct (extract f (rejected_name root x) m) as [b g] eqn:E.
    assert (b = true).
    { apply (extract_free f (rejected_name root x) m b g); rewrite ?comps_rejected; auto; [|rewrite Km; discriminate].
      intro Z. apply app_eq_nil in Z as [_ Z]. discriminate. }
    subst b. pose proof (extract_spec _ _ _ _ _ T E) as [_ [S1 [_ [_ [S4 [S5 _]]]]]]. rewrite comps_rejected in S1, S4, S5. fold R in S1, S4, S5.
    assert (Gm : fget g (R ++ reject_comps ++ comps x) = Some m) by (apply S5; [auto|rewrite Km; discriminate]).
    assert (Go : fget g (R ++ comps x) = Some n).
    { rewrite S1; [exact Gn|apply orig_ne_reject|]. intro Bl. destruct (W _ Bl) as [Z|[o [Z1 Z2]]]; [congruence|]. rewrite Gn in Z1. inversion Z1; subst. congruence. }
    assert (Wg : way_clear g (R ++ reject_comps ++ comps x)) by (intros p Bp; right; apply S4; auto).
    assert (T1 := extract_tree _ _ _ _ _ T E).
    pose proof (lstat_rejected g x m Nx Es Gm) as Lm. pose proof (lstat_orig g x n Nx Es Go) as Ln.
    assert (Dm : is_dir m = false) by (unfold is_dir; rewrite Km; reflexivity). rewrite Dm.
    assert (C : (perms_equal g (rejected_name root x) (orig_name root x) &&
       (file_empty g (rejected_name root x) || files_equal g (rejected_name root x) (orig_name root x))) = true <-> alike m n).
    { rewrite andb_true_iff, orb_true_iff. unfold alike.
      rewrite perms_equal_spec, (files_equal_reg g _ _ m n Lm Ln Km Kn). unfold file_empty. rewrite Lm, Km. cbn [kind_eqb andb].
      rewrite Nat.eqb_eq, length_zero_iff_nil. split.
      - intros [[n1 [n2 [A [B C]]]] D]. rewrite Ln in B. inversion A; inversion B; subst n1 n2. clear A B. tauto.
      - intros [A [B [C D]]]. split; [|exact D]. exists m, n. rewrite Km, Kn. auto 10. }
    destruct (perms_equal g (rejected_name root x) (orig_name root x) &&
       (file_empty g (rejected_name root x) || files_equal g (rejected_name root x) (orig_name root x))) eqn:Cb.
    - apply proj1 in C. specialize (C eq_refl). split; [intros _|split; [intro Z; contradiction|]].
      + unfold R. rewrite <- comps_rejected. apply (removeFile_target g _ _ m); auto. intro Z. apply (f_equal comps) in Z.
        rewrite comps_rejected, comps_reject_dir in Z. apply app_inv_head in Z. rewrite <- (app_nil_r reject_comps) in Z at 2. apply app_inv_head in Z. auto.
      + intros p Bp. destruct (removeFile_gen g (reject_dir root) (rejected_name root x) T1) as [_ RF].
        destruct (RF p) as [Z|[Z _]]; [|auto]. right. eapply dir_at_ext; [symmetry; exact Z|]. apply S4; auto.
    - split; [intro Z; apply C in Z; discriminate|]. split; [intros _; exact Gm|exact Wg].
  Qed.
  (** over the whole archive: the kept file is not touched *)
  Lemma tidy_same a x m y k : tidy a -> In (x, m) a -> In (y, k) a -> comps y = comps x -> y = x /\ k = m.
  Proof.
    intros [N _] I Iy Ey. apply in_split in I as [a1 [a2 ->]]. rewrite map_app in N. cbn [map fst] in N. apply NoDup_remove_2 in N.
    apply in_app_iff in Iy. destruct Iy as [Iy|[Iy|Iy]]; [|inversion Iy; auto|]; exfalso; apply N; rewrite <- Ey;
    change (comps y) with (comps (fst (y, k))); apply in_app_iff; [left|right]; apply (in_map (fun e : str * node => comps (fst e))); exact Iy.
  Qed.
  Lemma reject_apart a x m : no_reject_area a -> In (x, m) a -> n_kind m <> KDir -> forall r, ~ prefix_of (R ++ comps x) (R ++ reject_comps ++ r).
  Proof.
    intros NR I K r P. rewrite prefix_app in P. destruct (NR x m I) as [A B]. apply prefix_comparable in P as [P|P]; auto. exact (B K P).
  Qed.
  Lemma install_kept a keep non x m n : tidy a -> no_reject_area a -> In (x, m) a -> x <> [] -> ends_slash x = false ->
    In x keep -> n_kind n <> KDir -> n_kind m <> KDir -> forall f, tree f -> fget f (R ++ comps x) = Some n ->
    fget (install_archive root a keep non f) (R ++ comps x) = Some n.
  Proof.
    intros T NR I Nx Es IK Kn Km f Tf Gn. apply install_file; [exact Tf|exact Gn|exact Kn|]. intros y k Iy. fold R.
    assert (RA : forall r, R ++ comps x <> R ++ reject_comps ++ r /\ ~ below (R ++ comps x) (R ++ reject_comps ++ r)).
    { intro r. pose proof (reject_apart a x m NR I Km r) as P. rewrite prefix_below in P. split; [intro Z; apply P; left; auto|tauto]. }
    destruct (path_eq_dec (comps y) (comps x)) as [Ey|Ny].
    - destruct (tidy_same a x m y k T I Iy Ey) as [-> _]. split; [left; auto|]. apply RA.
    - destruct (off_orig a x m y k T NR I Iy Km Ny) as [O1 _]. rewrite prefix_below in O1. split; [right; split; [intro Z; apply O1; auto|tauto]|apply RA].
  Qed.
  (** ... and the archive's version is found in the rejected area exactly if it differs *)
  Lemma install_rejects a keep non x m n : tidy a -> no_reject_area a -> In (x, m) a -> x <> [] -> ends_slash x = false -> comps x <> [] ->
    In x keep -> ~ In x non -> n_kind n = KReg -> n_kind m = KReg -> forall f, tree f -> fget f (R ++ comps x) = Some n ->
    way_clear f (R ++ reject_comps ++ comps x) -> ~ dir_at f (R ++ reject_comps ++ comps x) ->
    let g := install_archive root a keep non f in
    (alike m n -> fget g (R ++ reject_comps ++ comps x) = None) /\ (~ alike m n -> fget g (R ++ reject_comps ++ comps x) = Some m).
  Proof.
    intros T NR I Nx Es Ncx IK NN Kn Km f Tf Gn W ND. cbv zeta. assert (Km' : n_kind m <> KDir) by (rewrite Km; discriminate).
    destruct (tidy_split a x m T I) as [a1 [a2 [E H]]].
    assert (O1 : forall y k, In (y, k) a1 -> off (R ++ reject_comps ++ comps x) y k /\ off (R ++ comps x) y k).
    { intros y k Iy. destruct (H y k (or_introl Iy)) as [Ia Ne]. split; [exact (off_reject a x m y k T NR I Ia Km' Ne)|exact (off_orig a x m y k T NR I Ia Km' Ne)]. }
    assert (O2 : forall y k, In (y, k) a2 -> off (R ++ reject_comps ++ comps x) y k).
    { intros y k Iy. destruct (H y k (or_intror Iy)) as [Ia Ne]. exact (off_reject a x m y k T NR I Ia Km' Ne). }
    rewrite E, install_app, install_cons. destruct (list_way keep non _ a1 (fun y k i => proj1 (O1 y k i)) f Tf W) as [G1 W1].
    assert (Wo : way_clear f (R ++ comps x)).
    { intros p Bp. right. eapply tree_below; [exact Tf| |exact Bp]. congruence. }
    destruct (list_way keep non _ a1 (fun y k i => proj2 (O1 y k i)) f Tf Wo) as [G1' _].
    assert (T1 := install_tree root a1 keep non f Tf). set (f1 := install_archive root a1 keep non f) in *. clearbody f1.
    destruct (entry_rejects keep non f1 x m n T1 Nx Es Ncx IK NN) as [A [B C]]; auto.
    { fold R in G1'. congruence. }
    { intros [o [Z1 Z2]]. apply ND. exists o. split; [|exact Z2]. fold R in G1, Z1. congruence. }
    destruct (list_way keep non _ a2 O2 _ (install_entry_tree root keep non f1 (x, m) T1) C) as [G2 _]. fold R in G2. rewrite G2. auto.
  Qed.
  (** an entry that the rules filter out is skipped, the others as before *)
  Lemma install_spared a keep non t o : forall f, tree f -> fget f t = Some o -> n_kind o <> KDir ->
    (forall y k, In (y, k) a -> In y non \/ (~ prefix_of t (R ++ comps y) /\ ~ prefix_of t (R ++ reject_comps ++ comps y))) ->
    fget (install_archive root a keep non f) t = Some o.
  Proof.
    induction a as [|[y k] a IH]; intros f T G K H; [exact G|]. rewrite install_cons. apply IH.
    - apply install_entry_tree, T.
    - destruct (H y k (or_introl eq_refl)) as [I|[P1 P2]].
      + apply smem_In in I. unfold install_entry. rewrite I. exact G.
      + rewrite prefix_below in P1, P2. apply install_entry_file; auto; fold R; [right; split|..]; auto.
    - exact K.
    - intros z j I. apply (H z j). right. exact I.
  Qed.
End Way.
