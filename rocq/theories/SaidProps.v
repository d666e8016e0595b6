(** Property C98: what pkgadd says about single files while it installs an archive. *)
From Verif Require Import Base BaseProofs StrModel StrSpec StrProofs RulesModel RulesSpec RulesProofs FsModel FsSpec FsProofs FsOps FsExtract
  FsMisc MetaModel MetaSpec MetaProofs DbModel DbSpec DbLoad DbOps DbRun DbInv EngineFs EngineRoot EngineWay DbFacts DbProps RemoveProps AddRun DbExamples AddProps UpgradeProps UpgradeExamples SaidModel.

(** the file a line is about *)
Definition about (s : said) : str := match s with Ignoring x | Rejecting x | CouldNot x => x end.
(** [l] is [k] with some elements left out *)
Inductive picks {A : Type} : list A -> list A -> Prop :=
| picks_nil : picks [] []
| picks_take x l k : picks l k -> picks (x :: l) (x :: k)
| picks_skip x l k : picks l k -> picks l (x :: k).

Section SaidProps.
  Variables (junk : bool) (machine : str) (re : str -> str -> option bool) (sh : str -> fs -> fs * bool) (root : str).
  Hypothesis Rs : ends_slash root = true.
  Notation session := (session junk machine re sh root).
  Notation session_said := (session_said junk machine re sh root).
  Notation entry_said := (entry_said root).
  Notation install_said := (install_said root).
  Notation R := (comps root).

  Lemma entry_shape keep non f x n : let l := entry_said keep non f (x, n) in l = [] \/ l = [Ignoring x] \/ l = [CouldNot x] \/ l = [Rejecting x].
  Proof.
    cbv zeta. unfold SaidModel.entry_said. destruct (smem x non); [auto|]. destruct (extract _ _ _) as [[|] g]; [|auto].
    destruct (seqb _ _); [auto|]. match goal with |- context [if ?b then [] else [Rejecting x]] => destruct b end; auto.
  Qed.
  Lemma entry_about keep non f e s : In s (entry_said keep non f e) -> about s = fst e.
  Proof.
    destruct e as [x n]. intro I. destruct (entry_shape keep non f x n) as [E|[E|[E|E]]]; cbv zeta in E; rewrite E in I; [destruct I| | |]; destruct I as [<-|[]]; reflexivity.
  Qed.
  Lemma said_app a b keep non f : install_said (a ++ b) keep non f = install_said a keep non f ++ install_said b keep non (install_archive root a keep non f).
  Proof.
    revert f. induction a as [|e a IH]; intro f; [reflexivity|]. cbn [app SaidModel.install_said]. rewrite IH, app_assoc. reflexivity.
  Qed.
  Lemma said_about a keep non s : forall f, In s (install_said a keep non f) -> In (about s) (map fst a).
  Proof.
    induction a as [|e a IH]; intros f I; [destruct I|]. cbn [SaidModel.install_said] in I. apply in_app_iff in I as [I|I].
    - left. symmetry. eapply entry_about, I.
    - right. exact (IH _ I).
  Qed.
  Lemma said_picks a keep non : forall f, picks (map about (install_said a keep non f)) (map fst a).
  Proof.
    induction a as [|[x n] a IH]; intro f; [constructor|]. cbn [SaidModel.install_said map fst]. rewrite map_app.
    destruct (entry_shape keep non f x n) as [E|[E|[E|E]]]; cbv zeta in E; rewrite E; cbn [map about app]; constructor; apply IH.
  Qed.
  (** with all names different, the lines about [x] are those of its entry *)
  Lemma said_entry a keep non f x m a1 a2 s : a = a1 ++ (x, m) :: a2 ->
    (forall y k, In (y, k) a1 \/ In (y, k) a2 -> In (y, k) a /\ comps y <> comps x) -> about s = x ->
    (In s (install_said a keep non f) <-> In s (entry_said keep non (install_archive root a1 keep non f) (x, m))).
  Proof.
    intros E H A. rewrite E, said_app. cbn [SaidModel.install_said].
    set (f1 := install_archive root a1 keep non f). set (f2 := install_entry root keep non f1 (x, m)).
    assert (N1 : ~ In s (install_said a1 keep non f)).
    { intro I. apply said_about in I. rewrite A in I. apply in_map_iff in I as [[y k] [Ey Iy]]. cbn [fst] in Ey. subst y.
      destruct (H x k (or_introl Iy)) as [_ N]. auto. }
    assert (N2 : ~ In s (install_said a2 keep non f2)).
    { intro I. apply said_about in I. rewrite A in I. apply in_map_iff in I as [[y k] [Ey Iy]]. cbn [fst] in Ey. subst y.
      destruct (H x k (or_intror Iy)) as [_ N]. auto. }
    rewrite !in_app_iff. tauto.
  Qed.
  (** entries that stay away from a path leave it alone, whatever lies on the way *)
  Lemma entry_off keep non f y k t : tree f -> ~ prefix_of t (R ++ comps y) -> ~ prefix_of t (R ++ reject_comps ++ comps y) ->
    fget (install_entry root keep non f (y, k)) t = fget f t.
  Proof.
    intros T O1 O2. destruct (install_entry_cases root keep non f y k) as [->|[[_ [b E]]|[_ [_ [b [g1 [E X]]]]]]]; auto.
    - pose proof (extract_spec _ _ _ _ _ T E) as [_ [S1 _]]. rewrite comps_orig in S1. apply S1; intro Z; apply O1, prefix_below; auto.
    - assert (G1 : fget g1 t = fget f t).
      { pose proof (extract_spec _ _ _ _ _ T E) as [_ [S1 _]]. rewrite comps_rejected in S1. apply S1; intro Z; apply O2, prefix_below; auto. }
      destruct X as [->|[_ ->]]; [auto|].
      pose proof (extract_tree _ _ _ _ _ T E) as T1. destruct (removeFile_gen g1 (reject_dir root) (rejected_name root y) T1) as [_ RF].
      destruct (RF t) as [->|[_ [Z _]]]; [auto|]. rewrite comps_rejected in Z. contradiction.
  Qed.
  Lemma list_off keep non t a : (forall y k, In (y, k) a -> ~ prefix_of t (R ++ comps y) /\ ~ prefix_of t (R ++ reject_comps ++ comps y)) ->
    forall f, tree f -> fget (install_archive root a keep non f) t = fget f t.
  Proof.
    induction a as [|[y k] a IH]; intros O f T; [reflexivity|]. rewrite install_cons.
    rewrite (IH (fun z j I => O z j (or_intror I)) _ (install_entry_tree root keep non f (y, k) T)).
    destruct (O y k (or_introl eq_refl)) as [A B]. apply entry_off; auto.
  Qed.
  (** a file that cannot be unpacked is not there *)
  Lemma extract_fails f name n g : tree f -> extract f name n = (false, g) -> n_kind n <> KDir -> comps name <> [] ->
    g = f /\ (fget f (comps name) = None \/ dir_at f (comps name)).
  Proof.
    intros T E K N. pose proof (extract_spec _ _ _ _ _ T E) as [S0 _]. split; [apply S0; reflexivity|].
    unfold extract in E. destruct (comps name) as [|c p] eqn:C; [congruence|]. rewrite <- C in *. clear C c p.
    apply is_dir_false in K. rewrite K in E. destruct (blocked f [] (comps name)) eqn:B.
    - left. apply blocked_true in B as [u [v [o [U1 [U2 [U3 [U4 U5]]]]]]]. cbn [app] in U4. rewrite U3.
      destruct (fget f (u ++ v)) eqn:G; [|reflexivity]. exfalso. apply U5.
      assert (D : dir_at f u) by (apply (tree_below f u (u ++ v) T); [congruence|exists v; auto]). destruct D as [o' [O1 O2]]. rewrite U4 in O1. inversion O1; subst. exact O2.
    - destruct (fget f (comps name)) as [o|] eqn:G; [|inversion E]. destruct (is_dir o) eqn:D; [|cbn [andb] in E; inversion E].
      right. exists o. split; [exact G|]. apply is_dir_kind, D.
  Qed.

  (** an entry that is let through and not kept: the failure line is written exactly if the file is not there afterwards *)
  Lemma reports_failure a keep non x m : tidy a -> no_reject_area a -> In (x, m) a -> n_kind m <> KDir -> comps x <> [] ->
    ~ In x keep -> ~ In x non -> forall f, tree f ->
    (In (CouldNot x) (install_said a keep non f) <-> fget (install_archive root a keep non f) (R ++ comps x) <> Some m) /\
    ~ In (Ignoring x) (install_said a keep non f) /\ ~ In (Rejecting x) (install_said a keep non f).
  Proof.
    intros T NR I K Nx NK NN f Tf. destruct (tidy_split a x m T I) as [a1 [a2 [E H]]].
    rewrite !(said_entry a keep non f x m a1 a2 _ E H) by reflexivity.
    assert (O2 : forall y k, In (y, k) a2 -> ~ prefix_of (R ++ comps x) (R ++ comps y) /\ ~ prefix_of (R ++ comps x) (R ++ reject_comps ++ comps y)).
    { intros y k Iy. destruct (H y k (or_intror Iy)) as [Ia Ne]. destruct (off_orig root a x m y k T NR I Ia K Ne) as [A [B _]]. auto. }
    rewrite E, install_app, install_cons. assert (T1 := install_tree root a1 keep non f Tf).
    set (f1 := install_archive root a1 keep non f) in *. clearbody f1.
    rewrite (list_off keep non _ a2 O2 _ (install_entry_tree root keep non f1 (x, m) T1)).
    apply smem_nIn in NK, NN. unfold SaidModel.entry_said, install_entry. rewrite NN, NK, andb_false_r, seqb_refl.
    destruct (extract f1 (orig_name root x) m) as [b g] eqn:Ex. destruct b.
    - pose proof (extract_spec _ _ _ _ _ T1 Ex) as [_ [_ [_ [_ [_ [S5 _]]]]]]. rewrite comps_orig in S5. rewrite (S5 eq_refl K). cbn [In]. tauto.
    - destruct (extract_fails f1 (orig_name root x) m g T1 Ex K) as [-> F].
      { rewrite comps_orig. intro Z. apply app_eq_nil in Z. tauto. }
      rewrite comps_orig in F. cbn [In]. split; [|split; [intros [Z|[]]; discriminate|intros [Z|[]]; discriminate]].
      split; [intros _ Z|auto]. destruct F as [F|[o [F1 F2]]]; [congruence|]. rewrite Z in F1. inversion F1; subst. contradiction.
  Qed.
  (** a kept entry whose file is there *)
  Lemma reports_rejects a keep non x m n : tidy a -> no_reject_area a -> In (x, m) a -> x <> [] -> ends_slash x = false -> comps x <> [] ->
    In x keep -> ~ In x non -> n_kind n = KReg -> n_kind m = KReg -> forall f, tree f -> fget f (R ++ comps x) = Some n ->
    let g := install_archive root a keep non f in let l := install_said a keep non f in
    ~ In (Ignoring x) l /\
    ((In (CouldNot x) l /\ ~ In (Rejecting x) l /\ ~ (way_clear f (R ++ reject_comps ++ comps x) /\ ~ dir_at f (R ++ reject_comps ++ comps x))) \/
     (alike m n /\ ~ In (CouldNot x) l /\ ~ In (Rejecting x) l /\ fget g (R ++ reject_comps ++ comps x) = None) \/
     (~ alike m n /\ ~ In (CouldNot x) l /\ In (Rejecting x) l /\ fget g (R ++ reject_comps ++ comps x) = Some m)).
  Proof.
    intros T NR I Nx Es Ncx IK NN Kn Km f Tf Gn. cbv zeta. assert (Km' : n_kind m <> KDir) by (rewrite Km; discriminate).
    destruct (tidy_split a x m T I) as [a1 [a2 [E H]]].
    rewrite !(said_entry a keep non f x m a1 a2 _ E H) by reflexivity.
    assert (O1 : forall y k, In (y, k) a1 -> off root (R ++ reject_comps ++ comps x) y k /\ off root (R ++ comps x) y k).
    { intros y k Iy. destruct (H y k (or_introl Iy)) as [Ia Ne]. split; [exact (off_reject root a x m y k T NR I Ia Km' Ne)|exact (off_orig root a x m y k T NR I Ia Km' Ne)]. }
    assert (O2 : forall y k, In (y, k) a2 -> ~ prefix_of (R ++ reject_comps ++ comps x) (R ++ comps y) /\ ~ prefix_of (R ++ reject_comps ++ comps x) (R ++ reject_comps ++ comps y)).
    { intros y k Iy. destruct (H y k (or_intror Iy)) as [Ia Ne]. destruct (off_reject root a x m y k T NR I Ia Km' Ne) as [A [B _]]. auto. }
    rewrite E, install_app, install_cons. assert (T1 := install_tree root a1 keep non f Tf).
    assert (G1 : fget (install_archive root a1 keep non f) (R ++ comps x) = Some n).
    { rewrite (list_off keep non (R ++ comps x) a1); [exact Gn| |exact Tf]. intros y k Iy. destruct (O1 y k Iy) as [_ [A [B _]]]. auto. }
    assert (W1 : way_clear f (R ++ reject_comps ++ comps x) /\ ~ dir_at f (R ++ reject_comps ++ comps x) ->
      way_clear (install_archive root a1 keep non f) (R ++ reject_comps ++ comps x) /\ ~ dir_at (install_archive root a1 keep non f) (R ++ reject_comps ++ comps x)).
    { intros [W D]. destruct (list_way root keep non _ a1 (fun y k i => proj1 (O1 y k i)) f Tf W) as [Z1 Z2]. split; [exact Z2|].
      intros [o [Y1 Y2]]. apply D. exists o. split; [congruence|exact Y2]. }
    set (f1 := install_archive root a1 keep non f) in *. clearbody f1.
    rewrite (list_off keep non _ a2 O2 _ (install_entry_tree root keep non f1 (x, m) T1)).
    apply smem_nIn in NN. apply smem_In in IK.
    unfold SaidModel.entry_said, install_entry. rewrite NN. assert (EX : exists_file f1 (orig_name root x) = true).
    { unfold exists_file. rewrite (lstat_orig root f1 x n); auto. }
    rewrite EX, IK. cbn [andb]. assert (NE : seqb (rejected_name root x) (orig_name root x) = false).
    { apply seqb_neq. intro Z. apply (f_equal comps) in Z. rewrite comps_rejected, comps_orig in Z. exact (orig_ne_reject root x (eq_sym Z)). }
    rewrite NE. destruct (extract f1 (rejected_name root x) m) as [b g] eqn:Ex. destruct b.
    2:{ split; [cbn [In]; intros [Z|[]]; discriminate|]. left. cbn [In]. split; [auto|]. split; [intros [Z|[]]; discriminate|].
        intro W. apply W1 in W as [W D]. enough (false = true) by discriminate.
        apply (extract_free f1 (rejected_name root x) m false g); rewrite ?comps_rejected; auto.
        intro Z. apply app_eq_nil in Z as [_ Z]. discriminate. }
    pose proof (extract_spec _ _ _ _ _ T1 Ex) as [_ [S1 [_ [S3 [S4 [S5 _]]]]]]. rewrite comps_rejected in S1, S3, S4, S5.
    assert (Gm : fget g (R ++ reject_comps ++ comps x) = Some m) by (apply S5; auto).
    assert (Go : fget g (R ++ comps x) = Some n) by (apply S3; [exact Km'|apply orig_ne_reject|exact G1]).
    assert (T2 := extract_tree _ _ _ _ _ T1 Ex).
    pose proof (lstat_rejected root g x m Nx Es Gm) as Lm. pose proof (lstat_orig root g x n Nx Es Go) as Ln.
    assert (Dm : is_dir m = false) by (unfold is_dir; rewrite Km; reflexivity). rewrite Dm.
    assert (C : (perms_equal g (rejected_name root x) (orig_name root x) &&
       (file_empty g (rejected_name root x) || files_equal g (rejected_name root x) (orig_name root x))) = true <-> alike m n).
    { rewrite andb_true_iff, orb_true_iff. unfold alike.
      rewrite perms_equal_spec, (files_equal_reg g _ _ m n Lm Ln Km Kn). unfold file_empty. rewrite Lm, Km. cbn [kind_eqb andb].
      rewrite Nat.eqb_eq, length_zero_iff_nil. split.
      - intros [[n1 [n2 [A [B C]]]] D]. rewrite Ln in B. inversion A; inversion B; subst n1 n2. clear A B. tauto.
      - intros [A [B [C D]]]. split; [|exact D]. exists m, n. rewrite Km, Kn. auto 10. }
    destruct (perms_equal g (rejected_name root x) (orig_name root x) &&
       (file_empty g (rejected_name root x) || files_equal g (rejected_name root x) (orig_name root x))) eqn:Cb.
    - apply proj1 in C. specialize (C eq_refl). split; [cbn [In]; tauto|]. right. left. split; [exact C|]. split; [cbn [In]; tauto|]. split; [cbn [In]; tauto|].
      rewrite <- (comps_rejected root x). apply (removeFile_target g _ _ m); auto. intro Z. apply (f_equal comps) in Z.
      rewrite comps_rejected, comps_reject_dir in Z. apply app_inv_head in Z. rewrite <- (app_nil_r reject_comps) in Z at 2. apply app_inv_head in Z. auto.
    - split; [cbn [In]; intros [Z|[]]; discriminate|]. right. right. split; [intro Z; apply C in Z; discriminate|].
      split; [cbn [In]; intros [Z|[]]; discriminate|]. split; [cbn [In]; auto|exact Gm].
  Qed.

  (** the lines of a run are those of its unpacking *)
  Lemma add_said_run o conf a w m name info rules ins non post w1 w2 m2 kl w3 m3 :
    open_archive junk machine root a = Ok (name, info) -> read_rules_file conf = inl rules -> name_exists m name = o_upgrade o ->
    apply_install_rules re rules (r_files info) = Some (ins, non, post) -> (if o_scripts o then pre_run sh root a w else inr w) = inr w1 ->
    phase_conflicts re root o rules name ins w1 m w2 m2 -> phase_upgrade junk re root o rules name ins w2 m2 kl w3 m3 ->
    add_said junk machine re sh root o conf a w m = install_said a kl non (w_fs w3).
  Proof.
    intros E1 E2 E3 E4 E5 E6 E7. unfold add_said. rewrite E1, E2, E3, E4, E5, andb_negb_r, andb_comm, andb_negb_r.
    unfold phase_conflicts in E6. cbv zeta in E6 |- *. destruct (conflicts root name ins (w_fs w1) (m_pkgs m)) as [|c cf] eqn:C.
    - destruct E6 as [(_ & -> & ->)|[Z _]]; [|congruence]. destruct E7 as [(U & -> & -> & ->)|(U & K & Rr)]; rewrite U; [reflexivity|].
      rewrite K, Rr. reflexivity.
    - destruct E6 as [(Z & _)|(_ & Fo & kl0 & K0 & St)]; [discriminate|]. rewrite Fo, K0, St.
      destruct E7 as [(U & -> & -> & ->)|(U & K & Rr)]; rewrite U; [reflexivity|]. rewrite K, Rr. reflexivity.
  Qed.
  Lemma said_session o sd conf a w w' : no_dot_name a -> session (Add o sd conf a) w = (None, w') -> tree (w_fs w) ->
    exists rules kl non f g name d3 m3 w5 m5 d, read_rules_file conf = inl rules /\ session_said o sd conf a w = install_said a kl non f /\
      (forall x, In x kl <-> ships a x /\ verdict re INSTALL rules x true /\ o_upgrade o = true /\ verdict re UPGRADE rules x false) /\
      (forall x, In x non <-> ships a x /\ verdict re INSTALL rules x false) /\
      g = install_archive root a kl non f /\ move_meta root name (World g d3, m3) = Ok (w5, m5) /\
      w' = post_run sh root (o_scripts o) (World (w_fs w5) d) /\
      (o_scripts o = false -> tree f /\ forall q, fget f q = fget (w_fs w) q \/ fget f q = None) /\
      (o_scripts o = false -> forall x m n, protected re o rules a (w_db w) x m -> fget (w_fs w) (R ++ comps x) = Some n -> fget f (R ++ comps x) = Some n).
  Proof.
    intros ND E T.
    apply add_session_full in E as (w1 & name & info & rules & ins & non & post & l1 & l2 & kl & d3 & m3 & w5 & m5 & Dw & Ew & Eo & Er & Ei & _ & _ & I1 & KL & _ & _ & I2 & _ & _ & _ & Em & -> & m & w2 & m2 & w3 & Lo & Ex & P1 & P2 & F3); auto.
    pose proof (open_name _ _ _ _ _ _ Eo) as [An Sh]. pose proof (install_rules_spec _ _ _ _ _ _ Ei) as [Ai [Ni _]].
    exists rules, kl, non, (w_fs w3), (install_archive root a kl non (w_fs w3)), name, d3, m3, w5, m5, (put_file name (L "files") (text_of ins) (w_db w5)).
    split; [exact Er|]. split.
    { unfold SaidModel.session_said. cbn [w_db w_fs]. rewrite Lo. eapply add_said_run; eauto. }
    split; [intro x; rewrite KL, Ai; unfold kept; pose proof (Sh x); tauto|]. split; [intro x; rewrite Ni; pose proof (Sh x); tauto|].
    split; [reflexivity|]. rewrite F3. split; [exact Em|]. split; [reflexivity|].
    destruct (cleanup_spec (w_fs w) root T) as [T0 _].
    split.
    - intro NS. rewrite NS in Ew. inversion Ew; subst w1. cbn [w_fs] in *. split; [apply del_files_tree; auto; apply del_files_tree; auto|]. apply del_sub2; auto.
    - intros NS x m' n (U & _ & Ti & NR & Sx & [cs Px] & Exl & Im & Km & Sp & V1 & V2) G. rewrite NS in Ew. inversion Ew; subst w1. cbn [w_fs] in *.
      assert (Nd : nodot x) by (destruct Sx as [ls [_ [_ H]]]; exact H).
      assert (Cx : comps x = cs) by (apply plain_comps, Px).
      pose proof (own_plain root x cs Nd Px) as NO. rewrite <- Cx in NO.
      assert (Kx : kept re o rules x) by (split; auto).
      assert (Ikl : In x kl) by (apply KL; split; [apply Ai; split; [apply Sh, Sx|exact V1]|exact Kx]).
      rewrite (del_files_frame root Rs); [rewrite (del_files_frame root Rs)|].
      + rewrite (cleanup_keep root); auto.
      + intros y I Z. apply I1 in I as [C NK]. apply app_inv_head in Z. apply NK. assert (y = x); [|subst; exact Kx].
        apply (Sp name); auto. left. apply C.
      + intros y I Z. apply I2 in I as [_ [[Ly _] NK]]. apply app_inv_head in Z. apply NK. assert (y = x); [|subst; exact Ikl].
        apply (Sp name); auto.
  Qed.

  (** C98: a file is said to be ignored exactly if the INSTALL rules keep it out *)
  Theorem C98_ignored o sd conf a w w' rules x : no_dot_name a -> tree (w_fs w) -> session (Add o sd conf a) w = (None, w') -> read_rules_file conf = inl rules ->
    (In (Ignoring x) (session_said o sd conf a w) <-> ships a x /\ (exists m, In (x, m) a) /\ verdict re INSTALL rules x false).
  Proof.
    intros ND T E Er. destruct (said_session o sd conf a w w' ND E T) as (rules' & kl & non & f & g & name & d3 & m3 & w5 & m5 & d & Er' & -> & KL & NL & _).
    rewrite Er in Er'. inversion Er'; subst rules'. clear Er'.
    assert (X : In (Ignoring x) (install_said a kl non f) <-> In x non /\ exists m, In (x, m) a).
    { clear. revert f. induction a as [|[y k] b IH]; intro f; [cbn [SaidModel.install_said In]; split; [intros []|intros [_ [m []]]]|].
      cbn [SaidModel.install_said]. rewrite in_app_iff, IH. split.
      - intros [I|[I [m J]]]; [|split; [exact I|exists m; right; exact J]].
        pose proof (entry_about _ _ _ _ _ I) as A. cbn [about fst] in A. subst y. split; [|exists k; left; reflexivity].
        unfold SaidModel.entry_said in I. destruct (smem x non) eqn:S; [apply smem_In, S|]. exfalso.
        destruct (extract _ _ _) as [[|] z]; [|destruct I as [I|[]]; discriminate]. destruct (seqb _ _); [destruct I|].
        match type of I with In _ (if ?c then _ else _) => destruct c end; [destruct I|destruct I as [I|[]]; discriminate].
      - intros [I [m [J|J]]]; [left|right; split; [exact I|exists m; exact J]]. inversion J; subst y k. unfold SaidModel.entry_said.
        apply smem_In in I. rewrite I. left. reflexivity. }
    rewrite X, NL. tauto.
  Qed.
  (** C98: a file of the archive that is neither ignored nor protected: the failure is reported exactly if the file is not there afterwards *)
  Theorem C98_failed o sd conf a w w' x m rules : no_dot_name a -> o_scripts o = false -> tree (w_fs w) -> read_rules_file conf = inl rules ->
    session (Add o sd conf a) w = (None, w') -> tidy a -> no_reject_area a ->
    In (x, m) a -> n_kind m <> KDir -> nodot x -> (exists cs, plain x cs) ->
    ~ verdict re INSTALL rules x false -> (o_upgrade o = true -> ~ verdict re UPGRADE rules x false) ->
    (In (CouldNot x) (session_said o sd conf a w) <-> fget (w_fs w') (R ++ comps x) <> Some m) /\ ~ In (Rejecting x) (session_said o sd conf a w).
  Proof.
    intros ND NS T Er E Ti NR Im Km Nd [cs Px] V1 V2.
    destruct (said_session o sd conf a w w' ND E T) as (rules' & kl & non & f & g & name & d3 & m3 & w5 & m5 & d & Er' & -> & KL & NL & Eg & Em & -> & P & _).
    rewrite Er in Er'. inversion Er'; subst rules'. clear Er'. destruct (P NS) as [Tf _].
    pose proof (plain_comps _ _ Px) as Cx. pose proof (own_plain root x cs Nd Px) as NO. rewrite <- Cx in NO.
    assert (Tg : tree g) by (rewrite Eg; apply install_tree, Tf).
    rewrite NS. rewrite (final_fs sh root Rs name (World g d3) m3 w5 m5 d _ Tg Em NO). cbn [w_fs]. rewrite Eg.
    destruct (reports_failure a kl non x m Ti NR Im Km) with (f := f) as (A & B & C); auto.
    - rewrite Cx. apply (plain_comp _ _ Px).
    - intro I. apply KL in I as (_ & _ & U & V). exact (V2 U V).
    - intro I. apply NL in I as (_ & V). exact (V1 V).
  Qed.
  (** C98: a protected regular file that exists: either the copy could not be written and that is said, or the archive's version is like the
      file and nothing is said and no copy is left, or it differs, that is said and the copy is there *)
  Theorem C98_rejected o sd conf a w w' x m n rules : no_dot_name a -> tree (w_fs w) -> read_rules_file conf = inl rules ->
    protected re o rules a (w_db w) x m -> fget (w_fs w) (R ++ comps x) = Some n -> n_kind n = KReg -> n_kind m = KReg ->
    session (Add o sd conf a) w = (None, w') ->
    let l := session_said o sd conf a w in let rej := R ++ reject_comps ++ comps x in
    fget (w_fs w') (R ++ comps x) = Some n /\
    ((In (CouldNot x) l /\ ~ In (Rejecting x) l /\ ~ (way_clear (w_fs w) rej /\ ~ dir_at (w_fs w) rej)) \/
     (alike m n /\ ~ In (CouldNot x) l /\ ~ In (Rejecting x) l /\ fget (w_fs w') rej = None) \/
     (~ alike m n /\ ~ In (CouldNot x) l /\ In (Rejecting x) l /\ fget (w_fs w') rej = Some m)).
  Proof.
    intros ND T Er Pr G Kn Km E. cbv zeta. split.
    { eapply C07_protected_kept; eauto. rewrite Kn. discriminate. }
    destruct (said_session o sd conf a w w' ND E T) as (rules' & kl & non & f & g & name & d3 & m3 & w5 & m5 & d & Er' & -> & KL & NL & Eg & Em & -> & P & P').
    rewrite Er in Er'. inversion Er'; subst rules'. clear Er'.
    assert (NS : o_scripts o = false) by (destruct Pr as (_ & Z & _); exact Z).
    destruct (P NS) as [Tf Sf]. pose proof (P' NS x m n Pr G) as Gf. clear P P'.
    destruct Pr as (U & _ & Ti & NR & Sx & [cs Px] & Exl & Im & Km' & Sp & V1 & V2).
    assert (Tg : tree g) by (rewrite Eg; apply install_tree, Tf).
    assert (NO : ~ where_own root (R ++ reject_comps ++ comps x)).
    { intros [[q [I Z]]|[q [I Z]]].
      - apply (f_equal (@List.length str)) in Z. rewrite !app_length in Z. cbn [reject_comps List.length] in Z. lia.
      - apply app_inv_head in Z. discriminate. }
    rewrite NS. rewrite (final_fs sh root Rs name (World g d3) m3 w5 m5 d _ Tg Em NO). cbn [w_fs]. rewrite Eg.
    destruct (reports_rejects a kl non x m n Ti NR Im (plain_nonempty _ _ Px) (ends_no _ Exl)) with (f := f) as (_ & H); auto.
    - rewrite (plain_comps _ _ Px). apply (plain_comp _ _ Px).
    - apply KL. auto.
    - intro I. apply NL in I as [_ V]. pose proof (verdict_det _ _ _ _ _ _ V1 V). discriminate.
    - destruct H as [(A & B & C)|H]; [left|right; exact H]. split; [exact A|]. split; [exact B|]. intros [W D]. apply C. split.
      + eapply way_sub; [exact Sf|exact W].
      + intros [z [Z1 Z2]]. apply D. exists z. split; [|exact Z2]. destruct (Sf (R ++ reject_comps ++ comps x)); congruence.
  Qed.
  (** C98: only a protected file of an upgrade is ever said to be rejected *)
  Theorem C98_rejects_only o sd conf a w w' rules x : no_dot_name a -> tree (w_fs w) -> session (Add o sd conf a) w = (None, w') -> read_rules_file conf = inl rules ->
    In (Rejecting x) (session_said o sd conf a w) ->
    o_upgrade o = true /\ ships a x /\ verdict re INSTALL rules x true /\ verdict re UPGRADE rules x false.
  Proof.
    intros ND T E Er. destruct (said_session o sd conf a w w' ND E T) as (rules' & kl & non & f & g & name & d3 & m3 & w5 & m5 & d & Er' & -> & KL & NL & _).
    rewrite Er in Er'. inversion Er'; subst rules'. clear Er'. intro I. enough (In x kl) as J by (apply KL in J; tauto).
    clear - I. revert f I. induction a as [|[y k] b IH]; intros f I; [destruct I|]. cbn [SaidModel.install_said] in I. apply in_app_iff in I as [I|I]; [|exact (IH _ I)].
    pose proof (entry_about _ _ _ _ _ I) as A. cbn [about fst] in A. subst y.
    unfold SaidModel.entry_said in I. destruct (smem x non) eqn:S; [destruct I as [I|[]]; discriminate|].
    destruct (smem x kl) eqn:K; [apply smem_In, K|]. rewrite andb_false_r, seqb_refl in I.
    destruct (extract _ _ _) as [[|] z]; [destruct I|destruct I as [I|[]]; discriminate].
  Qed.
  (** C98: at most one line for every entry, in the order of the archive; whether the run succeeds or not *)
  Theorem C98_order o sd conf a w : picks (map about (session_said o sd conf a w)) (map fst a).
  Proof.
    assert (Z : picks [] (map fst a)) by (clear; induction (map fst a); constructor; auto).
    unfold SaidModel.session_said. cbn [w_db]. destruct (load junk (w_db w)) as [m| |]; [|exact Z|exact Z]. unfold add_said.
    destruct (open_archive junk machine root a) as [[nm info]| |]; [|exact Z|exact Z].
    destruct (read_rules_file conf) as [rules|]; [|exact Z]. cbv zeta.
    destruct (_ && _); [exact Z|]. destruct (_ && _); [exact Z|]. destruct (apply_install_rules _ _ _) as [[[ins non] post]|]; [|exact Z].
    destruct (if o_scripts o then _ else _) as [w1|w1]; [exact Z|].
    match goal with |- context [match ?x with inl _ => [] | inr _ => _ end] => destruct x as [e|[w2 m2]]; [exact Z|] end.
    match goal with |- context [match ?x with Some _ => _ | None => [] end] => destruct x as [[[w3 m3] kl]|]; [|exact Z] end.
    apply said_picks.
  Qed.
  (** C98: a run that is refused says nothing about single files in these ways *)
  Theorem C98_refused o sd conf a w w' e : session (Add o sd conf a) w = (Some e, w') -> e <> Exception -> e <> Undefined -> session_said o sd conf a w = [].
  Proof.
    unfold DbModel.session, SaidModel.session_said. cbn [w_db]. destruct (load junk (w_db w)) as [m| |]; [|reflexivity|reflexivity].
    unfold add_said, add_run.
    destruct (open_archive junk machine root a) as [[nm info]| |]; [|reflexivity|reflexivity].
    destruct (read_rules_file conf) as [rules|]; [|reflexivity]. cbv zeta.
    destruct (_ && negb _); [reflexivity|]. destruct (_ && o_upgrade o); [reflexivity|]. destruct (apply_install_rules _ _ _) as [[[ins non] post]|]; [|reflexivity].
    destruct (if o_scripts o then _ else _) as [w1|w1]; [reflexivity|].
    match goal with |- context [match ?x with inl _ => [] | inr _ => _ end] => destruct x as [e1|[w2 m2]]; [reflexivity|] end.
    destruct (o_upgrade o).
    - destruct (get_keep_list re rules ins) as [kl|]; [|reflexivity].
      destruct (remove_refs junk nm (remove_files root nm kl (w2, mark_auto junk nm m2))) as [[w3 m3]|]; [|reflexivity].
      match goal with |- context [match move_meta ?a ?b ?c with Ok _ => _ | Throw => _ | UB => _ end] => destruct (move_meta a b c) as [[w5 m5]| |] end.
      + destruct (add_files_refs _ _ _) as [w6 m6]. cbn [finish]. intro H. inversion H.
      + cbn [finish]. intros H N1 N2. inversion H; subst. congruence.
      + cbn [finish]. intros H N1 N2. inversion H; subst. congruence.
    - match goal with |- context [match move_meta ?a ?b ?c with Ok _ => _ | Throw => _ | UB => _ end] => destruct (move_meta a b c) as [[w5 m5]| |] end.
      + destruct (add_files_refs _ _ _) as [w6 m6]. cbn [finish]. intro H. inversion H.
      + cbn [finish]. intros H N1 N2. inversion H; subst. congruence.
      + cbn [finish]. intros H N1 N2. inversion H; subst. congruence.
  Qed.
End SaidProps.

(** *** concrete cases *)
Definition odd : archive := pkg [L "Nodd"; L "V1"; L "ax86_64"; L "r1"]
  [(L "etc/", dirn); (L "etc/motd", reg (L "hello")); (L "opt/x", reg (L "x")); (L "usr/y", reg (L "y"))].
Definition odd_conf : str := L "INSTALL etc/motd NO" ++ [nl].
(** a plain file is in the place of the directory opt *)
Definition w_odd : world := World [([], dirn); ([L "opt"], reg (L "file"))] [].
Example C98_witness : no_dot_name odd /\ tree (w_fs w_odd) /\ tidy odd /\ no_reject_area odd /\
  fst (ses (Add simple false (Some odd_conf) odd) w_odd) = None /\
  session_said false mach pfx quiet rt simple false (Some odd_conf) odd w_odd = [Ignoring (L "etc/motd"); CouldNot (L "opt/x")] /\
  fget (w_fs (snd (ses (Add simple false (Some odd_conf) odd) w_odd))) [L "usr"; L "y"] = Some (reg (L "y")).
Proof.
  split; [no_dot|]. split; [apply treeb_tree; vm_compute; reflexivity|]. split; [apply tidyb_tidy; vm_compute; reflexivity|].
  split; [apply norejb_spec; vm_compute; reflexivity|]. split; [|split]; vm_compute; reflexivity.
Qed.
(** the upgrade of C07_witness *)
Example C98_witness_rejected : session_said false mach pfx quiet rt upgr false (Some keep_conf) foo2 w_foo = [Rejecting tool].
Proof. vm_compute. reflexivity. Qed.
(** and the files it did not say anything about: the record of the package lists the file that could not be installed *)
Theorem C98_listed_refuted : In (CouldNot (L "opt/x")) (session_said false mach pfx quiet rt simple false (Some odd_conf) odd w_odd) /\
  fst (ses (Add simple false (Some odd_conf) odd) w_odd) = None /\
  files_of (w_db (snd (ses (Add simple false (Some odd_conf) odd) w_odd))) (L "odd") = Some [L "etc/"; L "opt/x"; L "usr/y"].
Proof. split; [vm_compute; tauto|]. split; vm_compute; reflexivity. Qed.
Print Assumptions C98_ignored.
Print Assumptions C98_failed.
Print Assumptions C98_rejected.
Print Assumptions C98_rejects_only.
Print Assumptions C98_order.
Print Assumptions C98_refused.
