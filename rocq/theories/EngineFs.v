(** What the phases of the engine do to the payload file system. *)
From Verif Require Import Base BaseProofs StrModel StrSpec StrProofs RulesModel FsModel FsSpec FsProofs FsOps FsExtract
  MetaModel MetaSpec MetaProofs DbModel DbLoad DbOps DbRun.

Definition reject_comps : path := [L "var"; L "lib"; L "pkg"; L "rejected"].
(** neither path is the other or an ancestor of it *)
Definition apart (p q : path) : Prop := ~ prefix_of p q /\ ~ prefix_of q p.

Lemma comps_cons_slash s : comps (slash :: s) = comps s.
Proof. change (slash :: s) with ([slash] ++ s). rewrite comps_app by (right; reflexivity). reflexivity. Qed.
Lemma comps_abs root : comps (abs_root root) = comps root.
Proof. unfold abs_root. rewrite comps_cons_slash. apply comps_join, comps_comp. Qed.
Lemma comps_slashed a x : comps (a ++ L "/" ++ x) = comps a ++ comps x.
Proof.
  rewrite app_assoc, comps_app; [|right; apply ends_slash_spec; exists a; reflexivity].
  change (L "/") with [slash]. rewrite comps_snoc_slash. reflexivity.
Qed.
Lemma comps_orig root x : comps (orig_name root x) = comps root ++ comps x.
Proof. unfold orig_name. rewrite comps_trim, comps_slashed, comps_abs. reflexivity. Qed.
Lemma comps_reject_dir root : comps (reject_dir root) = comps root ++ reject_comps.
Proof. unfold reject_dir. rewrite comps_trim, comps_slashed, comps_abs. reflexivity. Qed.
Lemma comps_rejected root x : comps (rejected_name root x) = comps root ++ reject_comps ++ comps x.
Proof. unfold rejected_name. rewrite comps_trim, comps_slashed, comps_reject_dir, <- app_assoc. reflexivity. Qed.

Lemma orig_ends root x : x <> [] -> ends_slash (orig_name root x) = ends_slash x.
Proof. intro N. unfold orig_name. rewrite trim_squeeze, squeeze_ends. rewrite !ends_slash_app; auto. destruct x; cbn; congruence. Qed.
Lemma exists_orig root f x : x <> [] -> ends_slash x = false -> exists_file f (orig_name root x) = match fget f (comps root ++ comps x) with Some _ => true | None => false end.
Proof.
  intros N E. unfold exists_file, lstat. rewrite comps_orig, orig_ends, E by auto.
  destruct (fget f (comps root ++ comps x)); reflexivity.
Qed.

(** ** removeFile in the rejected area stops at the rejected directory *)
Lemma chop_snoc_slash p : chop_slashes (p ++ [slash]) = chop_slashes p.
Proof. unfold chop_slashes. rewrite rev_app_distr. reflexivity. Qed.
Lemma dirname_snoc_slash p : clean_base p -> dirname (p ++ [slash]) = dirname p.
Proof.
  intros [t [c [-> N]]]. unfold dirname. rewrite chop_snoc_slash, chop_nonslash by auto.
  destruct (t ++ [c]) eqn:E; [destruct t; discriminate|]. reflexivity.
Qed.
Lemma rm_snoc_slash f p : clean_base p -> rm f (p ++ [slash]) = (false, f) \/ rm f (p ++ [slash]) = rm f p.
Proof.
  intro C. unfold rm, lstat. rewrite comps_snoc_slash.
  assert (E1 : ends_slash (p ++ [slash]) = true) by (apply ends_slash_spec; eauto).
  assert (E2 : ends_slash p = false) by (apply ends_slash_clean, C).
  assert (E3 : last_is_dot (p ++ [slash]) = last_is_dot p) by (unfold last_is_dot; rewrite split_snoc_slash; reflexivity).
  rewrite E1, E2, E3. destruct (fget f (comps p)) as [n|]; [|auto]. cbn [andb]. destruct (is_dir n) eqn:D; cbn [negb]; auto.
  rewrite D. auto.
Qed.
Lemma remove_file_gen_slash k f base p : clean_base p -> length base <= length p ->
  remove_file (S k) f base (p ++ [slash]) = Some f \/ p = base \/ remove_file (S k) f base (p ++ [slash]) = remove_file (S k) f base p.
Proof.
  intros C Le. cbn [remove_file].
  assert (seqb (p ++ [slash]) base = false) as ->.
  { apply seqb_neq. intro E. apply (f_equal (@List.length ascii)) in E. rewrite app_length in E. cbn in E. lia. }
  destruct (seqb_spec p base) as [->|N]; [auto|].
  destruct (rm_snoc_slash f p C) as [E|E]; [left; rewrite E; reflexivity|]. right. right. rewrite E.
  destruct (rm f p) as [[|] g]; [|reflexivity]. rewrite dirname_snoc_slash by auto. reflexivity.
Qed.
Lemma no_double_app a b : ~ occurs [slash; slash] a -> ~ occurs [slash; slash] b ->
  (ends_slash a = false \/ hd zero b <> slash) -> ~ occurs [slash; slash] (a ++ b).
Proof.
  intros A B H [u [v E]]. apply app_eq_app in E as [l [[E1 E2]|[E1 E2]]]; cbn [app] in E2.
  - (* u shorter than a *) subst a. destruct l as [|c [|d l]].
    + apply B. cbn in E2. exists [], v. exact (eq_sym E2).
    + cbn in E2. inversion E2; subst. destruct H as [H|H]; [|apply H; reflexivity].

      rewrite (proj2 (ends_slash_spec _)) in H; [discriminate|eauto].
    + cbn in E2. inversion E2; subst. apply A. exists u, l. reflexivity.
  - apply B. exists l, v. exact E2.
Qed.
Lemma no_double_join cs : Forall comp cs -> ~ occurs [slash; slash] (join slash cs) /\ hd zero (join slash cs) <> slash.
Proof.
  induction cs as [|c cs IH]; intro F; [split; [intros [[|] [v E]]; discriminate | discriminate]|].
  inversion F as [|? ? [C1 [C2 C3]] F2]; subst. destruct (IH F2) as [I1 I2].
  assert (NC : ~ occurs [slash; slash] c) by (intros [u [v E]]; apply C2; rewrite E; apply in_app_iff; right; left; reflexivity).
  assert (HC : hd zero c <> slash) by (destruct c as [|y c]; [congruence|]; cbn; intros ->; apply C2; left; reflexivity).
  destruct cs as [|d cs]; [split; auto|]. cbn [join] in *. split.
  - change (slash :: join slash (d :: cs)) with ([slash] ++ join slash (d :: cs)).
    apply no_double_app; auto.
    + apply (no_double_app [slash]); [|exact I1|right; exact I2]. intros [[|? [|]] [v E]]; cbn in E; try discriminate E.
    + left. destruct (ends_slash c) eqn:E; auto. apply ends_slash_spec in E as [t ->]. exfalso. apply C2. apply in_app_iff. right. left. reflexivity.
  - destruct c as [|y c]; [congruence|]. exact HC.
Qed.
Lemma reject_dir_clean root : clean_base (reject_dir root).
Proof.
  unfold reject_dir. rewrite trim_squeeze. set (s := abs_root root ++ L "/" ++ L "var/lib/pkg/rejected").
  assert (E : exists t, s = t ++ ["d"%char]).
  { exists (abs_root root ++ L "/" ++ L "var/lib/pkg/rejecte"). unfold s. rewrite <- !app_assoc. reflexivity. }
  destruct E as [t E]. destruct (exists_last (l := squeeze s)) as [u [c U]].
  { rewrite E. destruct t as [|x t]; cbn [app]; [discriminate|]. destruct (squeeze_head x (t ++ ["d"%char])) as [v ->]. discriminate. }
  rewrite U. exists u, c. split; auto. intros ->. pose proof (squeeze_ends s) as X. rewrite U, E in X.
  rewrite (proj2 (ends_slash_spec (u ++ [slash]))) in X by eauto. symmetry in X. apply ends_slash_spec in X as [v X].
  apply app_inj_tail in X as [_ X]. discriminate.
Qed.
Lemma rejected_under root x cs : plain x cs -> rejected_name root x = under (reject_dir root) cs \/
   rejected_name root x = under (reject_dir root) cs ++ [slash].
Proof.
  intro P. unfold rejected_name. rewrite trim_squeeze.
  assert (ND : ~ occurs [slash; slash] (reject_dir root)) by (unfold reject_dir; rewrite trim_squeeze; apply squeeze_no_double).
  assert (ES : ends_slash (reject_dir root) = false) by apply ends_slash_clean, reject_dir_clean.
  destruct (plain_comp _ _ P) as [F N]. destruct (no_double_join cs F) as [J1 J2].
  assert (K : ~ occurs [slash; slash] (L "/" ++ join slash cs)).
  { apply no_double_app; auto. intros [[|? [|]] [v E]]; cbn in E; discriminate E. }
  assert (U : ~ occurs [slash; slash] (under (reject_dir root) cs)).
  { unfold under. change (slash :: join slash cs) with (L "/" ++ join slash cs). apply no_double_app; auto. }
  destruct P as [cs N' F'|cs N' F'].
  - left. rewrite squeeze_none; [reflexivity|exact U].
  - right. replace (reject_dir root ++ L "/" ++ join slash cs ++ [slash]) with (under (reject_dir root) cs ++ [slash])
      by (unfold under; rewrite <- app_assoc; reflexivity).
    apply squeeze_none. apply no_double_app; auto.
    + intros [[|? [|]] [v E]]; cbn in E; discriminate E.
    + left. apply ends_slash_clean, clean_under; auto.
Qed.
Lemma remove_rejected root f x cs : plain x cs -> tree f -> forall q, fget (removeFile f (reject_dir root) (rejected_name root x)) q = fget f q \/
  (fget (removeFile f (reject_dir root) (rejected_name root x)) q = None /\ exists ds es, ds <> [] /\ cs = ds ++ es /\ q = comps root ++ reject_comps ++ ds).
Proof.
  intros P T q. destruct (plain_comp _ _ P) as [F N]. pose proof (reject_dir_clean root) as CB.
  assert (G : forall k g, (length cs < k) -> remove_file k f (reject_dir root) (rejected_name root x) = Some g -> fget g q = fget f q \/
     (fget g q = None /\ exists ds es, ds <> [] /\ cs = ds ++ es /\ q = comps root ++ reject_comps ++ ds)).
  { intros k g K E. destruct (removeFile_under_gen (reject_dir root) CB cs N F k f T K) as [h [H1 [_ [H2 _]]]].
    rewrite comps_reject_dir in H2. destruct k as [|k]; [lia|].
    assert (X : g = f \/ g = h).
    { destruct (rejected_under root x cs P) as [U|U]; rewrite U in E; [right; congruence|].
      destruct (remove_file_gen_slash k f (reject_dir root) (under (reject_dir root) cs)) as [Z|[Z|Z]].
      - apply clean_under; auto.
      - unfold under. rewrite app_length. lia.
      - left. congruence.
      - exfalso. exact (under_neq_base _ _ Z).
      - right. congruence. }
    destruct X as [->| ->]; auto. destruct (H2 q) as [Z|[Z [ds [es [D1 [D2 D3]]]]]]; auto. right. split; auto. exists ds, es.
    rewrite <- app_assoc in D3. auto. }
  destruct (removeFile_total f (reject_dir root) (rejected_name root x) T) as [g [E1 E2]]. rewrite <- E2. apply (G _ _) in E1; auto.
  pose proof (join_length cs F). destruct (rejected_under root x cs P) as [-> | ->]; unfold under; rewrite ?app_length; cbn [List.length]; rewrite ?app_length; cbn [List.length]; lia.
Qed.

Section Install.
  Variable root : str.
  Let R := comps root.

  Lemma install_entry_cases keep non f x n : let g := install_entry root keep non f (x, n) in
    g = f \/ ((exists_file f (orig_name root x) = false \/ ~ In x keep) /\ exists b, extract f (orig_name root x) n = (b, g)) \/
    (In x keep /\ exists_file f (orig_name root x) = true /\ exists b g1, extract f (rejected_name root x) n = (b, g1) /\
      (g = g1 \/ (b = true /\ g = removeFile g1 (reject_dir root) (rejected_name root x)))).
  Proof.
    cbv zeta. unfold install_entry. destruct (smem x non); [left; reflexivity|]. cbv zeta.
    destruct (exists_file f (orig_name root x) && smem x keep) eqn:EX.
    - apply andb_true_iff in EX as [EX K].
      right. right. apply smem_In in K. split; [exact K|]. split; [exact EX|].
      destruct (extract f (rejected_name root x) n) as [b g1] eqn:E. exists b, g1. split; [reflexivity|].
      destruct b; [|auto]. destruct (seqb (rejected_name root x) (orig_name root x)); [auto|].
      match goal with |- context [if ?c then removeFile _ _ _ else _] => destruct c end; auto.
    - right. left. split.
      + apply andb_false_iff in EX as [EX|EX]; [auto|right; apply smem_nIn, EX].
      + destruct (extract f (orig_name root x) n) as [b g] eqn:E. rewrite seqb_refl. exists b. destruct b; reflexivity.
  Qed.
  Lemma install_entry_tree keep non f e : tree f -> tree (install_entry root keep non f e).
  Proof.
    intro T. destruct e as [x n]. destruct (install_entry_cases keep non f x n) as [->|[[_ [b E]]|[_ [_ [b [g1 [E H]]]]]]]; auto.
    - eapply extract_tree; eauto.
    - pose proof (extract_tree _ _ _ _ _ T E) as T1. destruct H as [->|[_ ->]]; auto. apply removeFile_gen, T1.
  Qed.
  Lemma install_cons e a keep non f : install_archive root (e :: a) keep non f = install_archive root a keep non (install_entry root keep non f e).
  Proof. reflexivity. Qed.
  Lemma install_nil keep non f : install_archive root [] keep non f = f. Proof. reflexivity. Qed.
  Lemma install_tree a keep non : forall f, tree f -> tree (install_archive root a keep non f).
  Proof. induction a as [|e a IH]; intros f T; [exact T|]. rewrite install_cons. apply IH, install_entry_tree, T. Qed.

  (** a file (not a directory) stays as it is unless the entry goes to its path, or below it, or its rejected copy does *)
  Lemma install_entry_file keep non f x n q o : tree f -> fget f q = Some o -> n_kind o <> KDir ->
    ((In x keep /\ q = R ++ comps x /\ x <> [] /\ ends_slash x = false) \/ (q <> R ++ comps x /\ ~ below q (R ++ comps x))) ->
    q <> R ++ reject_comps ++ comps x -> ~ below q (R ++ reject_comps ++ comps x) ->
    fget (install_entry root keep non f (x, n)) q = Some o.
  Proof.
    intros T G K H NJ BJ. destruct (install_entry_cases keep non f x n) as [->|[[W [b E]]|[_ [_ [b [g1 [E X]]]]]]]; auto.
    - destruct H as [[I [P [NE ES]]]|[N1 N2]].
      + exfalso. destruct W as [W|W]; [|auto]. rewrite exists_orig in W by auto. fold R in W. rewrite P in G. rewrite G in W. discriminate.
      + pose proof (extract_spec _ _ _ _ _ T E) as [_ [F1 _]]. rewrite comps_orig in F1. fold R in F1. rewrite F1; auto.
    - pose proof (extract_spec _ _ _ _ _ T E) as [_ [F1 _]]. rewrite comps_rejected in F1. fold R in F1.
      assert (G1 : fget g1 q = Some o) by (rewrite F1; auto).
      destruct X as [->|[_ ->]]; auto. pose proof (extract_tree _ _ _ _ _ T E) as T1.
      destruct (removeFile_gen g1 (reject_dir root) (rejected_name root x) T1) as [_ RF].
      destruct (RF q) as [->|[_ [_ [_ [Z|[m [Z1 Z2]]]]]]]; auto.
      + rewrite comps_rejected in Z. fold R in Z. contradiction.
      + congruence.
  Qed.
  Lemma install_file a keep non q o : forall f, tree f -> fget f q = Some o -> n_kind o <> KDir ->
    (forall x n, In (x, n) a ->
      ((In x keep /\ q = R ++ comps x /\ x <> [] /\ ends_slash x = false) \/ (q <> R ++ comps x /\ ~ below q (R ++ comps x))) /\
      q <> R ++ reject_comps ++ comps x /\ ~ below q (R ++ reject_comps ++ comps x)) ->
    fget (install_archive root a keep non f) q = Some o.
  Proof.
    induction a as [|[x n] a IH]; intros f T G K H; [exact G|]. rewrite install_cons. apply IH; auto.
    - apply install_entry_tree, T.
    - destruct (H x n (or_introl eq_refl)) as [H1 [H2 H3]]. apply install_entry_file; auto.
    - intros y m I. apply (H y m). cbn. auto.
  Qed.

  (** what is away from the entry and the rejected area is untouched, directories included *)
  Lemma install_entry_frame keep non f x n q : tree f ->
    q <> R ++ comps x -> ~ below q (R ++ comps x) -> ~ prefix_of q (R ++ reject_comps ++ comps x) ->
    fget (install_entry root keep non f (x, n)) q = fget f q.
  Proof.
    intros T N1 N2 NJ. assert (B : ~ below q (R ++ reject_comps ++ comps x)) by (intros [r [_ Z]]; apply NJ; exists r; auto).
    assert (NQ : q <> R ++ reject_comps ++ comps x) by (intro Z; apply NJ; exists []; rewrite app_nil_r; auto).
    destruct (install_entry_cases keep non f x n) as [->|[[W [b E]]|[_ [_ [b [g1 [E X]]]]]]]; auto.
    - pose proof (extract_spec _ _ _ _ _ T E) as [_ [F1 _]]. rewrite comps_orig in F1. auto.
    - pose proof (extract_spec _ _ _ _ _ T E) as [_ [F1 _]]. rewrite comps_rejected in F1.
      assert (G1 : fget g1 q = fget f q) by (rewrite F1; auto).
      destruct X as [->|[_ ->]]; auto. pose proof (extract_tree _ _ _ _ _ T E) as T1.
      destruct (removeFile_gen g1 (reject_dir root) (rejected_name root x) T1) as [_ RF].
      destruct (RF q) as [->|[_ [Z _]]]; auto. rewrite comps_rejected in Z. contradiction.
  Qed.
  Lemma install_frame a keep non q : forall f, tree f ->
    (forall x n, In (x, n) a -> q <> R ++ comps x /\ ~ below q (R ++ comps x) /\ ~ prefix_of q (R ++ reject_comps ++ comps x)) ->
    fget (install_archive root a keep non f) q = fget f q.
  Proof.
    induction a as [|[x n] a IH]; intros f T H; [reflexivity|]. rewrite install_cons, IH.
    - destruct (H x n (or_introl eq_refl)) as [H1 [H2 H3]]. apply install_entry_frame; auto.
    - apply install_entry_tree, T.
    - intros y m I. apply (H y m). cbn. auto.
  Qed.
  (** nothing outside the rejected area disappears *)
  Lemma install_entry_present keep non f x n q : tree f -> ~ prefix_of q (R ++ reject_comps ++ comps x) ->
    fget f q <> None -> fget (install_entry root keep non f (x, n)) q <> None.
  Proof.
    intros T NJ G. destruct (install_entry_cases keep non f x n) as [->|[[W [b E]]|[_ [_ [b [g1 [E X]]]]]]]; auto.
    - eapply extract_present; eauto.
    - pose proof (extract_present _ _ _ _ _ q T E G) as G1.
      destruct X as [->|[_ ->]]; auto. pose proof (extract_tree _ _ _ _ _ T E) as T1.
      destruct (removeFile_gen g1 (reject_dir root) (rejected_name root x) T1) as [_ RF].
      destruct (RF q) as [->|[_ [Z _]]]; auto. rewrite comps_rejected in Z. contradiction.
  Qed.
  Lemma install_present a keep non q : forall f, tree f -> (forall x n, In (x, n) a -> ~ prefix_of q (R ++ reject_comps ++ comps x)) ->
    fget f q <> None -> fget (install_archive root a keep non f) q <> None.
  Proof.
    induction a as [|[x n] a IH]; intros f T H G; [exact G|]. rewrite install_cons. apply IH.
    - apply install_entry_tree, T.
    - intros y m I. apply (H y m). cbn. auto.
    - apply install_entry_present; auto. apply (H x n). cbn. auto.
  Qed.
End Install.

(** ** Other phases *)
Lemma removeFile_single f base c : tree f -> comp c -> forall q, q <> [c] -> fget (removeFile f base (slash :: c)) q = fget f q.
Proof.
  intros T C q N. destruct (removeFile_gen f base (slash :: c) T) as [_ RF]. destruct (RF q) as [->|[_ [[r Z] [Nq _]]]]; auto.
  exfalso. rewrite comps_cons_slash in Z. change c with (join slash [c]) in Z. rewrite comps_join in Z by (constructor; auto).
  destruct q as [|x [|y q]]; [congruence| |discriminate]. inversion Z; subst. apply N. reflexivity.
Qed.
Definition meta_comps : list path := [[L ".INFO"]; [L ".META"]; [L ".PRE"]; [L ".POST"]; [L ".MTREE"]; [L ".README"]].
Lemma literal_comp (s : string) : L s <> [] -> forallb (fun c => negb (ceqb c slash)) (L s) = true -> seqb (L s) (L ".") = false -> comp (L s).
Proof.
  intros A B C. split; auto. split; [|apply seqb_neq, C]. intro I. rewrite forallb_forall in B. specialize (B slash I). discriminate.
Qed.
Ltac lit := apply literal_comp; [discriminate|reflexivity|reflexivity].
Lemma cleanup_spec f base : tree f -> tree (cleanup_meta f base) /\ (forall q, ~ In q meta_comps -> fget (cleanup_meta f base) q = fget f q).
Proof.
  intro T. unfold cleanup_meta.
  assert (G : forall ms f, Forall (fun m => exists c, m = slash :: c /\ comp c /\ In [c] meta_comps) ms -> tree f ->
    let g := fold_left (fun f m => if exists_file f (base ++ m) then removeFile f base m else f) ms f in
    tree g /\ forall q, ~ In q meta_comps -> fget g q = fget f q).
  { clear f T. induction ms as [|m ms IH]; intros f F T; cbn [fold_left]; [auto|].
    inversion F as [|? ? [c [-> [C I]]] F2]; subst.
    assert (T1 : tree (if exists_file f (base ++ slash :: c) then removeFile f base (slash :: c) else f)).
    { destruct (exists_file f (base ++ slash :: c)); auto. apply removeFile_gen, T. }
    destruct (IH _ F2 T1) as [A B]. split; [exact A|]. intros q N. rewrite B by auto.
    destruct (exists_file f (base ++ slash :: c)); auto. apply removeFile_single; auto. intros ->. contradiction. }
  apply G; auto. unfold meta_files, meta_comps.
  constructor; [exists (L ".INFO"); split; [reflexivity|split; [lit|]]; left; reflexivity|].
  constructor; [exists (L ".META"); split; [reflexivity|split; [lit|]]; right; left; reflexivity|].
  constructor; [exists (L ".PRE"); split; [reflexivity|split; [lit|]]; right; right; left; reflexivity|].
  constructor; [exists (L ".POST"); split; [reflexivity|split; [lit|]]; right; right; right; left; reflexivity|].
  constructor; [exists (L ".MTREE"); split; [reflexivity|split; [lit|]]; right; right; right; right; left; reflexivity|].
  constructor; [exists (L ".README"); split; [reflexivity|split; [lit|]]; right; right; right; right; right; left; reflexivity|].
  constructor.
Qed.
Section Phases.
  Variables (sh : str -> fs -> fs * bool) (root : str).
  Hypothesis Rs : ends_slash root = true.
  Let R := comps root.
  Lemma comps_root_lit (s : string) : comp (L s) -> comps (root ++ L s) = R ++ [L s].
  Proof. intro C. rewrite comps_app by auto. f_equal. change (L s) with (join slash [L s]) at 1. apply comps_join. constructor; auto. Qed.
  Lemma post_run_frame w q :
    q <> R ++ [L ".PRE"] -> q <> R ++ [L ".POST"] -> fget (w_fs (post_run sh root false w)) q = fget (w_fs w) q.
  Proof.
    intros N1 N2. unfold post_run. cbn [w_fs].
    assert (A : forall f, fget (if exists_file f (pre_path root) then snd (rm f (pre_path root)) else f) q = fget f q).
    { intro f. destruct (exists_file f (pre_path root)); auto. apply rm_frame. unfold pre_path. rewrite comps_root_lit by lit. auto. }
    set (f1 := if exists_file (w_fs w) (pre_path root) then _ else _). rewrite <- (A (w_fs w)). fold f1. clearbody f1.
    destruct (exists_file f1 (post_path root)); auto. apply rm_frame. unfold post_path. rewrite comps_root_lit by lit. auto.
  Qed.
  Lemma move_one_fs name x w q : q <> comps (root ++ x) -> fget (w_fs (move_one root name x w)) q = fget (w_fs w) q.
  Proof. intro N. unfold move_one. destruct (fget (w_fs w) (comps (root ++ x))); auto. cbn. apply fget_fdel_other, N. Qed.
  Lemma move_meta_fs name w m w' m' q : tree (w_fs w) -> move_meta root name (w, m) = Ok (w', m') ->
    q <> R ++ [L ".META"] -> q <> R ++ [L ".POSTR"] -> q <> R ++ [L ".PRER"] -> q <> [L ".MTREE"] ->
    fget (w_fs w') q = fget (w_fs w) q.
  Proof.
    intros T E N1 N2 N3 N4. unfold move_meta in E. set (f0 := removeFile (w_fs w) root (L "/.MTREE")) in E.
    assert (F0 : fget f0 q = fget (w_fs w) q).
    { unfold f0. apply (removeFile_single (w_fs w) root (L ".MTREE")); auto. lit. }
    clearbody f0. destruct (fget f0 (comps (root ++ L ".META"))) as [nd|]; [|discriminate].
    destruct (is_dir nd); [discriminate|]. destruct (parse_set (n_data nd)) as [ls|]; [|discriminate].
    cbv zeta in E. match type of E with context [fold_left ?g ?l ?w0] => set (wf := fold_left g l w0) in E end.
    assert (H : fget (w_fs wf) q = fget f0 q).
    { unfold wf. change (fget f0 q) with (fget (w_fs (World f0 (w_db w))) q).
      assert (Fo : Forall (fun x => q <> comps (root ++ x)) (L ".META" :: (if exists_file f0 (root ++ L ".POSTR") then [L ".POSTR"] else [])
              ++ (if exists_file f0 (root ++ L ".PRER") then [L ".PRER"] else []))).
      { constructor; [rewrite comps_root_lit by lit; auto|]. apply Forall_app. split.
        - destruct (exists_file f0 (root ++ L ".POSTR")); constructor; [rewrite comps_root_lit by lit; auto|constructor].
        - destruct (exists_file f0 (root ++ L ".PRER")); constructor; [rewrite comps_root_lit by lit; auto|constructor]. }
      clear -Fo. revert Fo. generalize (World f0 (w_db w)).
      match goal with |- forall w0, Forall _ ?l -> _ => generalize l end.
      induction l as [|x l IH]; intros w0 F; cbn [fold_left]; auto. inversion F as [|? ? F1 F2]; subst.
      rewrite IH by auto. apply move_one_fs, F1. }
    clearbody wf. destruct (m_dep m); inversion E; subst; cbn [w_fs]; congruence.
  Qed.
End Phases.
