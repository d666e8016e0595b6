(** C95: neither 'cards install' nor 'cards upgrade' leaves a file behind that no package lists. *)
From Verif Require Import Base BaseProofs StrModel StrSpec StrProofs RulesModel RulesSpec RulesProofs FsModel FsSpec FsProofs FsOps FsExtract MetaModel MetaSpec MetaProofs
  DbModel DbSpec DbLoad DbOps DbRun DbInv EngineFs EngineWay DbFacts DbProps DbExamples RemoveProps AddRun AddProps UpgradeProps UpgradeExamples RootProps GenDeps GenDepsProofs GenDepsProps HexModel HexProps IndexModel FetchModel FetchProps FetchExamples
  ManyRun ManyMeta ManyFiles RemoveCmdProofs RemoveCmdExamples DiffModel DiffProps InstallModel InstallRun InstallProps InstallClosed InstallExamples UpCmdModel UpCmdProps UpCmdMore UpCmdExamples UpCmdFiles TransFiles TransExamples.
From Coq Require Import ZArith Lia.
Import DbInv.

(** ** specification *)
(** no file at [x]: nothing, or a directory *)
Definition no_file (f : fs) (p : path) : Prop := fget f p = None \/ dir_at f p.
(** what archive [b] holds for the path of [x], it holds under the name [x], and its file list names it *)
Definition declares (b : archive) (x : str) : Prop := (forall y k, In (y, k) b -> comps y = comps x -> y = x /\ ships b x) /\ one_name b x.

(** ** proofs *)
Section Orphans.
  Variables (junk : bool) (machine : str) (re : str -> str -> option bool) (sh : str -> fs -> fs * bool) (root : str).
  Hypothesis Rs : ends_slash root = true.
  Hypothesis R0 : comps root = [].
  Notation add_run := (add_run junk machine re sh root).
  Notation run_all := (run_all junk machine re sh root).
  Notation R := (comps root).
  Lemma sub_no_file f g p : (fget g p = fget f p \/ fget g p = None) -> no_file f p -> no_file g p.
  Proof. intros [E|E] H; [|left; exact E]. destruct H as [H|[nd [H K]]]; [left; congruence|right; exists nd; split; [congruence|exact K]]. Qed.
  Lemma extract_no_file f name k b g t : tree f -> extract f name k = (b, g) -> t <> comps name -> no_file f t -> no_file g t.
  Proof.
    intros T E N H. pose proof (extract_spec _ _ _ _ _ T E) as (S0 & S1 & S2 & _ & S4 & _). destruct H as [H|H].
    - destruct b; [|rewrite (S0 eq_refl); left; exact H]. destruct (belowb t (comps name)) eqn:B.
      + right. apply S4; [reflexivity|]. apply belowb_below, B.
      + left. rewrite S1; [exact H|exact N|]. intro Z. apply belowb_below in Z. congruence.
    - right. eapply dir_at_ext; [symmetry; apply S2; [exact N|exact H]|exact H].
  Qed.
  Lemma install_no_file a keep non t : (forall y k, In (y, k) a -> In y non \/ (t <> R ++ comps y /\ t <> R ++ reject_comps ++ comps y)) ->
    forall f, tree f -> no_file f t -> no_file (install_archive root a keep non f) t.
  Proof.
    induction a as [|[y k] a IH]; intros O f T H; [exact H|]. rewrite install_cons. apply IH; [intros z j J; apply (O z j); right; exact J|apply install_entry_tree, T|].
    destruct (O y k (or_introl eq_refl)) as [J|[N1 N2]]; [apply smem_In in J; unfold install_entry; rewrite J; exact H|].
    destruct (install_entry_cases root keep non f y k) as [->|[[_ [b E]]|[_ [_ [b [g1 [E X]]]]]]]; [exact H| |].
    - eapply extract_no_file; [exact T|exact E|rewrite comps_orig; exact N1|exact H].
    - assert (H1 : no_file g1 t) by (eapply extract_no_file; [exact T|exact E|rewrite comps_rejected; exact N2|exact H]). destruct X as [->|[_ ->]]; [exact H1|].
      pose proof (extract_tree _ _ _ _ _ T E) as T1. destruct (removeFile_gen g1 (reject_dir root) (rejected_name root y) T1) as [_ RF]. apply (sub_no_file g1); [|exact H1]. destruct (RF t) as [Z|[Z _]]; auto.
  Qed.
  (** one archive *)
  Lemma add_orphan o conf a w m name w' m' x : inv (w_db w) -> agree (w_db w) m -> o_scripts o = false -> tree (w_fs w) -> add_run o conf a w m = Ret name w' m' ->
    file_name x -> declares a x -> (lists (w_db w) name x -> o_upgrade o = true) -> (forall n, ~ lists (w_db w') n x) ->
    (exists n, lists (w_db w) n x) \/ no_file (w_fs w) (R ++ comps x) -> no_file (w_fs w') (R ++ comps x).
  Proof.
    intros I AG NS T E (Nd & [cs Px] & Es & [Ra Rb]) [D1 D2] Up No H.
    destruct (add_fs junk machine re sh root Rs o conf a w m name w' m' I AG NS T E) as (rules & ins & non & kl & l1 & l2 & An & _ & Ins & _ & Pt & _ & _ & _ & Li & T2 & F & Dl).
    assert (Nx : ~ In x ins) by (intro J; apply Li in J; exact (No _ J)).
    apply (sub_no_file (install_archive root a kl non (del_files root l2 (del_files root l1 (w_fs w))))); [left; apply F; rewrite (plain_comps _ _ Px); exact (own_plain root x cs Nd Px)|].
    apply install_no_file; [|exact T2|].
    - intros y k J. destruct (path_eq_dec (comps y) (comps x)) as [Ey|Ny].
      + left. destruct (D1 y k J Ey) as [-> Sx]. destruct (Pt x Sx) as [Z|Z]; [contradiction|exact Z].
      + right. split; intro Z; apply app_inv_head in Z; [congruence|]. apply Rb. exists (comps y). exact Z.
    - destruct H as [[h Lh]|H].
      + assert (Eh : h = name). { destruct (str_eq_dec h name) as [e|e]; [exact e|]. destruct (add_hand junk machine re sh root _ _ _ _ _ _ _ _ h x I AG E e Lh) as [Z|Z]; destruct (No _ Z). }
        subst h. pose proof (Dl x (Up Lh) Lh Nx (fun n _ => No n)) as J. rewrite (plain_comps _ _ Px). exact (del_files_one root Rs l2 (del_files root l1 (w_fs w)) x cs Px Es J).
      + eapply sub_no_file; [|exact H]. destruct (del_files_sub root Rs l2 (del_files root l1 (w_fs w)) (R ++ comps x)) as [-> | ->]; auto. apply del_files_sub, Rs.
  Qed.
  (** all of them *)
  Lemma run_orphan force conf l x : tidies l -> distinct l -> file_name x -> (forall sd a, In (sd, a) l -> declares a x) ->
    forall w m w' m', tidy_world w -> agree (w_db w) m -> run_all force false conf l w m = Ret tt w' m' ->
    (forall sd a n, In (sd, a) l -> archive_name a n -> lists (w_db w) n x -> name_exists m n = true) ->
    (exists n, lists (w_db w) n x) \/ no_file (w_fs w) (R ++ comps x) ->
    (exists n, lists (w_db w') n x) \/ no_file (w_fs w') (R ++ comps x).
  Proof.
    intros Ti D Fx. revert Ti D. induction l as [|[sd a] l IH]; intros Ti D De w m w' m' W AG E Kn H; cbn [DbModel.run_all] in E; [injection E as <- _; exact H|].
    destruct (add_run (Opts force (upgrade_flag junk machine root a m) false) conf a w (set_dep sd m)) as [nm w1 m1|e w1] eqn:Ea; [|discriminate E].
    destruct (Ti sd a (or_introl eq_refl)) as [nd' Ta]. pose proof (set_dep_agree _ sd m AG) as AG0.
    destruct (add_meta junk machine re sh root Rs R0 (Opts force (upgrade_flag junk machine root a m) false) conf a nd' w (set_dep sd m) nm w1 m1 Ta W AG0 eq_refl Ea) as (W1 & AG1 & An & _ & _ & Ne & _).
    destruct (add_step junk machine re sh root _ _ _ _ _ _ _ _ (w_inv _ W) AG0 Ea) as (_ & _ & Fr & _).
    assert (Dl : distinct l) by (intros u p v q z n Eq; apply (D ((sd, a) :: u) p v q z n); rewrite Eq; reflexivity).
    refine (IH (tidies_tl _ _ Ti) Dl (fun sd' a' J => De sd' a' (or_intror J)) w1 m1 w' m' W1 AG1 E _ _).
    - intros sd' a' n J An' Ln. assert (N : n <> nm) by (intros ->; exact (distinct_after _ [] (sd, a) l nm D eq_refl An sd' a' J An')).
      rewrite (Ne n N). assert (X : name_exists (set_dep sd m) n = name_exists m n) by (unfold name_exists; rewrite set_dep_alias; reflexivity). rewrite X.
      apply (Kn sd' a' n (or_intror J) An'). apply (proj1 (Fr n N)), Ln.
    - destruct (listed_dec_db (w_db w1) m1 x AG1) as [L1|L1]; [left; exact L1|right].
      refine (add_orphan (Opts force (upgrade_flag junk machine root a m) false) conf a w (set_dep sd m) nm w1 m1 x (w_inv _ W) AG0 eq_refl (w_tree _ W) Ea Fx (De sd a (or_introl eq_refl)) _ (fun n Z => L1 (ex_intro _ n Z)) H).
      intro Ln. cbn [o_upgrade]. unfold upgrade_flag. pose proof (Kn sd a nm (or_introl eq_refl) An Ln) as K.
      apply add_run_ret in Ea as (info & _ & _ & _ & _ & _ & _ & _ & _ & _ & _ & _ & _ & E1 & _). rewrite E1. exact K.
  Qed.
  Lemma loaded_exists w m n : load junk (w_db w) = Ok m -> nodot n -> mget n (w_db w) <> None -> name_exists m n = true.
  Proof. intros El Nd G. apply (name_exists_known junk (w_db w) m n El). exists n. auto. Qed.
  Lemma run_kn l w m x : tidies l -> load junk (w_db w) = Ok m -> forall sd a n, In (sd, a) l -> archive_name a n -> lists (w_db w) n x -> name_exists m n = true.
  Proof.
    intros Ti El sd a n J An (dir & c & G & _). apply (loaded_exists w m n El); [|congruence]. destruct (Ti sd a J) as [nd Ta]. intros v ->. exact (t_dot _ _ Ta v An).
  Qed.
End Orphans.

Section Install.
  Variables (junk : bool) (machine : str) (re : str -> str -> option bool) (sh : str -> fs -> fs * bool) (root : str).
  Variable url : str.
  Variable repo : list (str * ent).
  Variable sha : str -> str.
  Variable key : Type.
  Variable pem : str -> option key.
  Variable verify : key -> str -> str -> bool.
  Variable unpack : str -> option archive.
  Variable jb : Z.
  Variable arch : str -> apkg.
  Variables (fuel : nat) (host : disk) (force scripts : bool) (conf : option str) (requests : list request) (groups : list str) (s : fstate) (w : world).
  Notation cards_install := (cards_install junk machine re sh root url repo sha key pem verify unpack jb fuel host force scripts conf requests groups s w).
  Notation certified := (certified repo sha key pem verify unpack s).
  Notation trusted := (trusted url repo sha key pem verify unpack arch s).
  Notation wanted := (InstallProps.wanted repo jb arch requests groups w).

  (** If a file is found after a successful 'cards install' and no package lists it, then it was there before and no package listed it. *)
  Theorem C95_install_no_orphan w' x : trusted -> tidy_world w -> junk = false -> scripts = false -> ends_slash root = true -> comps root = [] ->
    (forall n a, certified n a -> sound a) -> cards_install = Some (None, w') -> file_name x ->
    (forall m k b, load junk host = Ok m -> wanted m k -> certified k b -> declares b x) ->
    (exists n, lists (w_db w) n x) \/ no_file (w_fs w) (comps x) -> (forall n, ~ lists (w_db w') n x) -> no_file (w_fs w') (comps x).
  Proof.
    intros T Tw Hj Hs Rs R0 Ta E Fx Dc H0 No. destruct (install_outcome junk machine re sh root url repo sha key pem verify unpack jb arch fuel host force scripts conf requests groups s w None w' T E) as [H _|mh m l hl Eh0 El N O W C F D Nm R]; [congruence|].
    set (w0 := World (cleanup_meta (w_fs w) root) (w_db w)) in *.
    destruct (run_all junk machine re sh root force scripts conf hl w0 m) as [[] w1 m1|e w1] eqn:Er; destruct R as [R1 R2]; [subst w1|discriminate R1]. rewrite Hs in Er.
    assert (Ti : tidies hl). { intros sd' a' Ja. destruct (F2_back _ _ _ _ _ _ _ _ _ _ _ F Ja) as [d' [_ J4]]. exact (proj1 (Ta _ _ (proj2 (proj2 J4)))). }
    pose proof (clean_file root w x Tw Fx) as Cl. rewrite R0 in Cl. cbn [app] in Cl.
    pose proof (run_orphan junk machine re sh root Rs R0 force conf hl x Ti D Fx) as X. rewrite R0 in X. cbn [app] in X.
    destruct (X) with (w := w0) (m := m) (w' := w') (m' := m1) as [[n Ln]|Z]; [| | | | | |destruct (No n Ln)|exact Z].
    - intros sd a Ja. destruct (F2_back _ _ _ _ _ _ _ _ _ _ _ F Ja) as [d' [J3 J4]]. apply (Dc mh (fst d') a Eh0); [apply W, in_map, J3|exact (proj2 (proj2 J4))].
    - exact (tidy_clean root w Tw).
    - exact (load_agree junk _ m (proj1 (w_inv _ Tw)) El).
    - exact Er.
    - exact (run_kn junk hl w m x Ti El).
    - destruct H0 as [H0|H0]; [left; exact H0|right]. apply (sub_no_file (w_fs w)); [left; exact Cl|exact H0].
  Qed.
End Install.

Section Upgrade.
  Variables (junk : bool) (machine : str) (re : str -> str -> option bool) (sh : str -> fs -> fs * bool) (root : str).
  Variable url : str.
  Variable repo : list (str * ent).
  Variable sha : str -> str.
  Variable key : Type.
  Variable pem : str -> option key.
  Variable verify : key -> str -> str -> bool.
  Variable unpack : str -> option archive.
  Variables (j : DiffModel.junk) (jb : Z).
  Variable arch : str -> apkg.
  Variables (fuel : nat) (scripts : bool) (conf : option str) (groups : list str) (s : fstate) (w : world).
  Notation cards_upgrade := (cards_upgrade junk machine re sh root url repo sha key pem verify unpack j jb fuel false scripts conf groups s w).
  Notation certified := (certified repo sha key pem verify unpack s).
  Notation trusted := (trusted url repo sha key pem verify unpack arch s).
  Notation wanted := (UpCmdProps.wanted repo j jb arch groups).

  (** If a file is found after a successful 'cards upgrade' and no package lists it, then it was there before and no package listed it:
      what the old versions and the obsolete packages alone listed is gone. *)
  Theorem C95_upgrade_no_orphan w' x : trusted -> tidy_world w -> junk = false -> scripts = false -> ends_slash root = true -> comps root = [] ->
    (forall n a, certified n a -> sound a) -> cards_upgrade = Some (None, w') -> file_name x ->
    (forall m k b, load junk (w_db w) = Ok m -> wanted m k -> certified k b -> declares b x) ->
    (exists n, lists (w_db w) n x) \/ no_file (w_fs w) (comps x) -> (forall n, ~ lists (w_db w') n x) -> no_file (w_fs w') (comps x).
  Proof.
    intros T Tw Hj Hs Rs R0 Ta E Fx Dc H0 No. pose proof (w_inv _ Tw) as I. pose proof (clean_file root w x Tw Fx) as Cl. rewrite R0 in Cl. cbn [app] in Cl.
    destruct (upgrade_outcome junk machine re sh root url repo sha key pem verify unpack j jb arch fuel scripts conf groups s w None w' T E) as [H _|m El _ Ew Dq Nu No'|m l hl del El Dq N O W Zl F D Nm Nd De R]; [congruence| |].
    { rewrite Ew in *. cbn [w_fs w_db] in *. apply (sub_no_file (w_fs w)); [left; exact Cl|]. destruct H0 as [[n Ln]|H0]; [destruct (No n Ln)|exact H0]. }
    destruct (finish_split junk machine re sh root url repo sha key pem verify unpack j jb arch scripts conf groups s w None w' m l hl del T I El W F D Nm Nd De eq_refl R) as (w1 & m1 & Er & I1 & I2 & Dl & Kp & Fr & WO).
    rewrite Er in R. pose proof (load_agree junk _ m (proj1 I) El) as AG. set (w0 := World (cleanup_meta (w_fs w) root) (w_db w)) in *. rewrite Hs in Er.
    assert (Ti : tidies hl). { intros sd' a' Ja. destruct (F2_back _ _ _ _ _ _ _ _ _ _ _ F Ja) as [d' [_ J4]]. exact (proj1 (Ta _ _ (proj2 (proj2 J4)))). }
    destruct (run_keeps junk machine re sh root Rs R0 true conf hl Ti w0 m w1 m1 (tidy_clean root w Tw) AG Er) as (Tw1 & AG1 & _).
    pose proof (run_orphan junk machine re sh root Rs R0 true conf hl x Ti D Fx) as X. rewrite R0 in X. cbn [app] in X.
    assert (H1 : (exists n, lists (w_db w1) n x) \/ no_file (w_fs w1) (comps x)).
    { apply (X) with (w := w0) (m := m) (m' := m1).
      - intros sd a Ja. destruct (F2_back _ _ _ _ _ _ _ _ _ _ _ F Ja) as [d' [J3 J4]]. apply (Dc m (fst d') a El); [apply W, in_map, J3|exact (proj2 (proj2 J4))].
      - exact (tidy_clean root w Tw).
      - exact AG.
      - exact Er.
      - exact (run_kn junk hl w m x Ti El).
      - destruct H0 as [H0|H0]; [left; exact H0|right]. apply (sub_no_file (w_fs w)); [left; exact Cl|exact H0]. }
    destruct (drop_all junk root del w1 m1) as [[] w2 m2|e w2] eqn:Ed; [|destruct R as [R _]; discriminate R]. destruct R as [_ ->]. destruct H1 as [H1|H1].
    - destruct Fx as (Nx & [cs P] & Es & _). pose proof (drop_gone junk root Rs del x cs P Es w1 m1 w2 m2 (proj1 I1) AG1 (w_tree _ Tw1) Nd) as Y. rewrite R0 in Y. cbn [app] in Y. apply Y; [|exact Ed|exact H1|exact No].
      intros k J. apply De in J. pose proof J as ([_ G] & _ & _). rewrite (proj1 (Fr k (fun H => WO k H J))). exact G.
    - apply (sub_no_file (w_fs w1)); [|exact H1]. apply (drop_tree junk root Rs del w1 m1 w2 m2 (w_tree _ Tw1) Ed).
  Qed.
End Upgrade.

(** ** a case: the new foo has dropped usr/gone *)
Definition g_foo : archive := pkg old_foo [(L "usr/", dirn); (L "usr/foo", reg (L "f")); (L "usr/gone", reg (L "g"))].
Definition g_before : list (bool * archive) := [(false, g_foo); (true, c_old); (false, c_mine)].
Definition w_g : world := match run_all false mach pfx quiet rt false false None g_before w_empty (Mem [] [] false) with Ret _ w _ => w | Stop _ w => w end.
Definition w_gone : world := after (u_upgrade [] u_start w_g).
Lemma g_tidy : tidy_world w_g.
Proof.
  assert (Ti : tidies g_before).
  { intros sd a [H|[H|[H|[]]]]; injection H as <- <-.
    - exists (reg (text_of old_foo)). unfold g_foo. eapply pkg_tidy; vm_compute; reflexivity.
    - exists (reg (text_of old_old)). unfold c_old. eapply pkg_tidy; vm_compute; reflexivity.
    - exists (reg (text_of old_mine)). unfold c_mine. eapply pkg_tidy; vm_compute; reflexivity. }
  destruct (run_all false mach pfx quiet rt false false None g_before w_empty (Mem [] [] false)) as [[] w m|e w] eqn:E.
  - assert (Ew : w = w_g) by (unfold w_g; rewrite E; reflexivity). rewrite <- Ew.
    refine (proj1 (run_keeps false mach pfx quiet rt eq_refl eq_refl false None g_before Ti w_empty (Mem [] [] false) w m empty_tidy _ E)). split; [constructor|]. intro n. reflexivity.
  - exfalso. assert (X : match run_all false mach pfx quiet rt false false None g_before w_empty (Mem [] [] false) with Ret _ _ _ => true | Stop _ _ => false end = true) by (vm_compute; reflexivity). rewrite E in X. discriminate X.
Qed.
Definition nobodyb (d : disk) (x : str) : bool := forallb (fun e : str * dbdir => match mget (L "files") (snd e) with Some c => negb (smem x (getlines c)) | None => true end) d.
Lemma nobodyb_spec d x : nobodyb d x = true -> forall n, ~ lists d n x.
Proof.
  intros A k (dir & c & G & Gf & J & _). unfold nobodyb in A. rewrite forallb_forall in A. specialize (A (k, dir) (mget_In _ _ _ G)). cbn [snd] in A. rewrite Gf in A. apply negb_true_iff in A.
  apply (proj2 (smem_In _ _)) in J. rewrite J in A. discriminate A.
Qed.
Example C95_no_orphan_case : u_upgrade [] u_start w_g = Some (None, w_gone) /\ lists (w_db w_g) (L "foo") (L "usr/gone") /\ (forall n, ~ lists (w_db w_gone) n (L "usr/gone")) /\
  fget (w_fs w_g) (comps (L "usr/gone")) = Some (reg (L "g")) /\ no_file (w_fs w_gone) (comps (L "usr/gone")).
Proof.
  assert (E : u_upgrade [] u_start w_g = Some (None, w_gone)) by (vm_compute; reflexivity).
  assert (Li : lists (w_db w_g) (L "foo") (L "usr/gone")) by (apply listsb_lists; [vm_compute; reflexivity|discriminate]).
  assert (No : forall n, ~ lists (w_db w_gone) n (L "usr/gone")) by (apply nobodyb_spec; vm_compute; reflexivity).
  split; [exact E|]. split; [exact Li|]. split; [exact No|]. split; [vm_compute; reflexivity|].
  refine (C95_upgrade_no_orphan false mach pfx quiet rt t_url u_repo t_sha unit t_pem t_verify u_unpack u_junk 0 u_arch 20 false None [] u_start w_g w_gone (L "usr/gone") (u_trusted _ _) g_tidy eq_refl eq_refl eq_refl eq_refl (u_sound _ _) E _ _ (or_introl (ex_intro (fun n => lists (w_db w_g) n (L "usr/gone")) (L "foo") Li)) No).
  - apply fileb_file. vm_compute. reflexivity.
  - intros m k b _ _ Cb. assert (Av : avoids b (L "usr/gone")) by (destruct (u_which _ _ _ _ Cb) as [[_ ->]|[[_ ->]|[_ ->]]]; (eapply avoidsb_avoids; [opened|vm_compute; reflexivity])).
    destruct (avoids_spares _ _ Av) as [A B]. split; [intros y q J; apply (A y q J)|exact B].
Qed.
