(** Property C48: with an alternative root, nothing outside that root is created, changed or deleted. *)
From Verif Require Import Base BaseProofs StrModel StrSpec StrProofs RulesModel RulesSpec RulesProofs FsModel FsSpec FsProofs FsOps FsExtract
  MetaModel MetaSpec MetaProofs DbModel DbSpec DbLoad DbOps DbRun DbInv EngineFs EngineRoot EngineWay DbFacts DbProps RemoveProps AddRun DbExamples AddProps.

(** the directories leading to the root directory exist (the root itself may be missing) *)
Definition reachable_root (f : fs) (R : path) : Prop := forall q, below q R -> dir_at f q.
(** the archives an operation unpacks *)
Definition op_archives (x : op) : list archive :=
  match x with Add _ _ _ a => [a] | Many _ _ _ l _ => map snd l | Remove _ _ _ => [] end.
(** does the operation run package scripts? *)
Definition op_scripts (x : op) : bool :=
  match x with Add o _ _ _ => o_scripts o | Many _ s _ _ _ => s | Remove s _ _ => s end.
(** .META, .POSTR and .PRER in the root directory are never directories with something in them *)
Definition meta_names : list str := [L ".META"; L ".POSTR"; L ".PRER"].
Definition no_meta_dirs (f : fs) (R : path) : Prop := forall c q, In c meta_names -> below (R ++ [c]) q -> fget f q = None.
Definition no_meta_dirs_in (a : archive) : Prop := forall x n c, In (x, n) a -> In c meta_names -> ~ below [c] (comps x).
(** running any script leaves everything outside [R] as it was *)
Definition scripts_stay (sh : str -> fs -> fs * bool) (R : path) : Prop :=
  forall s f, (tree f -> tree (fst (sh s f))) /\ (no_meta_dirs f R -> no_meta_dirs (fst (sh s f)) R) /\
    forall q, ~ prefix_of R q -> fget (fst (sh s f)) q = fget f q.

Section Outside.
  Variables (junk : bool) (machine : str) (re : str -> str -> option bool) (sh : str -> fs -> fs * bool) (root : str).
  Hypothesis Rs : ends_slash root = true.
  Notation R := (comps root).
  Hypothesis Mp : forall m, In m meta_comps -> ~ prefix_of m R.

  Definition fine (f : fs) : Prop := tree f /\ reachable_root f R /\ no_meta_dirs f R.
  Definition same_out (f g : fs) : Prop := forall q, ~ prefix_of R q -> ~ In q meta_comps -> fget g q = fget f q.
  Definition step (f g : fs) : Prop := fine f -> fine g /\ same_out f g.
  Lemma step_of f g : (tree f -> reachable_root f R -> no_meta_dirs f R -> tree g /\ no_meta_dirs g R /\ same_out f g) -> step f g.
  Proof.
    intros H [T [A M0]]. destruct (H T A M0) as [T2 [M2 S]]. split; [split; [exact T2|split; [|exact M2]]|exact S]. intros q B.
    eapply dir_at_ext; [symmetry; apply S|exact (A q B)].
    - intros [r E]. destruct B as [s [Ns Es]]. rewrite Es in E. apply (f_equal (@List.length str)) in E. rewrite !app_length in E. destruct s; [congruence|cbn in E; lia].
    - intro I. apply (Mp q I), prefix_below. right. exact B.
  Qed.
  Lemma step_refl f : step f f. Proof. intro H. split; [exact H|]. intros q _ _. reflexivity. Qed.
  Lemma step_trans f g h : step f g -> step g h -> step f h.
  Proof. intros A B H. destruct (A H) as [H1 S1]. destruct (B H1) as [H2 S2]. split; [exact H2|]. intros q N M. rewrite S2, S1; auto. Qed.
  Lemma in_root_out q r : ~ prefix_of R q -> q <> R ++ r.
  Proof. intros N ->. apply N. exists r. reflexivity. Qed.

  (** deletions *)
  Lemma sub_meta f g : (forall q, fget g q = fget f q \/ fget g q = None) -> no_meta_dirs f R -> no_meta_dirs g R.
  Proof. intros S H c q I B. destruct (S q) as [-> | ->]; [exact (H c q I B)|reflexivity]. Qed.
  Lemma step_less f g : (tree f -> tree g) -> (tree f -> forall q, fget g q = fget f q \/ fget g q = None) -> (tree f -> same_out f g) -> step f g.
  Proof. intros A B C. apply step_of. intros T _ M. split; [auto|]. split; [apply (sub_meta f g); auto|auto]. Qed.
  Lemma removeFile_sub f base file q : tree f -> fget (removeFile f base file) q = fget f q \/ fget (removeFile f base file) q = None.
  Proof. intro T. destruct (removeFile_gen f base file T) as [_ H]. destruct (H q) as [Z|[Z _]]; auto. Qed.
  Lemma step_cleanup f : step f (cleanup_meta f root).
  Proof.
    apply step_less; [intro T; apply cleanup_spec, T|intros T q; apply cleanup_sub, T|]. intros T q _ M. apply cleanup_spec; auto.
  Qed.
  Lemma step_mtree f : step f (removeFile f root (L "/.MTREE")).
  Proof.
    apply step_less; [intro T; apply removeFile_gen, T|intros T q; apply removeFile_sub, T|]. intros T q _ M.
    apply (removeFile_single f root (L ".MTREE")); [exact T|lit|]. intros ->. apply M. unfold meta_comps. cbn [In]. tauto.
  Qed.
  Lemma step_del xs f : step f (del_files root xs f).
  Proof.
    apply step_less; [intro T; apply del_files_tree, T|intros T q; apply del_files_sub, Rs|]. intros T q N _. apply (del_files_frame root Rs).
    intros x _. apply in_root_out, N.
  Qed.
  Lemma rm_sub f p q : fget (snd (rm f p)) q = fget f q \/ fget (snd (rm f p)) q = None.
  Proof.
    destruct (rm f p) as [b g] eqn:E. cbn [snd]. apply rm_spec in E as [[_ ->]|[_ [-> _]]]; auto. rewrite fget_fdel. destruct (peqb q (comps p)); auto.
  Qed.
  Lemma step_rm f p r : comps p = R ++ r -> step f (snd (rm f p)).
  Proof. intro C. apply step_less; [intro T; apply rm_tree, T|intros T q; apply rm_sub|]. intros T q N _. apply rm_frame. rewrite C. apply in_root_out, N. Qed.
  Lemma extract_out f name n b g r : tree f -> reachable_root f R -> comps name = R ++ r -> extract f name n = (b, g) ->
    tree g /\ forall q, ~ prefix_of R q -> fget g q = fget f q.
  Proof.
    intros T A C E. split; [eapply extract_tree; eauto|]. intros q N.
    pose proof (extract_spec _ _ _ _ _ T E) as [_ [S1 [S2 _]]]. rewrite C in *.
    destruct (belowb q (R ++ r)) eqn:B.
    - apply belowb_below in B. apply S2; [apply in_root_out, N|]. apply A. eapply below_outside; eauto.
    - apply S1; [apply in_root_out, N|]. intro Y. apply belowb_below in Y. congruence.
  Qed.
  Lemma below_app_l (a b q : path) : below (a ++ b) q -> exists r, r <> [] /\ q = a ++ b ++ r.
  Proof. intros [r [N ->]]. exists r. split; [exact N|]. rewrite app_assoc. reflexivity. Qed.
  Lemma meta_not_var c r q : In c meta_names -> below (R ++ [c]) q -> ~ prefix_of q (R ++ reject_comps ++ r).
  Proof.
    intros I B [s E]. apply below_app_l in B as [t [_ ->]]. rewrite <- !app_assoc in E. apply app_inv_head in E.
    change (reject_comps ++ r) with (L "var" :: (tl reject_comps ++ r)) in E. cbn [app] in E. injection E as E _.
    cbn [In meta_names] in I. destruct I as [I|[I|[I|[]]]]; subst c; discriminate E.
  Qed.
  Lemma extract_meta f name n b g : tree f -> extract f name n = (b, g) -> no_meta_dirs f R ->
    (forall c q, In c meta_names -> below (R ++ [c]) q -> ~ prefix_of q (comps name)) -> no_meta_dirs g R.
  Proof.
    intros T E M H c q I B. destruct (fget g q) eqn:G; [|reflexivity]. exfalso. apply (H c q I B).
    apply prefix_below. destruct (extract_new _ _ _ _ _ q T E (M c q I B)) as [_ [Z|Z]]; [congruence|left; auto|right; auto].
  Qed.
  Lemma step_extract f name n b g r : comps name = R ++ r -> (forall c, In c meta_names -> ~ below [c] r) -> extract f name n = (b, g) -> step f g.
  Proof.
    intros C H E. apply step_of. intros T A M. destruct (extract_out _ _ _ _ _ _ T A C E) as [T2 Q]. split; [exact T2|].
    split; [|intros q N _; apply Q, N]. apply (extract_meta _ _ _ _ _ T E M). intros c q I B [s Z]. rewrite C in Z.
    apply below_app_l in B as [t [Nt ->]]. rewrite <- !app_assoc in Z. apply app_inv_head in Z. apply (H c I). exists (t ++ s).
    split; [destruct t; [congruence|discriminate]|exact Z].
  Qed.
  Lemma step_entry keep non f x n : (In x keep -> exists cs, plain x cs) -> (forall c, In c meta_names -> ~ below [c] (comps x)) ->
    step f (install_entry root keep non f (x, n)).
  Proof.
    intros PL NM. destruct (install_entry_cases root keep non f x n) as [->|[[_ [b E]]|[I [_ [b [g1 [E X]]]]]]].
    - apply step_refl.
    - exact (step_extract _ _ _ _ _ _ (comps_orig root x) NM E).
    - assert (S1 : step f g1).
      { apply (step_extract _ _ _ _ _ _ (comps_rejected root x)) in E; [exact E|]. intros c Ic [r [_ Z]].
        change (reject_comps ++ comps x) with (L "var" :: (tl reject_comps ++ comps x)) in Z. cbn [app] in Z. injection Z as Z _.
        cbn [In meta_names] in Ic. destruct Ic as [Y|[Y|[Y|[]]]]; subst c; discriminate Z. }
      destruct X as [->|[_ ->]]; [exact S1|]. eapply step_trans; [exact S1|].
      apply step_less; [intro T; apply removeFile_gen, T|intros T q; apply removeFile_sub, T|]. intros T q N _. destruct (PL I) as [cs P].
      destruct (remove_rejected root g1 x cs P T q) as [Z|[_ [ds [es [_ [_ Z]]]]]]; [exact Z|].
      exfalso. apply N. exists (reject_comps ++ ds). exact Z.
  Qed.
  Lemma step_install keep non a : (forall x, In x keep -> exists cs, plain x cs) -> no_meta_dirs_in a -> forall f, step f (install_archive root a keep non f).
  Proof.
    intros PL NM. induction a as [|[x n] a IH]; intro f; [apply step_refl|]. rewrite install_cons.
    eapply step_trans; [apply step_entry; [apply PL|intros c; apply (NM x n c); left; reflexivity]|apply IH]. intros y k c I. apply NM with (n := k). right. exact I.
  Qed.
  Lemma comps_lit (s : string) : comp (L s) -> comps (root ++ L s) = R ++ [L s].
  Proof. apply comps_root_lit, Rs. Qed.
  Lemma step_move_one name c w : In c meta_names -> step (w_fs w) (w_fs (move_one root name c w)).
  Proof.
    intro I. assert (C : comps (root ++ c) = R ++ [c]) by (cbn [In meta_names] in I; destruct I as [I|[I|[I|[]]]]; subst c; apply comps_lit; lit).
    unfold move_one. rewrite C. destruct (fget (w_fs w) (R ++ [c])) as [n|]; [|apply step_refl]. cbn [w_fs].
    apply step_of. intros T A M. split; [apply tree_fdel; [exact T|destruct R; discriminate|intros q B; exact (M c q I B)]|]. split.
    - apply (sub_meta (w_fs w)); [|exact M]. intro q. rewrite fget_fdel. destruct (peqb q (R ++ [c])); auto.
    - intros q N _. apply fget_fdel_other. apply in_root_out, N.
  Qed.
  Lemma step_moves name xs : (forall x, In x xs -> In x meta_names) -> forall w, step (w_fs w) (w_fs (fold_left (fun w x => move_one root name x w) xs w)).
  Proof.
    induction xs as [|x xs IH]; intros H w; [apply step_refl|]. cbn [fold_left].
    eapply step_trans; [apply step_move_one, H; left; reflexivity|apply IH]. intros y I. apply H. right. exact I.
  Qed.
  Lemma step_move_meta name w m w' m' : move_meta root name (w, m) = Ok (w', m') -> step (w_fs w) (w_fs w').
  Proof.
    intro E. unfold move_meta in E. set (f0 := removeFile (w_fs w) root (L "/.MTREE")) in E.
    assert (S0 : step (w_fs w) f0) by apply step_mtree. clearbody f0.
    destruct (fget f0 (comps (root ++ L ".META"))) as [nd|]; [|discriminate].
    destruct (is_dir nd); [discriminate|]. destruct (parse_set (n_data nd)) as [ls|]; [|discriminate].
    cbv zeta in E. match type of E with context [fold_left ?g ?l ?w0] => set (wf := fold_left g l w0) in E end.
    assert (S1 : step f0 (w_fs wf)).
    { unfold wf. change f0 with (w_fs (World f0 (w_db w))) at 1. apply step_moves. intros x I.
      destruct I as [I|I]; [subst x; left; reflexivity|]. apply in_app_iff in I as [I|I].
      - destruct (exists_file f0 (root ++ L ".POSTR")); [|destruct I]. destruct I as [I|[]]. subst x. right. left. reflexivity.
      - destruct (exists_file f0 (root ++ L ".PRER")); [|destruct I]. destruct I as [I|[]]. subst x. right. right. left. reflexivity. }
    clearbody wf. destruct (m_dep m); inversion E; subst; cbn [w_fs]; exact (step_trans _ _ _ S0 S1).
  Qed.

  (** *** with scripts *)
  Variable scripts : bool.
  Hypothesis Sc : scripts = true -> scripts_stay sh R.
  Lemma step_script s f : scripts = true -> step f (fst (sh s f)).
  Proof.
    intro S. destruct (Sc S s f) as [A [B C]]. apply step_of. intros T _ M. split; [auto|]. split; [auto|]. intros q N _. apply C, N.
  Qed.
  Lemma step_post w : step (w_fs w) (w_fs (post_run sh root scripts w)).
  Proof.
    pose proof step_script as SS. unfold post_run. cbn [w_fs].
    assert (C1 : comps (pre_path root) = R ++ [L ".PRE"]) by (apply comps_lit; lit).
    assert (C2 : comps (post_path root) = R ++ [L ".POST"]) by (apply comps_lit; lit).
    set (f1 := if exists_file (w_fs w) (pre_path root) then _ else _).
    assert (S1 : step (w_fs w) f1) by (unfold f1; destruct (exists_file (w_fs w) (pre_path root)); [exact (step_rm _ _ _ C1)|apply step_refl]).
    clearbody f1. eapply step_trans; [exact S1|]. destruct (exists_file f1 (post_path root)); [|apply step_refl].
    destruct scripts; [|exact (step_rm _ _ _ C2)]. eapply step_trans; [apply SS; reflexivity|exact (step_rm _ _ _ C2)].
  Qed.
  Lemma step_pre a w : scripts = true -> step (w_fs w) (w_fs (match pre_run sh root a w with inl w1 => w1 | inr w1 => w1 end)).
  Proof.
    intro S. unfold pre_run. assert (C1 : comps (pre_path root) = R ++ [L ".PRE"]) by (apply comps_lit; lit).
    assert (NB : forall c, In c meta_names -> ~ below [c] [L ".PRE"]).
    { intros c I [r [Nr Z]]. injection Z as _ Z. destruct r; [congruence|discriminate]. }
    assert (K : forall g, step (w_fs w) g -> step (w_fs w) (w_fs (match (if exists_file g (pre_path root) then
         match sh (pre_path root) g with
          | (g', true) => inr (World (snd (rm g' (pre_path root))) (w_db w))
          | (g', false) => inl (World g' (w_db w))
          end
        else inr (World g (w_db w))) with inl w1 => w1 | inr w1 => w1 end))).
    { intros g H. destruct (exists_file g (pre_path root)); [|exact H].
      pose proof (step_script (pre_path root) g S) as H2. destruct (sh (pre_path root) g) as [g' [|]]; cbn [fst w_fs] in *.
      - exact (step_trans _ _ _ H (step_trans _ _ _ H2 (step_rm _ _ _ C1))).
      - exact (step_trans _ _ _ H H2). }
    destruct (member a (L ".PRE")) as [n|]; [|apply (K (w_fs w)), step_refl].
    destruct (extract (w_fs w) (pre_path root) n) as [[|] g] eqn:E; pose proof (step_extract _ _ _ _ _ _ C1 NB E) as H; [exact (K g H)|exact H].
  Qed.
  Definition world_at {A} (r : out A) : world := match r with Ret _ w _ => w | Stop _ w => w end.
  Lemma step_strip files keep w m : step (w_fs w) (w_fs (fst (strip_refs root files keep (w, m)))).
  Proof.
    destruct (strip_refs root files keep (w, m)) as [w2 m2] eqn:E. cbn [fst]. apply strip_refs_parts in E as [-> _]. apply step_del.
  Qed.
  Lemma step_remove_files name keep w m : step (w_fs w) (w_fs (fst (remove_files root name keep (w, m)))).
  Proof. unfold remove_files. cbn [fst w_fs]. apply step_del. Qed.
  Lemma remove_refs_fs name wm wm' : remove_refs junk name wm = Some wm' -> w_fs (fst wm') = w_fs (fst wm).
  Proof. unfold remove_refs. destruct wm as [w m]. destruct (mget name (w_db w)); [|discriminate]. intro E. inversion E. reflexivity. Qed.
  Lemma step_add o conf a w m : o_scripts o = scripts -> (forall x, ships a x -> exists cs, plain x cs) -> no_meta_dirs_in a ->
    step (w_fs w) (w_fs (world_at (add_run junk machine re sh root o conf a w m))).
  Proof.
    intros Eo PL NM. unfold add_run.
    destruct (open_archive junk machine root a) as [[nm info]| |] eqn:Op; [|apply step_refl|apply step_refl].
    destruct (read_rules_file conf) as [rules|]; [|apply step_refl].
    destruct (name_exists m nm && negb (o_upgrade o)); [apply step_refl|].
    destruct (negb (name_exists m nm) && o_upgrade o); [apply step_refl|].
    destruct (apply_install_rules re rules (r_files info)) as [[[ins non] post]|] eqn:Ei; [|apply step_refl].
    rewrite Eo. assert (S1 : step (w_fs w) (w_fs (match (if scripts then pre_run sh root a w else inr w) with inl w1 => w1 | inr w1 => w1 end))).
    { pose proof (step_pre a w) as SP. destruct scripts; [apply SP; reflexivity|apply step_refl]. }
    destruct (if scripts then pre_run sh root a w else inr w) as [w1|w1]; [exact S1|].
    eapply step_trans; [exact S1|]. clear S1 w. set (cf := conflicts root nm ins (w_fs w1) (m_pkgs m)).
    match goal with |- context [match ?x with inl e => Stop e w1 | inr _ => _ end] => destruct x as [e|[w2 m2]] eqn:Ec end; [apply step_refl|].
    assert (S2 : step (w_fs w1) (w_fs w2)).
    { destruct cf as [|c cf'] eqn:Ecf; [inversion Ec; subst; apply step_refl|]. destruct (o_force o); [|discriminate].
      destruct (if o_upgrade o then get_keep_list re rules (c :: cf') else Some []) as [kl0|]; [|discriminate].
      pose proof (step_strip (c :: cf') kl0 w1 m) as H. inversion Ec as [Ex]. rewrite Ex in H. exact H. }
    eapply step_trans; [exact S2|]. clear S2 Ec w1 cf.
    assert (PK : forall kl, get_keep_list re rules ins = Some kl -> forall x, In x kl -> exists cs, plain x cs).
    { intros kl K x I. apply keep_list_spec in K as [K _]. apply K in I as [I _]. apply PL.
      apply install_rules_spec in Ei as [A _]. apply A in I as [I _]. apply open_name in Op as [_ Sh]. apply Sh, I. }
    match goal with |- context [match ?x with inl _ => _ | inr _ => _ end] => destruct x as [[e w3]|[[w3 m3] kl]] eqn:Eu end.
    - destruct (o_upgrade o); [|discriminate]. destruct (get_keep_list re rules ins) as [k|]; [|inversion Eu; subst; apply step_refl].
      cbv zeta in Eu. destruct (remove_refs junk nm (remove_files root nm k (w2, mark_auto junk nm m2))) as [wm|]; [discriminate|].
      inversion Eu; subst. apply step_remove_files.
    - assert (S3 : step (w_fs w2) (w_fs w3) /\ forall x, In x kl -> exists cs, plain x cs).
      { destruct (o_upgrade o); [|inversion Eu; subst; split; [apply step_refl|intros x []]].
        destruct (get_keep_list re rules ins) as [k|] eqn:Ek; [|discriminate]. cbv zeta in Eu.
        destruct (remove_refs junk nm (remove_files root nm k (w2, mark_auto junk nm m2))) as [wm|] eqn:Er; [|discriminate].
        inversion Eu; subst. split; [|exact (PK kl eq_refl)]. apply remove_refs_fs in Er. cbn [fst] in Er. rewrite Er. apply step_remove_files. }
      destruct S3 as [S3 Pk]. eapply step_trans; [exact S3|]. clear S3 Eu w2 m2.
      pose proof (step_install kl non a Pk NM (w_fs w3)) as S4.
      destruct (move_meta root nm (World (install_archive root a kl non (w_fs w3)) (w_db w3), m3)) as [[w5 m5]| |] eqn:Em.
      + apply step_move_meta in Em. cbn [w_fs] in Em. unfold add_files_refs. cbn [world_at].
        eapply step_trans; [exact S4|]. eapply step_trans; [exact Em|].
        exact (step_post (World (w_fs w5) (put_file nm (L "files") (text_of (r_files (with_files ins info))) (w_db w5)))).
      + cbn [world_at w_fs]. exact (step_trans _ _ _ S4 (step_mtree _)).
      + exact S4.
  Qed.
  Lemma step_rm_run conf name w m : step (w_fs w) (w_fs (world_at (rm_run junk sh root scripts conf name w m))).
  Proof.
    unfold rm_run. destruct (read_rules_file conf); [|apply step_refl]. destruct (negb (name_exists m name)); [apply step_refl|].
    cbv zeta.
    match goal with |- context [match ?x with inl w1 => Stop ScriptFailed w1 | inr _ => _ end] => set (pre := x) end.
    assert (S1 : step (w_fs w) (w_fs (match pre with inl w1 => w1 | inr w1 => w1 end))).
    { unfold pre. pose proof step_script as SS. destruct scripts; [|apply step_refl]. destruct (match mget name (w_db w) with Some d => mget (L "PRER") d | None => None end) as [s|]; [|apply step_refl].
      pose proof (SS s (w_fs w) eq_refl) as H. destruct (sh s (w_fs w)) as [g [|]]; exact H. }
    destruct pre as [w1|w1]; [exact S1|]. eapply step_trans; [exact S1|].
    pose proof (step_remove_files name [] w1 m) as S2. destruct (remove_files root name [] (w1, m)) as [w2 m2]. cbn [fst] in S2.
    eapply step_trans; [exact S2|].
    set (w3 := if scripts then _ else _). assert (S3 : step (w_fs w2) (w_fs w3)).
    { unfold w3. pose proof step_script as SS. destruct scripts; [|apply step_refl]. destruct (match mget name (w_db w) with Some d => mget (L "POSTR") d | None => None end) as [s|]; [|apply step_refl]. exact (SS s (w_fs w2) eq_refl). }
    destruct (remove_refs junk name (w3, m2)) as [[w4 m4]|] eqn:Er; [|exact S3]. apply remove_refs_fs in Er. cbn [fst] in Er.
    cbn [world_at]. rewrite Er. exact S3.
  Qed.
  Lemma step_all force conf l : (forall a, In a (map snd l) -> (forall x, ships a x -> exists cs, plain x cs) /\ no_meta_dirs_in a) ->
    forall w m, step (w_fs w) (w_fs (world_at (run_all junk machine re sh root force scripts conf l w m))).
  Proof.
    induction l as [|[sd a] l IH]; intros H w m; [apply step_refl|]. cbn [run_all].
    destruct (H a (or_introl eq_refl)) as [PL NM].
    pose proof (step_add (Opts force (upgrade_flag junk machine root a m) scripts) conf a w (set_dep sd m) eq_refl PL NM) as S1.
    destruct (add_run junk machine re sh root (Opts force (upgrade_flag junk machine root a m) scripts) conf a w (set_dep sd m)) as [n w' m'|e w']; [|exact S1].
    eapply step_trans; [exact S1|apply IH]. intros b I. apply H. right. exact I.
  Qed.
  Lemma step_drop names : forall w m, step (w_fs w) (w_fs (world_at (drop_all junk root names w m))).
  Proof.
    induction names as [|n l IH]; intros w m; [apply step_refl|]. cbn [drop_all]. cbv zeta.
    eapply step_trans; [apply step_cleanup|].
    change (cleanup_meta (w_fs w) root) with (w_fs (World (cleanup_meta (w_fs w) root) (w_db w))) at 1.
    generalize (World (cleanup_meta (w_fs w) root) (w_db w)). intro w0.
    destruct (remove_refs junk n (w0, m)) as [[w2 m2]|] eqn:Er; [|apply step_refl]. apply remove_refs_fs in Er. cbn [fst] in Er.
    pose proof (step_remove_files n [] w2 m2) as S2. destruct (remove_files root n [] (w2, m2)) as [w1 m1]. cbn [fst] in S2. rewrite Er in S2.
    exact (step_trans _ _ _ S2 (IH w1 m1)).
  Qed.
  Lemma finish_world {A} (r : out A) : snd (finish r) = world_at r. Proof. destruct r; reflexivity. Qed.
  Lemma step_session x w : op_scripts x = scripts -> (forall a, In a (op_archives x) -> (forall x, ships a x -> exists cs, plain x cs) /\ no_meta_dirs_in a) ->
    step (w_fs w) (w_fs (snd (session junk machine re sh root x w))).
  Proof.
    intros Es H. unfold session. cbv zeta. eapply step_trans; [apply step_cleanup|].
    change (cleanup_meta (w_fs w) root) with (w_fs (World (cleanup_meta (w_fs w) root) (w_db w))) at 1.
    generalize (World (cleanup_meta (w_fs w) root) (w_db w)). intro w0.
    destruct (load junk (w_db w0)) as [m| |]; [|apply step_refl|apply step_refl].
    destruct x as [o sd conf a|force s conf l ob|s conf name]; cbn [op_scripts op_archives] in *.
    - rewrite finish_world. destruct (H a (or_introl eq_refl)) as [PL NM]. apply step_add; auto.
    - subst s. pose proof (step_all force conf l H w0 m) as S1.
      destruct (run_all junk machine re sh root force scripts conf l w0 m) as [u w1 m1|e w1]; [|exact S1].
      eapply step_trans; [exact S1|]. rewrite finish_world. apply step_drop.
    - rewrite finish_world. subst s. apply step_rm_run.
  Qed.
End Outside.

(** Sequences of any operations (adds, upgrades, installs of many packages, removals, whether they succeed or stop half way) below
    an alternative root leave everything outside the root as it was, EXCEPT the six names of [meta_comps] at the very top of the
    real file system. What is missing with respect to C48: those six names (see the refutation below); scripts are assumed to stay
    inside, archives to use the usual spelling of names. *)
Theorem C48_outside_partial junk machine re sh root xs w q :
  ends_slash root = true -> (forall m, In m meta_comps -> ~ prefix_of m (comps root)) ->
  tree (w_fs w) -> reachable_root (w_fs w) (comps root) -> no_meta_dirs (w_fs w) (comps root) ->
  (forall x a, In x xs -> In a (op_archives x) -> (forall y, ships a y -> exists cs, plain y cs) /\ no_meta_dirs_in a) ->
  (forall x, In x xs -> op_scripts x = true -> scripts_stay sh (comps root)) ->
  ~ prefix_of (comps root) q -> ~ In q meta_comps ->
  fget (w_fs (history junk machine re sh root xs w)) q = fget (w_fs w) q.
Proof.
  intros Rs Mp T A M Ar Sc N Nm. unfold history. revert w T A M.
  induction xs as [|x xs IH]; intros w T A M; [reflexivity|]. cbn [fold_left].
  assert (S : step root (w_fs w) (w_fs (snd (session junk machine re sh root x w)))).
  { apply (step_session junk machine re sh root Rs Mp (op_scripts x)); [|reflexivity|].
    - apply Sc. left. reflexivity.
    - intros a I. apply (Ar x a); [left; reflexivity|exact I]. }
  destruct (S (conj T (conj A M))) as [[T2 [A2 M2]] E]. rewrite IH; auto.
  - intros y a I. apply Ar. right. exact I.
  - intros y I. apply Sc. right. exact I.
Qed.

(** *** a concrete case: two packages added to /mnt, one with force, one removed, on a host with files of its own *)
Definition mnt : str := L "/mnt/".
Definition host : fs := [([], dirn); ([L "mnt"], dirn); ([L "usr"], dirn); ([L "usr"; L "foo.txt"], reg (L "host file"));
  ([L ".MTREE"], reg (L "precious"))].
Definition plan : list op := [Add simple false None foo; Add forced false None bar; Remove false None (L "foo")].
Definition compsb (x : path) : bool := forallb (fun c => negb (length c =? 0) && forallb (fun d => negb (ceqb d slash)) c && negb (seqb c (L "."))) x.
Lemma compsb_comp x : compsb x = true -> Forall comp x.
Proof.
  intro H. unfold compsb in H. rewrite forallb_forall in H. apply Forall_forall. intros c I. specialize (H c I).
  apply andb_true_iff in H as [H H3]. apply andb_true_iff in H as [H1 H2]. apply negb_true_iff in H1, H3. split; [|split].
  - intros ->. discriminate.
  - intro J. rewrite forallb_forall in H2. specialize (H2 _ J). discriminate.
  - apply seqb_neq, H3.
Qed.
Definition plainb (x : str) : bool :=
  match comps x with [] => false | cs => compsb cs && (seqb x (join slash cs) || seqb x (join slash cs ++ [slash])) end.
Lemma plainb_plain x : plainb x = true -> exists cs, plain x cs.
Proof.
  unfold plainb. destruct (comps x) as [|c cs] eqn:E; [discriminate|]. intro H. apply andb_true_iff in H as [H1 H2].
  exists (c :: cs). apply compsb_comp in H1. apply orb_true_iff in H2 as [H2|H2]; apply seqb_eq in H2; rewrite H2; constructor; auto; discriminate.
Qed.
Lemma ships_listed a n i x : open_archive false mach mnt a = Ok (n, i) -> forallb plainb (r_files i) = true -> ships a x -> exists cs, plain x cs.
Proof. intros E H S. apply open_name in E as [_ E]. apply E in S. rewrite forallb_forall in H. apply plainb_plain, H, S. Qed.
Lemma no_meta_check a : forallb (fun e => match comps (fst e) with c :: _ :: _ => negb (smem c meta_names) | _ => true end) a = true -> no_meta_dirs_in a.
Proof.
  intros H x n c I J [r [Nr E]]. rewrite forallb_forall in H. specialize (H _ I). cbn [fst] in H. rewrite E in H. destruct r as [|y r]; [congruence|].
  cbn [app] in H. apply smem_In in J. rewrite J in H. discriminate.
Qed.
Example C48_case : forall q, ~ prefix_of (comps mnt) q -> ~ In q meta_comps ->
  fget (w_fs (history false mach pfx quiet mnt plan (World host []))) q = fget host q.
Proof.
  intros q N M. apply (C48_outside_partial false mach pfx quiet mnt plan (World host []) q); auto.
  - intros m I [r E]. cbn [In meta_comps] in I. decompose [or] I; subst; try contradiction; discriminate E.
  - apply treeb_tree. vm_compute. reflexivity.
  - intros p [r [Nr E]]. assert (p = []) as ->.
    { destruct p as [|c p]; [reflexivity|]. exfalso. apply (f_equal (@List.length str)) in E. rewrite app_length in E. destruct r; [congruence|cbn in E; lia]. }
    exists dirn. split; reflexivity.
  - intros c p I [r [Nr ->]]. cbn [w_fs]. unfold host. cbn [In meta_names] in I.
    decompose [or] I; subst; try contradiction; destruct r; try congruence; reflexivity.
  - intros x a Ix Ia. assert (C : a = foo \/ a = bar).
    { cbn [In plan] in Ix. decompose [or] Ix; subst; try contradiction; cbn [op_archives In] in Ia; decompose [or] Ia; subst; try contradiction; auto. }
    destruct C as [-> | ->]; (split; [|apply no_meta_check; vm_compute; reflexivity]).
    + intros y. eapply ships_listed; [vm_compute; reflexivity|vm_compute; reflexivity].
    + intros y. eapply ships_listed; [vm_compute; reflexivity|vm_compute; reflexivity].
  - intros x I J. cbn [In plan] in I. decompose [or] I; subst; try contradiction; discriminate J.
Qed.
Example C48_case_effect : fst (session false mach pfx quiet mnt (Remove false None (L "foo"))
    (history false mach pfx quiet mnt [Add simple false None foo; Add forced false None bar] (World host []))) = None /\
  fget (w_fs (history false mach pfx quiet mnt plan (World host []))) [L "mnt"; L "usr"; L "bin"; L "tool"] = Some (reg (L "bar tool")) /\
  fget (w_fs (history false mach pfx quiet mnt plan (World host []))) [L "usr"; L "foo.txt"] = Some (reg (L "host file")).
Proof. split; [|split]; vm_compute; reflexivity. Qed.

(** C48 as stated is false: adding a package to /mnt deletes the file /.MTREE of the host. *)
Theorem C48_host_file_refuted : exists sh root w x w', ends_slash root = true /\ comps root <> [] /\ tree (w_fs w) /\
  session false mach pfx sh root x w = (None, w') /\
  ~ prefix_of (comps root) [L ".MTREE"] /\ fget (w_fs w) [L ".MTREE"] = Some (reg (L "precious")) /\ fget (w_fs w') [L ".MTREE"] = None.
Proof.
  exists quiet, mnt, (World host []), (Add simple false None foo), (snd (session false mach pfx quiet mnt (Add simple false None foo) (World host []))).
  split; [reflexivity|]. split; [discriminate|]. split; [apply treeb_tree; vm_compute; reflexivity|].
  split; [vm_compute; reflexivity|]. split; [intros [r E]; discriminate E|]. split; vm_compute; reflexivity.
Qed.
(** and conversely the file .MTREE of the package stays in the root it was added to *)
Example C48_mtree_left : exists n, fget (w_fs (history false mach pfx quiet mnt plan (World host []))) [L "mnt"; L ".MTREE"] = Some n.
Proof. eexists. vm_compute. reflexivity. Qed.
