(** C04: what a refused addition has changed, package scripts included. *)
From Verif Require Import Base BaseProofs StrModel StrSpec StrProofs RulesModel RulesSpec RulesProofs FsModel FsSpec FsProofs FsOps FsExtract
  MetaModel MetaSpec MetaProofs DbModel DbSpec DbLoad DbOps DbRun DbInv EngineFs EngineRoot DbFacts DbProps RemoveProps AddRun DbExamples AddProps.

Section Refused.
  Variables (junk : bool) (machine : str) (re : str -> str -> option bool) (sh : str -> fs -> fs * bool) (root : str).
  Notation session := (session junk machine re sh root).
  Notation R := (comps root).
  (** the reasons for refusing: an error of the package's own script counts as one *)
  Definition refuses (e : stop) : Prop := e = Already \/ e = NotInstalled \/ (exists cf, e = Conflict cf) \/ e = BadRules \/ e = ScriptFailed.
  (** the script, wherever it is run, leaves the path alone *)
  Definition spares (q : path) : Prop := forall f, fget (fst (sh (root ++ L ".PRE") f)) q = fget f q.
  Lemma pre_run_frame a w w1 q : tree (w_fs w) -> dir_at (w_fs w) R -> ends_slash root = true -> pre_run sh root a w = inl w1 \/ pre_run sh root a w = inr w1 ->
    w_db w1 = w_db w /\ (q <> R ++ [L ".PRE"] -> spares q -> fget (w_fs w1) q = fget (w_fs w) q).
  Proof.
    intros T D Rs H.
    assert (Cp : comps (root ++ L ".PRE") = R ++ [L ".PRE"]). { apply (comps_app root (L ".PRE")). right. exact Rs. }
    assert (Fr : forall n b g, extract (w_fs w) (root ++ L ".PRE") n = (b, g) -> q <> R ++ [L ".PRE"] -> fget g q = fget (w_fs w) q).
    { intros n b g E N. destruct (extract_spec _ _ _ _ _ T E) as (_ & X1 & X2 & _). rewrite Cp in X1, X2.
      assert (Dq : below q (R ++ [L ".PRE"]) -> dir_at (w_fs w) q).
      { intros (r & Nr & Eq). destruct (exists_last Nr) as (r' & c & ->). rewrite app_assoc in Eq. apply app_inj_tail in Eq as [Eq _]. destruct r' as [|c' r'].
        - rewrite app_nil_r in Eq. rewrite <- Eq. exact D.
        - destruct (fget (w_fs w) q) as [k|] eqn:G; [destruct (is_dir k) eqn:B; [exists k; split; [exact G|apply is_dir_kind; exact B]|]|];
          exfalso; (assert (Nd : ~ dir_at (w_fs w) q); [intros (k' & Gk & Kk); rewrite G in Gk; try discriminate Gk; injection Gk as <-; apply is_dir_kind in Kk; congruence|]);
          destruct D as (n0 & Gn & _); rewrite (tree_no_child_nondir _ _ T Nd R) in Gn; [discriminate Gn|exists (c' :: r'); split; [discriminate|exact Eq]|discriminate Gn|exists (c' :: r'); split; [discriminate|exact Eq]]. }
      assert (Dec : below q (R ++ [L ".PRE"]) \/ ~ below q (R ++ [L ".PRE"])).
      { destruct (list_eq_dec str_eq_dec (firstn (length q) (R ++ [L ".PRE"])) q) as [Y|Y].
        - destruct (skipn (length q) (R ++ [L ".PRE"])) as [|c r] eqn:Sk; [right; intros (r & Nr & Eq)|left; exists (c :: r); split; [discriminate|rewrite <- (firstn_skipn (length q) (R ++ [L ".PRE"])), Y, Sk; reflexivity]].
          rewrite Eq, skipn_app, Nat.sub_diag, skipn_all in Sk. exact (Nr Sk).
        - right. intros (r & Nr & Eq). apply Y. rewrite Eq, firstn_app, Nat.sub_diag, firstn_all, firstn_O, app_nil_r. reflexivity. }
      destruct Dec as [B|B]; [exact (X2 q N (Dq B))|exact (X1 q N B)]. }
    assert (G0 : forall g g' : fs, (q <> R ++ [L ".PRE"] -> fget g q = fget (w_fs w) q) -> (g' = g \/ g' = fst (sh (root ++ L ".PRE") g) \/ g' = snd (rm (fst (sh (root ++ L ".PRE") g)) (root ++ L ".PRE"))) ->
      q <> R ++ [L ".PRE"] -> spares q -> fget g' q = fget (w_fs w) q).
    { intros g g' Hg [-> | [-> | ->]] N Sp; [exact (Hg N)|rewrite (Sp g); exact (Hg N)|]. rewrite rm_frame by (rewrite Cp; exact N). rewrite (Sp g). exact (Hg N). }
    unfold pre_run in H. fold (pre_path root) in *. set (f1 := match member a (L ".PRE") with None => _ | Some n => _ end) in H.
    assert (F1 : exists g, (f1 = inl g \/ f1 = inr g) /\ (q <> R ++ [L ".PRE"] -> fget g q = fget (w_fs w) q)).
    { unfold f1. destruct (member a (L ".PRE")) as [n|]; [|exists (w_fs w); auto]. destruct (extract (w_fs w) (pre_path root) n) as [[|] g] eqn:Ex; exists g; (split; [auto|exact (Fr n _ g Ex)]). }
    destruct F1 as (g & Fg & Hg). destruct f1 as [g1|g1].
    - assert (g1 = g) by (destruct Fg as [X|X]; congruence). subst g1. destruct H as [H|H]; [|discriminate H]. injection H as <-. split; [reflexivity|]. apply (G0 g g Hg). left. reflexivity.
    - assert (g1 = g) by (destruct Fg as [X|X]; congruence). subst g1. destruct (exists_file g (pre_path root)).
      + destruct (sh (pre_path root) g) as [g' [|]] eqn:Es; destruct H as [H|H]; try discriminate H; injection H as <-; (split; [reflexivity|]); cbn [w_fs]; apply (G0 g _ Hg); right; change (root ++ L ".PRE") with (pre_path root); rewrite Es; cbn [fst]; auto.
      + destruct H as [H|H]; [discriminate H|]. injection H as <-. split; [reflexivity|]. apply (G0 g g Hg). left. reflexivity.
  Qed.
  (** Whatever the reason, no record has changed, and no file except by the .PRE script of the package (and the place of that script);
      only a forced upgrade whose rules hold an invalid pattern may have gone further. *)
  Theorem C04_refused : forall o sd conf a w e w', session (Add o sd conf a) w = (Some e, w') -> refuses e ->
    ~ (e = BadRules /\ o_force o = true /\ o_upgrade o = true) -> tree (w_fs w) -> dir_at (w_fs w) R -> ~ where_meta R -> ends_slash root = true ->
    w_db w' = w_db w /\
    forall q, ~ where_meta q -> (o_scripts o = true -> q <> R ++ [L ".PRE"] /\ spares q) -> fget (w_fs w') q = fget (w_fs w) q.
  Proof.
    intros o sd conf a w e w' E Rf Nx T D Nr Rs. set (w0 := World (cleanup_meta (w_fs w) root) (w_db w)).
    destruct (cleanup_spec (w_fs w) root T) as [T0 C0].
    assert (Q0 : forall q, ~ where_meta q -> fget (w_fs w0) q = fget (w_fs w) q) by (intros q N; apply C0; intro J; apply N, meta_where, J).
    assert (Base0 : w_db w0 = w_db w /\ forall q, ~ where_meta q -> (o_scripts o = true -> q <> R ++ [L ".PRE"] /\ spares q) -> fget (w_fs w0) q = fget (w_fs w) q) by (split; [reflexivity|intros q N _; exact (Q0 q N)]).
    apply session_add_some in E as [[-> _]|[m [Lo E]]]; [exact Base0|]. fold w0 in E.
    assert (Base1 : forall w1, (if o_scripts o then pre_run sh root a w0 else inr w0) = inl w1 \/ (if o_scripts o then pre_run sh root a w0 else inr w0) = inr w1 ->
      w_db w1 = w_db w /\ forall q, ~ where_meta q -> (o_scripts o = true -> q <> R ++ [L ".PRE"] /\ spares q) -> fget (w_fs w1) q = fget (w_fs w) q).
    { intros w1 H. destruct (o_scripts o).
      - assert (D0 : dir_at (w_fs w0) R) by (destruct D as (k & G & K); exists k; split; [rewrite (Q0 R Nr); exact G|exact K]).
        split; [exact (proj1 (pre_run_frame a w0 w1 [] T0 D0 Rs H))|]. intros q N Sp. destruct (Sp eq_refl) as [S1 S2]. rewrite (proj2 (pre_run_frame a w0 w1 q T0 D0 Rs H) S1 S2). exact (Q0 q N).
      - destruct H as [H|H]; [discriminate H|]. injection H as <-. exact Base0. }
    unfold add_run in E. destruct (open_archive junk machine root a) as [[name info]| |]; [|injection E as _ <-; exact Base0|injection E as _ <-; exact Base0].
    destruct (read_rules_file conf) as [rules|]; [|injection E as _ <-; exact Base0].
    destruct (name_exists (set_dep sd m) name && negb (o_upgrade o)); [injection E as _ <-; exact Base0|].
    destruct (negb (name_exists (set_dep sd m) name) && o_upgrade o); [injection E as _ <-; exact Base0|].
    destruct (apply_install_rules re rules (r_files info)) as [[[ins non] post]|]; [|injection E as _ <-; exact Base0].
    destruct (if o_scripts o then pre_run sh root a w0 else inr w0) as [w1|w1] eqn:Ep; [injection E as _ <-; apply Base1; left; reflexivity|].
    specialize (Base1 w1 (or_intror eq_refl)).
    match type of E with (match ?x with _ => _ end) = _ => destruct x as [e1|[w2 m2]] eqn:Ec end; [injection E as _ <-; exact Base1|].
    match type of E with (match ?x with _ => _ end) = _ => destruct x as [[e1 w3]|[[w3 m3] kl]] eqn:Eu end.
    - injection E as -> ->. destruct (o_upgrade o) eqn:U; [|discriminate Eu]. destruct (get_keep_list re rules ins) as [kl|].
      + exfalso. destruct (remove_refs _ _ _); [discriminate Eu|]. injection Eu as <- _. destruct Rf as [Z|[Z|[[cf Z]|[Z|Z]]]]; discriminate Z.
      + injection Eu as <- <-. destruct (conflicts root name ins (w_fs w1) (m_pkgs (set_dep sd m))) as [|c cf]; [injection Ec as <- _; exact Base1|].
        destruct (o_force o) eqn:Fo; [exfalso; apply Nx; auto|discriminate Ec].
    - exfalso. destruct (move_meta _ _ _) as [wm| |]; [destruct (add_files_refs _ _ _); discriminate E| |]; injection E as <- _; destruct Rf as [Z|[Z|[[cf Z]|[Z|Z]]]]; discriminate Z.
  Qed.
End Refused.
(** the hypotheses are met: a conflict found after the script of the package has run and created a file *)
Example C04_refused_case : exists cf w', session false mach pfx touchy rt (Add (Opts false false true) false None bar_pre) w_foo = (Some (Conflict cf), w') /\
  refuses (Conflict cf) /\ tree (w_fs w_foo) /\ dir_at (w_fs w_foo) (comps rt) /\ ~ where_meta (comps rt) /\ ends_slash rt = true /\
  spares touchy rt [L "usr"; L "bin"; L "tool"] /\ fget (w_fs w') [L "touched"] <> fget (w_fs w_foo) [L "touched"].
Proof.
  exists [L "usr/bin/tool"], (snd (session false mach pfx touchy rt (Add (Opts false false true) false None bar_pre) w_foo)).
  split; [rewrite <- (proj1 C04_pre_script_refuted); apply surjective_pairing|]. split; [right; right; left; eauto|]. split; [apply treeb_tree; vm_compute; reflexivity|].
  split; [eexists; split; vm_compute; reflexivity|]. split; [intros (m & I & X); discriminate X|]. split; [reflexivity|].
  split; [intro f; unfold touchy; cbn [fst]; apply fget_fset_other; discriminate|].
  destruct C04_pre_script_refuted as (_ & A & B). cbv zeta in B. rewrite A, B. discriminate.
Qed.
