(** C95: what 'cards install' and 'cards upgrade' leave in the file system. *)
From Verif Require Import Base BaseProofs StrModel StrSpec StrProofs RulesModel RulesSpec RulesProofs FsModel FsSpec FsProofs FsOps MetaModel MetaSpec MetaProofs
  DbModel DbSpec DbLoad DbOps DbRun DbInv EngineFs EngineWay DbFacts DbProps DbExamples RemoveProps AddRun AddProps UpgradeProps RootProps GenDeps GenDepsProofs GenDepsProps HexModel HexProps IndexModel FetchModel FetchProps FetchExamples
  ManyRun ManyMeta ManyFiles RemoveCmdProofs RemoveCmdExamples DiffModel DiffProps InstallModel InstallRun InstallProps InstallClosed InstallExamples UpCmdModel UpCmdProps UpCmdMore UpCmdExamples UpCmdFiles.
From Coq Require Import ZArith Lia.
Import DbInv.

(** an archive as the build tools make them: see ManyMeta and EngineWay *)
Definition sound (a : archive) : Prop := (exists nd, tidy_archive a nd) /\ tidy a /\ no_reject_area a.
(** the only name archive [a] has for the path of [x] is [x] *)
Definition one_name (a : archive) (x : str) : Prop := forall y, ships a y -> comps y = comps x -> y = x.

Section Drop.
  Variables (jk : bool) (root : str).
  Hypothesis Rs : ends_slash root = true.
  Lemma drop_spared names x n : file_name x -> ~ In n names -> forall w m w' m', db_ok (w_db w) -> agree (w_db w) m -> tree (w_fs w) -> drop_all jk root names w m = Ret tt w' m' ->
    once (w_db w) x -> lists (w_db w) n x -> fget (w_fs w') (comps root ++ comps x) = fget (w_fs w) (comps root ++ comps x).
  Proof.
    intros (Nd & [cs P] & _). induction names as [|k t IH]; intros Nn w m w' m' OK AG T E O Ln; cbn [drop_all] in E; [injection E as <- _; reflexivity|].
    destruct (remove_refs jk k (World (cleanup_meta (w_fs w) root) (w_db w), m)) as [[w1 m1]|] eqn:R; [|discriminate E].
    destruct (drop_step jk root k w m w1 m1 OK AG R) as (xs & F & AG1 & X). rewrite F in E. set (m2 := snd (remove_files root k [] (w1, m1))) in *. clearbody m2.
    destruct (cleanup_spec (w_fs w) root T) as [T0 _]. assert (Nk : n <> k) by (intros ->; apply Nn; left; reflexivity).
    assert (Ln1 : lists (mdel k (w_db w)) n x) by (apply lists_mdel; auto).
    rewrite (IH (fun J => Nn (or_intror J)) (World (del_files root xs (cleanup_meta (w_fs w) root)) (mdel k (w_db w))) m2 w' m' (db_ok_mdel (w_db w) k OK) AG1 (del_files_tree root xs _ T0) E); cbn [w_fs w_db].
    - rewrite (del_files_frame root Rs); [apply cleanup_keep; [exact T|]; rewrite (plain_comps _ _ P); exact (own_plain root x cs Nd P)|].
      intros y J Z. apply app_inv_head in Z. apply X in J as [J1 J2]. rewrite (O k y J1 (eq_sym Z)) in J2. exact (J2 n Nk Ln).
    - intros q y Lq. apply lists_mdel in Lq as [Lq _]. exact (O q y Lq).
    - exact Ln1.
  Qed.
End Drop.


Section Run.
  Variables (junk : bool) (machine : str) (re : str -> str -> option bool) (sh : str -> fs -> fs * bool) (root : str).
  Hypothesis Rs : ends_slash root = true.
  Hypothesis R0 : comps root = [].
  Lemma run_once force conf l x : tidies l -> (forall sd a, In (sd, a) l -> one_name a x) ->
    forall w m w' m', tidy_world w -> agree (w_db w) m -> run_all junk machine re sh root force false conf l w m = Ret tt w' m' -> once (w_db w) x -> once (w_db w') x.
  Proof.
    intro Ti. revert Ti. induction l as [|[sd a] l IH]; intros Ti Sp w m w' m' W AG E O; cbn [DbModel.run_all] in E; [injection E as <- _; exact O|].
    destruct (add_run junk machine re sh root (Opts force (upgrade_flag junk machine root a m) false) conf a w (set_dep sd m)) as [nm w1 m1|e w1] eqn:Ea; [|discriminate E].
    destruct (Ti sd a (or_introl eq_refl)) as [nd' Ta]. destruct (add_keeps junk machine re sh root Rs R0 _ _ _ _ _ _ _ _ _ _ Ta W AG Ea) as [W1 AG1]. pose proof (set_dep_agree _ sd m AG) as AG0.
    refine (IH (tidies_tl _ _ Ti) (fun sd' a' J => Sp sd' a' (or_intror J)) w1 m1 w' m' W1 AG1 E _).
    exact (add_once junk machine re sh root _ _ _ _ _ _ _ _ x (w_inv _ W) AG0 Ea (Sp sd a (or_introl eq_refl)) O).
  Qed.
  Lemma tidy_clean w : tidy_world w -> tidy_world (World (cleanup_meta (w_fs w) root) (w_db w)).
  Proof.
    intros [T1 T2 T3 T4]. destruct (cleanup_spec (w_fs w) root T1) as [K1 K2]. constructor; [exact K1| |exact T3|exact T4]. intros c q Jc B. cbn [w_fs]. rewrite K2; [exact (T2 c q Jc B)|].
    destruct B as [y [Nx ->]]. cbn [app]. assert (L2 : forall y, In y meta_comps -> exists z, y = [z]) by (intros z Jy; cbn [meta_comps In] in Jy; repeat (destruct Jy as [<-|Jy]; [eexists; reflexivity|]); destruct Jy).
    intro Jq. destruct (L2 _ Jq) as [z Hz]. injection Hz as _ Hz. exact (Nx Hz).
  Qed.
  Lemma clean_file w x : tidy_world w -> file_name x -> fget (cleanup_meta (w_fs w) root) (comps root ++ comps x) = fget (w_fs w) (comps root ++ comps x).
  Proof. intros W (Nd & [cs P] & _). apply cleanup_keep; [exact (w_tree _ W)|]. rewrite (plain_comps _ _ P). exact (own_plain root x cs Nd P). Qed.
End Run.

Section Install.
  Variables (junk : bool) (machine : str) (re : str -> str -> option bool) (sh : str -> fs -> fs * bool) (root : str).
  Variable url : str.
  Variable repo : list (str * ent).
  Variable sha : str -> str.
  Variable key : Type.
  Variable pem : str -> option key.
  Variable verify : key -> str -> str -> bool.
  Variable unpack : str -> option archive.
  Variable jb : Z.
  Variable arch : str -> apkg.
  Variables (fuel : nat) (host : disk) (force scripts : bool) (conf : option str) (requests : list request) (groups : list str) (s : fstate) (w : world).
  Notation cards_install := (cards_install junk machine re sh root url repo sha key pem verify unpack jb fuel host force scripts conf requests groups s w).
  Notation certified := (certified repo sha key pem verify unpack s).
  Notation trusted := (trusted url repo sha key pem verify unpack arch s).
  Notation entry_ok := (entry_ok repo sha key pem verify unpack arch s).
  Notation wanted := (InstallProps.wanted repo jb arch requests groups w).

  (** After a successful 'cards install' every file that a wanted package lists holds what the certified archive holds for it,
      whatever was installed before and after it in the same command. *)
  Theorem C95_install_content w' : trusted -> tidy_world w -> junk = false -> scripts = false -> ends_slash root = true -> comps root = [] ->
    (forall n a, certified n a -> sound a) -> cards_install = Some (None, w') ->
    exists m, load junk host = Ok m /\ forall n, wanted m n -> exists a, certified n a /\ archive_name a n /\
      forall x nd, In (x, nd) a -> n_kind nd <> KDir -> file_name x -> lists (w_db w') n x -> once (w_db w) x -> one_name a x ->
        (forall k b, wanted m k -> k <> n -> certified k b -> avoids b x) ->
        (forall rules, DbProps.known (w_db w) n -> read_rules_file conf = inl rules -> ~ verdict re UPGRADE rules x false) ->
        way_clear (w_fs w) (comps x) -> ~ dir_at (w_fs w) (comps x) ->
        fget (w_fs w') (comps x) = Some nd.
  Proof.
    intros T Tw Hj Hs Rs R0 Ta E. destruct (install_outcome junk machine re sh root url repo sha key pem verify unpack jb arch fuel host force scripts conf requests groups s w None w' T E) as [H _|mh m l hl Eh0 El N O W C F D Nm R]; [congruence|].
    set (w0 := World (cleanup_meta (w_fs w) root) (w_db w)) in *.
    destruct (run_all junk machine re sh root force scripts conf hl w0 m) as [[] w1 m1|e w1] eqn:Er; destruct R as [R1 R2]; [subst w1|discriminate R1].
    exists mh. split; [exact Eh0|]. intros n Wn. apply W in Wn. apply in_map_iff in Wn as [d [En J]]. destruct (F2_In _ _ _ _ _ _ _ _ _ _ d F J) as [[sd a] [J1 J2]]. rewrite Hs in Er.
    pose proof (proj2 (entry_name _ _ _ _ _ _ _ _ d (sd, a) n (tr_name _ _ _ _ _ _ _ _ _ T) J2) (eq_sym En)) as An. cbn [snd] in An.
    pose proof (proj2 (proj2 J2)) as Ca. rewrite En in Ca. cbn [snd] in Ca. exists a. split; [exact Ca|]. split; [exact An|].
    intros x nd Jx K Fx Ln On Sh Av Vd Wy Dr.
    assert (Ti : tidies hl). { intros sd' a' Ja. destruct (F2_back _ _ _ _ _ _ _ _ _ _ _ F Ja) as [d' [_ J4]]. exact (proj1 (Ta _ _ (proj2 (proj2 J4)))). }
    assert (Oth : forall sd' b k, In (sd', b) hl -> archive_name b k -> k <> n -> avoids b x).
    { intros sd' b k Jb Ab Nk. destruct (F2_back _ _ _ _ _ _ _ _ _ _ _ F Jb) as [d' [J3 J4]]. apply (entry_name _ _ _ _ _ _ _ _ d' (sd', b) k (tr_name _ _ _ _ _ _ _ _ _ T) J4) in Ab. subst k.
      apply (Av (fst d') b); [apply W, in_map, J3|exact Nk|exact (proj2 (proj2 J4))]. }
    apply in_split in J1 as (u & v & Eh). rewrite Eh in Er, D, Ti, Oth.
    assert (Nam : forall sd' b, In (sd', b) hl -> exists k, archive_name b k).
    { intros sd' b Jb. destruct (F2_back _ _ _ _ _ _ _ _ _ _ _ F Jb) as [d' [_ J4]]. exists (fst d'). apply (entry_name _ _ _ _ _ _ _ _ d' (sd', b) _ (tr_name _ _ _ _ _ _ _ _ _ T) J4). reflexivity. }
    rewrite Eh in Nam.
    assert (Au : forall sd' b, In (sd', b) u -> avoids b x).
    { intros sd' b Jb. assert (Jb' : In (sd', b) (u ++ (sd, a) :: v)) by (apply in_or_app; left; exact Jb). destruct (Nam _ _ Jb') as [k Ak]. apply (Oth sd' b k Jb' Ak). intros ->.
      exact (distinct_before _ u (sd, a) v n D eq_refl An sd' b Jb Ak). }
    assert (Avs : forall sd' b, In (sd', b) v -> spares b x).
    { intros sd' b Jb. apply avoids_spares. assert (Jb' : In (sd', b) (u ++ (sd, a) :: v)) by (apply in_or_app; right; right; exact Jb). destruct (Nam _ _ Jb') as [k Ak]. apply (Oth sd' b k Jb' Ak). intros ->.
      exact (distinct_after _ u (sd, a) v n D eq_refl An sd' b Jb Ak). }
    destruct (Ta n a Ca) as (_ & Ti1 & NR).
    pose proof (run_content junk machine re sh root Rs R0 force conf u sd a v x nd n w m w' m1 Ti D Fx Au Avs Sh Tw El Er On Ti1 NR Jx K An Ln Vd) as X. rewrite R0 in X. exact (X Wy Dr).
  Qed.
  (** A file of a package that is not wanted, if the package still lists it, is what it was. *)
  Theorem C95_install_untouched w' n x nd : trusted -> tidy_world w -> junk = false -> scripts = false -> ends_slash root = true -> comps root = [] ->
    (forall n a, certified n a -> sound a) -> cards_install = Some (None, w') ->
    (forall m, load junk host = Ok m -> ~ wanted m n /\ forall k b, wanted m k -> certified k b -> spares b x) ->
    file_name x -> once (w_db w) x -> lists (w_db w') n x -> fget (w_fs w) (comps x) = Some nd -> n_kind nd <> KDir ->
    fget (w_fs w') (comps x) = Some nd.
  Proof.
    intros T Tw Hj Hs Rs R0 Ta E H0 Fx On Ln G K. destruct (install_outcome junk machine re sh root url repo sha key pem verify unpack jb arch fuel host force scripts conf requests groups s w None w' T E) as [H _|mh m l hl Eh0 El N O W C F D Nm R]; [congruence|].
    set (w0 := World (cleanup_meta (w_fs w) root) (w_db w)) in *.
    destruct (run_all junk machine re sh root force scripts conf hl w0 m) as [[] w1 m1|e w1] eqn:Er; destruct R as [R1 R2]; [subst w1|discriminate R1]. rewrite Hs in Er. destruct (H0 mh Eh0) as [Nw Sp].
    assert (Ti : tidies hl). { intros sd' a' Ja. destruct (F2_back _ _ _ _ _ _ _ _ _ _ _ F Ja) as [d' [_ J4]]. exact (proj1 (Ta _ _ (proj2 (proj2 J4)))). }
    pose proof (clean_file root w x Tw Fx) as Cl. rewrite R0 in Cl. cbn [app] in Cl.
    pose proof (run_spared junk machine re sh root Rs R0 force conf hl x n nd Ti Fx) as X. rewrite R0 in X. cbn [app] in X.
    refine (X _ K w0 m w' m1 (tidy_clean root w Tw) (load_agree junk _ m (proj1 (w_inv _ Tw)) El) Er On Ln _); [|cbn [w0 w_fs]; rewrite Cl; exact G].
    intros sd a Ja. destruct (F2_back _ _ _ _ _ _ _ _ _ _ _ F Ja) as [d' [J3 J4]]. split.
    - intro An. apply (entry_name _ _ _ _ _ _ _ _ d' (sd, a) n (tr_name _ _ _ _ _ _ _ _ _ T) J4) in An. subst n. apply Nw, W, in_map, J3.
    - apply (Sp (fst d') a); [apply W, in_map, J3|exact (proj2 (proj2 J4))].
  Qed.
End Install.

Section Upgrade.
  Variables (junk : bool) (machine : str) (re : str -> str -> option bool) (sh : str -> fs -> fs * bool) (root : str).
  Variable url : str.
  Variable repo : list (str * ent).
  Variable sha : str -> str.
  Variable key : Type.
  Variable pem : str -> option key.
  Variable verify : key -> str -> str -> bool.
  Variable unpack : str -> option archive.
  Variables (j : DiffModel.junk) (jb : Z).
  Variable arch : str -> apkg.
  Variables (fuel : nat) (scripts : bool) (conf : option str) (groups : list str) (s : fstate) (w : world).
  Notation cards_upgrade := (cards_upgrade junk machine re sh root url repo sha key pem verify unpack j jb fuel false scripts conf groups s w).
  Notation certified := (certified repo sha key pem verify unpack s).
  Notation trusted := (trusted url repo sha key pem verify unpack arch s).
  Notation entry_ok := (entry_ok repo sha key pem verify unpack arch s).
  Notation wanted := (UpCmdProps.wanted repo j jb arch groups).
  Notation obsolete := (obsolete repo w).

  (** After a successful 'cards upgrade' every file that an upgraded package lists holds what the certified archive holds for it,
      and the removal of the obsolete packages has not touched it. *)
  Theorem C95_upgrade_content w' : trusted -> tidy_world w -> junk = false -> scripts = false -> ends_slash root = true -> comps root = [] ->
    (forall n a, certified n a -> sound a) -> cards_upgrade = Some (None, w') ->
    exists m, load junk (w_db w) = Ok m /\ forall n, wanted m n -> exists a, certified n a /\ archive_name a n /\
      forall x nd, In (x, nd) a -> n_kind nd <> KDir -> file_name x -> lists (w_db w') n x -> once (w_db w) x -> one_name a x ->
        (forall k b, wanted m k -> k <> n -> certified k b -> avoids b x) ->
        (forall rules, DbProps.known (w_db w) n -> read_rules_file conf = inl rules -> ~ verdict re UPGRADE rules x false) ->
        way_clear (w_fs w) (comps x) -> ~ dir_at (w_fs w) (comps x) ->
        fget (w_fs w') (comps x) = Some nd.
  Proof.
    intros T Tw Hj Hs Rs R0 Ta E. pose proof (w_inv _ Tw) as I.
    destruct (upgrade_outcome junk machine re sh root url repo sha key pem verify unpack j jb arch fuel scripts conf groups s w None w' T E) as [H _|m El _ _ Dq Nu No|m l hl del El Dq N O W Zl F D Nm Nd De R]; [congruence| |].
    { exists m. split; [exact El|]. intros n [r [H _]]. destruct (Nu r H). }
    destruct (finish_split junk machine re sh root url repo sha key pem verify unpack j jb arch scripts conf groups s w None w' m l hl del T I El W F D Nm Nd De eq_refl R) as (w1 & m1 & Er & I1 & I2 & Dl & Kp & Fr & WO).
    rewrite Er in R. pose proof (load_agree junk _ m (proj1 I) El) as AG. set (w0 := World (cleanup_meta (w_fs w) root) (w_db w)) in *. rewrite Hs in Er.
    exists m. split; [exact El|]. intros n Wn. pose proof (WO n Wn) as Hn. apply W in Wn. apply in_map_iff in Wn as [d [En J]]. destruct (F2_In _ _ _ _ _ _ _ _ _ _ d F J) as [[sd a] [J1 J2]].
    pose proof (proj2 (entry_name _ _ _ _ _ _ _ _ d (sd, a) n (tr_name _ _ _ _ _ _ _ _ _ T) J2) (eq_sym En)) as An. cbn [snd] in An.
    pose proof (proj2 (proj2 J2)) as Ca. rewrite En in Ca. cbn [snd] in Ca. exists a. split; [exact Ca|]. split; [exact An|].
    intros x nd Jx K Fx Ln On Sh Av Vd Wy Dr.
    assert (Ti : tidies hl). { intros sd' a' Ja. destruct (F2_back _ _ _ _ _ _ _ _ _ _ _ F Ja) as [d' [_ J4]]. exact (proj1 (Ta _ _ (proj2 (proj2 J4)))). }
    assert (Oth : forall sd' b k, In (sd', b) hl -> archive_name b k -> k <> n -> avoids b x).
    { intros sd' b k Jb Ab Nk. destruct (F2_back _ _ _ _ _ _ _ _ _ _ _ F Jb) as [d' [J3 J4]]. apply (entry_name _ _ _ _ _ _ _ _ d' (sd', b) k (tr_name _ _ _ _ _ _ _ _ _ T) J4) in Ab. subst k.
      apply (Av (fst d') b); [apply W, in_map, J3|exact Nk|exact (proj2 (proj2 J4))]. }
    assert (Nam : forall sd' b, In (sd', b) hl -> exists k, archive_name b k).
    { intros sd' b Jb. destruct (F2_back _ _ _ _ _ _ _ _ _ _ _ F Jb) as [d' [_ J4]]. exists (fst d'). apply (entry_name _ _ _ _ _ _ _ _ d' (sd', b) _ (tr_name _ _ _ _ _ _ _ _ _ T) J4). reflexivity. }
    destruct (run_keeps junk machine re sh root Rs R0 true conf hl Ti w0 m w1 m1 (tidy_clean root w Tw) AG Er) as (Tw1 & AG1 & _).
    assert (L1 : lists (w_db w1) n x) by exact (lists_same _ (w_db w') _ _ (Kp _ Hn) Ln).
    destruct (Ta n a Ca) as (_ & Ti1 & NR). apply in_split in J1 as (u & v & Eh). rewrite Eh in Er, D, Ti, Oth, Nam.
    assert (Au : forall sd' b, In (sd', b) u -> avoids b x).
    { intros sd' b Jb. assert (Jb' : In (sd', b) (u ++ (sd, a) :: v)) by (apply in_or_app; left; exact Jb). destruct (Nam _ _ Jb') as [k Ak]. apply (Oth sd' b k Jb' Ak). intros ->.
      exact (distinct_before _ u (sd, a) v n D eq_refl An sd' b Jb Ak). }
    assert (Avs : forall sd' b, In (sd', b) v -> spares b x).
    { intros sd' b Jb. apply avoids_spares. assert (Jb' : In (sd', b) (u ++ (sd, a) :: v)) by (apply in_or_app; right; right; exact Jb). destruct (Nam _ _ Jb') as [k Ak]. apply (Oth sd' b k Jb' Ak). intros ->.
      exact (distinct_after _ u (sd, a) v n D eq_refl An sd' b Jb Ak). }
    pose proof (run_content junk machine re sh root Rs R0 true conf u sd a v x nd n w m w1 m1 Ti D Fx Au Avs Sh Tw El Er On Ti1 NR Jx K An L1 Vd) as X. rewrite R0 in X. cbn [app] in X. specialize (X Wy Dr).
    assert (O1 : once (w_db w1) x).
    { refine (run_once junk machine re sh root Rs R0 true conf _ x Ti _ w0 m w1 m1 (tidy_clean root w Tw) AG Er On). intros sd' b Jb. apply in_app_iff in Jb as [Jb|[Jb|Jb]]; [exact (proj2 (avoids_spares _ _ (Au _ _ Jb)))| |exact (proj2 (Avs _ _ Jb))].
      injection Jb as <- <-. exact Sh. }
    destruct (drop_all junk root del w1 m1) as [[] w2 m2|e w2] eqn:Ed; [|destruct R as [R _]; discriminate R]. destruct R as [_ ->].
    pose proof (drop_spared junk root Rs del x n Fx (fun H => Hn (proj1 (De n) H)) w1 m1 w2 m2 (proj1 I1) AG1 (w_tree _ Tw1) Ed O1 L1) as Y. rewrite R0 in Y. cbn [app] in Y. rewrite Y. exact X.
  Qed.
  (** A file of a package that is neither upgraded nor obsolete, if the package still lists it, is what it was. *)
  Theorem C95_upgrade_untouched w' n x nd : trusted -> tidy_world w -> junk = false -> scripts = false -> ends_slash root = true -> comps root = [] ->
    (forall n a, certified n a -> sound a) -> cards_upgrade = Some (None, w') ->
    (forall m, load junk (w_db w) = Ok m -> ~ wanted m n /\ forall k b, wanted m k -> certified k b -> spares b x) -> ~ obsolete n ->
    file_name x -> once (w_db w) x -> lists (w_db w') n x -> fget (w_fs w) (comps x) = Some nd -> n_kind nd <> KDir ->
    fget (w_fs w') (comps x) = Some nd.
  Proof.
    intros T Tw Hj Hs Rs R0 Ta E H0 Hn Fx On Ln G K. pose proof (w_inv _ Tw) as I. pose proof (clean_file root w x Tw Fx) as Cl. rewrite R0 in Cl. cbn [app] in Cl.
    destruct (upgrade_outcome junk machine re sh root url repo sha key pem verify unpack j jb arch fuel scripts conf groups s w None w' T E) as [H _|m El _ Ew Dq Nu No|m l hl del El Dq N O W Zl F D Nm Nd De R]; [congruence| |].
    { rewrite Ew. cbn [w_fs]. rewrite Cl. exact G. }
    destruct (finish_split junk machine re sh root url repo sha key pem verify unpack j jb arch scripts conf groups s w None w' m l hl del T I El W F D Nm Nd De eq_refl R) as (w1 & m1 & Er & I1 & I2 & Dl & Kp & Fr & WO).
    rewrite Er in R. pose proof (load_agree junk _ m (proj1 I) El) as AG. set (w0 := World (cleanup_meta (w_fs w) root) (w_db w)) in *. rewrite Hs in Er. destruct (H0 m El) as [Nw Sp].
    assert (Ti : tidies hl). { intros sd' a' Ja. destruct (F2_back _ _ _ _ _ _ _ _ _ _ _ F Ja) as [d' [_ J4]]. exact (proj1 (Ta _ _ (proj2 (proj2 J4)))). }
    assert (Q : forall sd a, In (sd, a) hl -> ~ archive_name a n /\ spares a x).
    { intros sd a Ja. destruct (F2_back _ _ _ _ _ _ _ _ _ _ _ F Ja) as [d' [J3 J4]]. split.
      - intro An. apply (entry_name _ _ _ _ _ _ _ _ d' (sd, a) n (tr_name _ _ _ _ _ _ _ _ _ T) J4) in An. subst n. apply Nw, W, in_map, J3.
      - apply (Sp (fst d') a); [apply W, in_map, J3|exact (proj2 (proj2 J4))]. }
    destruct (run_keeps junk machine re sh root Rs R0 true conf hl Ti w0 m w1 m1 (tidy_clean root w Tw) AG Er) as (Tw1 & AG1 & _).
    assert (L1 : lists (w_db w1) n x) by exact (lists_same _ (w_db w') _ _ (Kp _ Hn) Ln).
    pose proof (run_spared junk machine re sh root Rs R0 true conf hl x n nd Ti Fx Q K w0 m w1 m1 (tidy_clean root w Tw) AG Er On L1) as X. rewrite R0 in X. cbn [app w0 w_fs] in X. rewrite Cl in X. specialize (X G).
    assert (O1 : once (w_db w1) x).
    { refine (run_once junk machine re sh root Rs R0 true conf _ x Ti _ w0 m w1 m1 (tidy_clean root w Tw) AG Er On). intros sd' b Jb. exact (proj2 (proj2 (Q _ _ Jb))). }
    destruct (drop_all junk root del w1 m1) as [[] w2 m2|e w2] eqn:Ed; [|destruct R as [R _]; discriminate R]. destruct R as [_ ->].
    pose proof (drop_spared junk root Rs del x n Fx (fun H => Hn (proj1 (De n) H)) w1 m1 w2 m2 (proj1 I1) AG1 (w_tree _ Tw1) Ed O1 L1) as Y. rewrite R0 in Y. cbn [app] in Y. rewrite Y. exact X.
  Qed.
End Upgrade.
