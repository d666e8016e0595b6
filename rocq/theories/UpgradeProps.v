(** Properties C07, C08, C51, C52: what an add or upgrade does to the files. *)
From Verif Require Import Base BaseProofs StrModel StrSpec StrProofs RulesModel RulesSpec RulesProofs FsModel FsSpec FsProofs FsOps FsExtract
  MetaModel MetaSpec MetaProofs DbModel DbSpec DbLoad DbOps DbRun DbInv EngineFs EngineRoot EngineWay DbFacts DbProps RemoveProps AddRun DbExamples AddProps.

Lemma nodot_hd x : nodot x -> hd zero x <> "."%char.
Proof. intros N H. destruct x as [|c x]; [discriminate|]. cbn in H. subst c. exact (N x eq_refl). Qed.
Lemma plain_single x m : plain x [m] -> x = m \/ x = m ++ [slash].
Proof. intro P. inversion P as [cs A B|cs A B]; subst; auto. Qed.

Section Upgrade.
  Variables (junk : bool) (machine : str) (re : str -> str -> option bool) (sh : str -> fs -> fs * bool) (root : str).
  Hypothesis Rs : ends_slash root = true.
  Notation session := (session junk machine re sh root).
  Notation R := (comps root).

  (** the metadata files the tool handles itself *)
  Definition where_own (q : path) : Prop :=
    where_meta q \/ exists m, In m [L ".META"; L ".POSTR"; L ".PRER"; L ".PRE"; L ".POST"] /\ q = R ++ [m].
  Lemma own_app x cs : nodot x -> plain x cs -> forall r, ~ where_own (R ++ cs ++ r).
  Proof.
    intros Nd P r H. destruct (plain_comp _ _ P) as [_ N].
    assert (X : exists m v, m = "."%char :: v /\ cs = [m]).
    { destruct H as [[m [I E]]|[m [I E]]].
      - assert (D : exists v, m = "."%char :: v) by (cbn [In] in I; decompose [or] I; subst; try contradiction; eexists; reflexivity).
        destruct D as [v ->]. exists ("."%char :: v), v. split; auto. destruct R as [|c t]; cbn [app] in E.
        + destruct cs as [|c [|d cs]]; [congruence| |discriminate]. cbn [app] in E. inversion E; auto.
        + exfalso. inversion E as [[E1 E2]]. apply app_eq_nil in E2 as [_ E2]. apply app_eq_nil in E2 as [E2 _]. congruence.
      - assert (D : exists v, m = "."%char :: v) by (cbn [In] in I; decompose [or] I; subst; try contradiction; eexists; reflexivity).
        destruct D as [v ->]. exists ("."%char :: v), v. split; auto. apply app_inv_head in E.
        destruct cs as [|c [|d cs]]; [congruence| |discriminate]. cbn [app] in E. inversion E; auto. }
    destruct X as [m [v [-> ->]]]. apply plain_single in P as [-> | ->]; exact (Nd _ eq_refl).
  Qed.
  Lemma own_plain x cs : nodot x -> plain x cs -> ~ where_own (R ++ cs).
  Proof. intros Nd P. pose proof (own_app x cs Nd P []) as H. rewrite app_nil_r in H. exact H. Qed.

  (** after the archive is unpacked nothing else but the tool's own files is touched *)
  Lemma final_fs name w4 m3 w5 m5 d q : tree (w_fs w4) -> move_meta root name (w4, m3) = Ok (w5, m5) -> ~ where_own q ->
    fget (w_fs (post_run sh root false (World (w_fs w5) d))) q = fget (w_fs w4) q.
  Proof.
    intros T E N. rewrite (post_run_frame sh root Rs).
    - cbn [w_fs]. apply (move_meta_fs root Rs name w4 m3 w5 m5 q T E); intros ->; apply N.
      + right. exists (L ".META"). cbn [In]. split; [clear; tauto|reflexivity].
      + right. exists (L ".POSTR"). cbn [In]. split; [clear; tauto|reflexivity].
      + right. exists (L ".PRER"). cbn [In]. split; [clear; tauto|reflexivity].
      + left. exists (L ".MTREE"). cbn [In]. split; [clear; tauto|reflexivity].
    - intros ->; apply N. right. exists (L ".PRE"). cbn [In]. split; [clear; tauto|reflexivity].
    - intros ->; apply N. right. exists (L ".POST"). cbn [In]. split; [clear; tauto|reflexivity].
  Qed.
  Lemma cleanup_keep f q : tree f -> ~ where_own q -> fget (cleanup_meta f root) q = fget f q.
  Proof. intros T N. apply cleanup_spec; auto. intro J. apply N. left. apply meta_where, J. Qed.
  Lemma way_sub f g p : (forall q, fget g q = fget f q \/ fget g q = None) -> way_clear f p -> way_clear g p.
  Proof.
    intros S W q B. destruct (S q) as [E|E]; [|auto]. destruct (W q B) as [Z|Z]; [left; congruence|right]. eapply dir_at_ext; [symmetry; exact E|exact Z].
  Qed.
  Lemma del_sub2 l1 l2 f : tree f -> forall q, fget (del_files root l2 (del_files root l1 (cleanup_meta f root))) q = fget f q \/
     fget (del_files root l2 (del_files root l1 (cleanup_meta f root))) q = None.
  Proof.
    intros T q. destruct (del_files_sub root Rs l2 (del_files root l1 (cleanup_meta f root)) q) as [-> | ->]; auto.
    destruct (del_files_sub root Rs l1 (cleanup_meta f root) q) as [-> | ->]; auto. apply cleanup_sub; auto.
  Qed.
  Lemma ends_no x : ~ (exists y, x = y ++ [slash]) -> ends_slash x = false.
  Proof. intro N. apply not_true_iff_false. intro E. apply ends_slash_iff in E. auto. Qed.
  Lemma plain_nonempty x cs : plain x cs -> x <> [].
  Proof. intros P ->. pose proof (plain_comps _ _ P) as C. destruct (plain_comp _ _ P) as [_ N]. cbn in C. congruence. Qed.

  (** one name for one path among what the archive ships and what the installed version lists *)
  Definition spelled_once (a : archive) (d : disk) (x : str) : Prop :=
    forall nm y, archive_name a nm -> ships a y \/ lists d nm y -> comps y = comps x -> y = x.

  (** the hypotheses shared by the two halves of C07 *)
  Definition protected (o : opts) (rules : list rule) (a : archive) (d : disk) (x : str) (m : node) : Prop :=
    o_upgrade o = true /\ o_scripts o = false /\ tidy a /\ no_reject_area a /\
    ships a x /\ (exists cs, plain x cs) /\ ~ (exists y, x = y ++ [slash]) /\ In (x, m) a /\ n_kind m <> KDir /\ spelled_once a d x /\
    verdict re INSTALL rules x true /\ verdict re UPGRADE rules x false.
  Lemma protected_run o sd conf a w w' x m n rules : no_dot_name a -> tree (w_fs w) -> read_rules_file conf = inl rules ->
    protected o rules a (w_db w) x m -> fget (w_fs w) (R ++ comps x) = Some n ->
    session (Add o sd conf a) w = (None, w') ->
    exists keep non f, tree f /\ In x keep /\ ~ In x non /\ fget f (R ++ comps x) = Some n /\
      (forall q, fget f q = fget (w_fs w) q \/ fget f q = None) /\
      (forall q, ~ where_own q -> fget (w_fs w') q = fget (install_archive root a keep non f) q).
  Proof.
    intros ND T Er (U & NS & Ti & NR & Sx & [cs Px] & Ex & Im & Km & Sp & V1 & V2) G E.
    apply add_session in E as (w1 & name & info & rules' & ins & non & post & l1 & l2 & kl & d3 & m3 & w5 & m5 & Dw & Ew & Eo & Er' & Ei & _ & _ & I1 & KL & _ & _ & I2 & _ & _ & _ & Em & ->); auto.
    rewrite Er in Er'. inversion Er'; subst rules'. clear Er'.
    rewrite NS in Ew. inversion Ew; subst w1. cbn [w_fs] in *. clear Ew Dw.
    pose proof (open_name _ _ _ _ _ _ Eo) as [An Sh]. pose proof (install_rules_spec _ _ _ _ _ _ Ei) as [Ai [Ni _]].
    assert (Nd : nodot x) by (destruct Sx as [ls [_ [_ H]]]; exact H).
    assert (Cx : comps x = cs) by (apply plain_comps, Px).
    pose proof (own_plain x cs Nd Px) as NO. rewrite <- Cx in NO.
    assert (Kx : kept re o rules x) by (split; auto).
    assert (Ikl : In x kl) by (apply KL; split; [apply Ai; split; [apply Sh, Sx|exact V1]|exact Kx]).
    exists kl, non, (del_files root l2 (del_files root l1 (cleanup_meta (w_fs w) root))).
    destruct (cleanup_spec (w_fs w) root T) as [T0 _].
    assert (T2 : tree (del_files root l2 (del_files root l1 (cleanup_meta (w_fs w) root)))) by (apply del_files_tree; auto; apply del_files_tree; auto).
    split; [exact T2|]. split; [exact Ikl|]. split; [|split; [|split]].
    - intro In'. apply Ni in In' as [_ V]. pose proof (verdict_det _ _ _ _ _ _ V1 V). discriminate.
    - rewrite (del_files_frame root Rs); [rewrite (del_files_frame root Rs)|].
      + rewrite cleanup_keep; auto.
      + intros y I Z. apply I1 in I as [C NK]. apply app_inv_head in Z. apply NK. assert (y = x); [|subst; exact Kx].
        apply (Sp name); auto. left. apply C.
      + intros y I Z. apply I2 in I as [_ [[Ly _] NK]]. apply app_inv_head in Z. apply NK. assert (y = x); [|subst; exact Ikl].
        apply (Sp name); auto.
    - apply del_sub2; auto.
    - intros q Nq. rewrite NS. exact (final_fs name (World (install_archive root a kl non (del_files root l2 (del_files root l1 (cleanup_meta (w_fs w) root)))) d3) m3 w5 m5 _ q (install_tree root a kl non _ T2) Em Nq).
  Qed.
  (** C07: a protected file that exists keeps everything lstat and reading show *)
  Theorem C07_protected_kept o sd conf a w w' x m n rules : no_dot_name a -> tree (w_fs w) -> read_rules_file conf = inl rules ->
    protected o rules a (w_db w) x m -> fget (w_fs w) (R ++ comps x) = Some n -> n_kind n <> KDir ->
    session (Add o sd conf a) w = (None, w') -> fget (w_fs w') (R ++ comps x) = Some n.
  Proof.
    intros ND T Er P G Kn E. destruct (protected_run o sd conf a w w' x m n rules ND T Er P G E) as (keep & non & f & Tf & Ik & Nn & Gf & Sf & F).
    destruct P as (U & NS & Ti & NR & Sx & [cs Px] & Ex & Im & Km & Sp & V1 & V2). rewrite F.
    - apply (install_kept root a keep non x m n Ti NR Im (plain_nonempty _ _ Px) (ends_no _ Ex) Ik Kn Km f Tf Gf).
    - rewrite (plain_comps _ _ Px). apply (own_plain x cs); auto. destruct Sx as [ls [_ [_ H]]]; exact H.
  Qed.
  (** C07: the archive's version is found in the rejected area exactly if it differs *)
  Theorem C07_rejected_copy o sd conf a w w' x m n rules : no_dot_name a -> tree (w_fs w) -> read_rules_file conf = inl rules ->
    protected o rules a (w_db w) x m -> fget (w_fs w) (R ++ comps x) = Some n -> n_kind n = KReg -> n_kind m = KReg ->
    way_clear (w_fs w) (R ++ reject_comps ++ comps x) -> ~ dir_at (w_fs w) (R ++ reject_comps ++ comps x) ->
    session (Add o sd conf a) w = (None, w') ->
    (alike m n -> fget (w_fs w') (R ++ reject_comps ++ comps x) = None) /\
    (~ alike m n -> fget (w_fs w') (R ++ reject_comps ++ comps x) = Some m).
  Proof.
    intros ND T Er P G Kn Km' W D E. destruct (protected_run o sd conf a w w' x m n rules ND T Er P G E) as (keep & non & f & Tf & Ik & Nn & Gf & Sf & F).
    destruct P as (U & NS & Ti & NR & Sx & [cs Px] & Ex & Im & Km & Sp & V1 & V2). rewrite F.
    - apply (install_rejects root a keep non x m n Ti NR Im (plain_nonempty _ _ Px) (ends_no _ Ex)); auto.
      + rewrite (plain_comps _ _ Px). apply (plain_comp _ _ Px).
      + eapply way_sub; [exact Sf|exact W].
      + intros [z [Z1 Z2]]. apply D. exists z. split; [|exact Z2]. destruct (Sf (R ++ reject_comps ++ comps x)); congruence.
    - intros [[q [I Z]]|[q [I Z]]].
      + apply (f_equal (@List.length str)) in Z. rewrite !app_length in Z. cbn [reject_comps List.length] in Z. lia.
      + apply app_inv_head in Z. discriminate.
  Qed.

  (** C08: what only the old version lists, and the new one does not ship, is gone (or is a directory in which something is left) *)
  Theorem C08_dropped_gone o sd conf a w w' name x : no_dot_name a -> archive_name a name -> o_upgrade o = true -> o_scripts o = false -> tree (w_fs w) ->
    session (Add o sd conf a) w = (None, w') ->
    (forall y, lists (w_db w) name y -> well_spelled root (w_fs w) y) ->
    lists_alone (w_db w) name x -> nodot x -> ~ ships a x ->
    (forall y m, In (y, m) a -> ~ prefix_of (comps x) (comps y)) -> ~ prefix_of (comps x) reject_comps -> ~ prefix_of reject_comps (comps x) ->
    fget (w_fs w') (R ++ comps x) = None \/
    (dir_at (w_fs w') (R ++ comps x) /\ exists q, below (R ++ comps x) q /\ fget (w_fs w') q <> None).
  Proof.
    intros ND An U NS T E W Lx Nd Ns Off Rj1 Rj2.
    apply add_session in E as (w1 & name' & info & rules & ins & non & post & l1 & l2 & kl & d3 & m3 & w5 & m5 & Dw & Ew & Eo & Er & Ei & _ & _ & I1 & KL & _ & S2 & I2 & _ & _ & _ & Em & ->); auto.
    rewrite NS in Ew. inversion Ew; subst w1. cbn [w_fs] in *. clear Ew Dw.
    pose proof (open_name _ _ _ _ _ _ Eo) as [An' Sh]. rewrite (archive_name_unique _ _ _ An' An) in *. clear An' name'. pose proof (install_rules_spec _ _ _ _ _ _ Ei) as [Ai [Ni _]].
    destruct (cleanup_spec (w_fs w) root T) as [T0 _].
    set (f1 := del_files root l1 (cleanup_meta (w_fs w) root)) in *.
    assert (T1 : tree f1) by (apply del_files_tree; auto).
    assert (Ix : In x l2).
    { apply I2. split; [exact U|]. split; [exact Lx|]. intro I. apply KL in I as [I _]. apply Ai in I as [I _]. apply Ns, Sh, I. }
    assert (PL : forall y, In y l2 -> exists cs, plain y cs).
    { intros y I. apply I2 in I as [_ [[I _] _]]. apply W, I. }
    assert (FT : forall y, In y l2 -> fits root f1 y).
    { intros y I. apply I2 in I as [_ [[I _] _]]. eapply (fits_sub root); [|apply (spelled_fits root); [exact T|apply W, I]]. intro q. apply (del_files_sub root Rs). }
    pose proof (del_files_gone root Rs l2 f1 x T1 S2 PL FT Ix) as H. cbv zeta in H.
    assert (T2 : tree (del_files root l2 f1)) by (apply del_files_tree; auto).
    destruct (PL x Ix) as [cs Px]. pose proof (plain_comps _ _ Px) as Cx.
    assert (NJ : forall r y, ~ prefix_of (R ++ comps x ++ r) (R ++ reject_comps ++ comps y)).
    { intros r y Z. rewrite prefix_app in Z. destruct Z as [s Z]. rewrite <- app_assoc in Z.
      assert (P : prefix_of (comps x) (reject_comps ++ comps y)) by (exists (r ++ s); exact Z). apply prefix_comparable in P as [P|P]; auto. }
    assert (F : fget (install_archive root a kl non (del_files root l2 f1)) (R ++ comps x) = fget (del_files root l2 f1) (R ++ comps x)).
    { apply install_frame; [exact T2|]. intros y m I. specialize (Off y m I). rewrite below_app. rewrite prefix_below in Off. split; [|split].
      - intro Z. apply app_inv_head in Z. apply Off. auto.
      - tauto.
      - pose proof (NJ [] y) as Z. rewrite app_nil_r in Z. exact Z. }
    assert (Fin : forall r, fget (w_fs (post_run sh root false (World (w_fs w5) (put_file name (L "files") (text_of ins) (w_db w5))))) (R ++ comps x ++ r) =
       fget (install_archive root a kl non (del_files root l2 f1)) (R ++ comps x ++ r)).
    { intro r. refine (final_fs name (World (install_archive root a kl non (del_files root l2 f1)) d3) m3 w5 m5 _ _ (install_tree root a kl non _ T2) Em _). rewrite Cx. exact (own_app x cs Nd Px r). }
    rewrite NS. pose proof (Fin []) as Fx. rewrite app_nil_r in Fx. rewrite Fx, F. destruct H as [H|[H [q [[r [Nr ->]] Hq]]]]; [left; exact H|right]. split.
    - eapply dir_at_ext; [|exact H]. congruence.
    - exists (R ++ comps x ++ r). split; [exists r; split; [exact Nr|apply app_assoc]|]. rewrite Fin. apply install_present; [exact T2| |rewrite app_assoc; exact Hq].
      intros y m _. apply NJ.
  Qed.

  (** C51 / C08: without force, the file of another package is left alone, unless the archive ships something below its path *)
  Theorem C51_other_file_kept_partial o sd conf a w w' n x nd : no_dot_name a -> o_force o = false -> o_scripts o = false -> tree (w_fs w) ->
    session (Add o sd conf a) w = (None, w') ->
    nodot n -> ~ archive_name a n -> lists (w_db w) n x -> (forall nm, archive_name a nm -> ~ lists (w_db w) nm x) -> nodot x ->
    (exists cs, plain x cs) -> ~ (exists y, x = y ++ [slash]) -> spelled_once a (w_db w) x ->
    (forall y k, In (y, k) a -> comps y = comps x -> y = x /\ ships a x) ->
    (forall y k, In (y, k) a -> ~ below (comps x) (comps y)) -> ~ prefix_of (comps x) reject_comps -> ~ prefix_of reject_comps (comps x) ->
    fget (w_fs w) (R ++ comps x) = Some nd -> n_kind nd <> KDir -> fget (w_fs w') (R ++ comps x) = Some nd.
  Proof.
    intros ND Fo NS T E Nn NA Ln NL Nd [cs Px] Ex Sp Sh1 NB Rj1 Rj2 G Kn.
    pose proof (C03_success_no_conflict junk machine re sh root Rs o sd conf a w w' ND Fo NS E) as [nm [ru [Anm [Eru NC]]]].
    apply add_session in E as (w1 & name & info & rules & ins & non & post & l1 & l2 & kl & d3 & m3 & w5 & m5 & Dw & Ew & Eo & Er & Ei & _ & Nl1 & I1 & KL & _ & S2 & I2 & _ & _ & _ & Em & ->); auto.
    rewrite Er in Eru. inversion Eru; subst ru. clear Eru.
    rewrite NS in Ew. inversion Ew; subst w1. cbn [w_fs] in *. clear Ew Dw.
    pose proof (open_name _ _ _ _ _ _ Eo) as [An Sh]. rewrite (archive_name_unique _ _ _ Anm An) in *. clear Anm nm.
    pose proof (install_rules_spec _ _ _ _ _ _ Ei) as [Ai [Ni _]].
    rewrite (Nl1 Fo) in *. change (del_files root [] (cleanup_meta (w_fs w) root)) with (cleanup_meta (w_fs w) root) in *.
    destruct (cleanup_spec (w_fs w) root T) as [T0 _]. pose proof (plain_comps _ _ Px) as Cx.
    pose proof (own_plain x cs Nd Px) as NO. rewrite <- Cx in NO.
    assert (T2 : tree (del_files root l2 (cleanup_meta (w_fs w) root))) by (apply del_files_tree; auto).
    rewrite NS. rewrite (final_fs name (World (install_archive root a kl non (del_files root l2 (cleanup_meta (w_fs w) root))) d3) m3 w5 m5 _ _ (install_tree root a kl non _ T2) Em NO). cbn [w_fs].
    apply install_spared; [exact T2| |exact Kn|].
    - rewrite (del_files_frame root Rs); [rewrite cleanup_keep; auto|]. intros y I Z. apply I2 in I as [_ [[Ly Al] _]]. apply app_inv_head in Z.
      assert (y = x) by (apply (Sp name); auto). subst y. apply (Al n Nn); auto. intros ->. auto.
    - intros y k I. destruct (path_eq_dec (comps y) (comps x)) as [Ey|Ny].
      + left. destruct (Sh1 y k I Ey) as [-> Sx]. destruct (install_rules_partition _ _ _ _ _ _ Ei x) as [Pt _]. destruct Pt as [[Pt _]|[Pt _]].
        * apply Sh, Sx.
        * exfalso. apply (NC x). split; [exact Sx|]. split; [apply Ai, Pt|]. split; [exact Ex|]. split; [|apply NL, An].
          left. exists n. split; [intros ->; auto|]. split; [exact Nn|exact Ln].
        * exact Pt.
      + right. rewrite !prefix_app. split.
        * rewrite prefix_below. intros [Z|Z]; [auto|exact (NB y k I Z)].
        * intro P. apply prefix_comparable in P as [P|P]; auto.
  Qed.

  (** C52: a file that the rules let through and do not protect is on disk with the content, mode and owner of the archive,
      provided nothing but directories was on the way and no directory was in its place *)
  Theorem C52_content_installed o sd conf a w w' x m rules : no_dot_name a -> o_scripts o = false -> tree (w_fs w) -> read_rules_file conf = inl rules ->
    session (Add o sd conf a) w = (None, w') -> tidy a -> no_reject_area a ->
    In (x, m) a -> n_kind m <> KDir -> nodot x -> (exists cs, plain x cs) ->
    ~ verdict re INSTALL rules x false -> (o_upgrade o = true -> ~ verdict re UPGRADE rules x false) ->
    way_clear (w_fs w) (R ++ comps x) -> ~ dir_at (w_fs w) (R ++ comps x) ->
    fget (w_fs w') (R ++ comps x) = Some m.
  Proof.
    intros ND NS T Er E Ti NR Im Km Nd [cs Px] V1 V2 W D.
    apply add_session in E as (w1 & name & info & rules' & ins & non & post & l1 & l2 & kl & d3 & m3 & w5 & m5 & Dw & Ew & Eo & Er' & Ei & _ & _ & I1 & KL & _ & S2 & I2 & _ & _ & _ & Em & ->); auto.
    rewrite Er in Er'. inversion Er'; subst rules'. clear Er'.
    rewrite NS in Ew. inversion Ew; subst w1. cbn [w_fs] in *. clear Ew Dw.
    pose proof (install_rules_spec _ _ _ _ _ _ Ei) as [Ai [Ni _]].
    destruct (cleanup_spec (w_fs w) root T) as [T0 _]. pose proof (plain_comps _ _ Px) as Cx.
    pose proof (own_plain x cs Nd Px) as NO. rewrite <- Cx in NO.
    assert (T2 : tree (del_files root l2 (del_files root l1 (cleanup_meta (w_fs w) root)))) by (apply del_files_tree; auto; apply del_files_tree; auto).
    rewrite NS. rewrite (final_fs name (World (install_archive root a kl non (del_files root l2 (del_files root l1 (cleanup_meta (w_fs w) root)))) d3) m3 w5 m5 _ _ (install_tree root a kl non _ T2) Em NO). cbn [w_fs].
    pose proof (del_sub2 l1 l2 (w_fs w) T) as Sf.
    apply (install_content root a kl non x m Ti NR Im Km); auto.
    - rewrite Cx. apply (plain_comp _ _ Px).
    - intro I. apply KL in I as [_ [U V]]. exact (V2 U V).
    - intro I. apply Ni in I as [_ V]. exact (V1 V).
    - eapply way_sub; [exact Sf|exact W].
    - intros [z [Z1 Z2]]. apply D. exists z. split; [|exact Z2]. destruct (Sf (R ++ comps x)); congruence.
  Qed.
End Upgrade.
