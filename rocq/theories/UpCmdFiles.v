(** C77: what happens to the files of the obsolete packages. *)
From Verif Require Import Base BaseProofs StrModel StrSpec StrProofs RulesModel RulesSpec RulesProofs FsModel FsSpec FsProofs FsOps MetaModel MetaSpec MetaProofs
  DbModel DbSpec DbLoad DbOps DbRun DbInv EngineFs DbFacts DbProps DbExamples RemoveProps AddRun AddProps RootProps GenDeps GenDepsProofs GenDepsProps HexModel HexProps IndexModel FetchModel FetchProps FetchExamples
  ManyRun ManyMeta RemoveCmdProofs RemoveCmdExamples DiffModel DiffProps InstallModel InstallRun InstallProps InstallClosed InstallExamples UpCmdModel UpCmdProps UpCmdMore UpCmdExamples.
From Coq Require Import ZArith Lia.
Import DbInv.

(** ** the removal, file by file *)
Section Drop.
  Variables (jk : bool) (root : str).
  Hypothesis Rs : ends_slash root = true.
  Lemma del_files_one xs f x cs : plain x cs -> ends_slash x = false -> In x xs ->
    fget (del_files root xs f) (comps root ++ cs) = None \/ dir_at (del_files root xs f) (comps root ++ cs).
  Proof.
    intros P Es J. unfold del_files. apply in_rev, in_split in J as (u & v & ->). rewrite fold_left_app. cbn [fold_left].
    set (g := fold_left (del_one root) u f). assert (Fi : fits root g x) by (intro Z; congruence).
    destruct (del_fold_sub root Rs v (del_one root g x) (comps root ++ cs)) as [E|E]; [|left; exact E].
    destruct (del_one_gone root Rs g x cs P Fi) as [G|([nd [G K]] & _ & D)]; unfold R in *; [left; congruence|].
    right. exists nd. split; [congruence|exact K].
  Qed.
  Lemma agree_lists (d : disk) m n x : agree d m -> (lists d n x <-> exists r, mget n (m_pkgs m) = Some r /\ In x (r_files r)).
  Proof.
    intros [_ A]. specialize (A n). destruct (mget n (m_pkgs m)) as [r|].
    - destruct A as [Fo (dir & G & H)]. rewrite (lists_text d n dir _ x G H Fo). split; [intro J; exists r; auto|intros (r' & E & J); injection E as <-; exact J].
    - split; [intros (dir & c & G & _); congruence|intros (r & E & _); discriminate E].
  Qed.
  Lemma listed_dec_db (d : disk) m x : agree d m -> {exists n, lists d n x} + {~ exists n, lists d n x}.
  Proof.
    intro AG. destruct (existsb (fun p : str * rec => smem x (r_files (snd p))) (m_pkgs m)) eqn:E.
    - left. apply existsb_exists in E as [[n r] [I J]]. exists n. apply (agree_lists d m n x AG). exists r. split; [apply (In_mget n r); [apply ssorted_NoDup, AG|exact I]|apply smem_In, J].
    - right. intros [n Ln]. apply (agree_lists d m n x AG) in Ln as (r & G & J). assert (Z : existsb (fun p : str * rec => smem x (r_files (snd p))) (m_pkgs m) = true); [|congruence].
      apply existsb_exists. exists (n, r). split; [exact (mget_In _ _ _ G)|apply smem_In, J].
  Qed.
  (** one obsolete package *)
  Lemma drop_step n w m w1 m1 : db_ok (w_db w) -> agree (w_db w) m -> remove_refs jk n (World (cleanup_meta (w_fs w) root) (w_db w), m) = Some (w1, m1) ->
    exists xs, remove_files root n [] (w1, m1) = (World (del_files root xs (cleanup_meta (w_fs w) root)) (mdel n (w_db w)), snd (remove_files root n [] (w1, m1))) /\
      agree (mdel n (w_db w)) (snd (remove_files root n [] (w1, m1))) /\
      forall x, In x xs <-> lists (w_db w) n x /\ forall k, k <> n -> ~ lists (w_db w) k x.
  Proof.
    intros OK AG E. pose proof (remove_refs_disk jk n (World (cleanup_meta (w_fs w) root) (w_db w)) m w1 m1 OK E) as (_ & D & _). cbn [w_db] in D.
    assert (M : m1 = m /\ w_fs w1 = cleanup_meta (w_fs w) root).
    { pose proof (remove_refs_shape jk n _ _ _ _ E) as (F & G & _). cbn [w_fs w_db] in F, G. split; [|exact F]. unfold remove_refs in E. cbn [w_db] in E.
      destruct (mget n (w_db w)) as [dir|] eqn:Gd; [|discriminate E]. destruct AG as [Ss A]. specialize (A n). destruct (mget n (m_pkgs m)) as [r|]; [|congruence].
      cbv zeta in E. match type of E with Some (?a, ?b) = _ => assert (Z : b = m1) by congruence end. rewrite <- Z. destruct m; reflexivity. }
    destruct M as [-> F]. destruct w1 as [f1 d1]. cbn [w_fs w_db] in F, D. subst f1 d1. unfold remove_files. cbn [w_fs w_db snd]. eexists. split; [reflexivity|]. split.
    - destruct AG as [Ss A]. split; [cbn [m_pkgs]; apply mdel_keys_sorted, Ss|]. intro k. cbn [m_pkgs]. rewrite !mget_mdel. destruct (seqb_spec k n) as [->|N]; [reflexivity|apply A].
    - intro x. rewrite minus_refs_In. cbn [sminus fold_left]. rewrite (agree_lists _ m n x AG). pose proof (ssorted_NoDup _ (proj1 AG)) as Nd. split.
      + intros [J O]. split.
        * destruct (mget n (m_pkgs m)) as [r|]; [exists r; auto|destruct J].
        * intros k N Lk. apply (agree_lists _ m k x AG) in Lk as (r & G & J'). apply (O k r); [|exact J']. apply In_mdel. split; [exact (mget_In _ _ _ G)|exact N].
      + intros [(r & G & J) O]. rewrite G. split; [exact J|]. intros k r' I J'. apply In_mdel in I as [I N]. apply (O k N), (agree_lists _ m k x AG). exists r'. split; [exact (In_mget k r' _ Nd I)|exact J'].
  Qed.
  Lemma drop_tree names : forall w m w' m', tree (w_fs w) -> drop_all jk root names w m = Ret tt w' m' ->
    tree (w_fs w') /\ forall q, fget (w_fs w') q = fget (w_fs w) q \/ fget (w_fs w') q = None.
  Proof.
    induction names as [|n t IH]; intros w m w' m' T E; cbn [drop_all] in E; [injection E as <- _; auto|].
    destruct (remove_refs jk n (World (cleanup_meta (w_fs w) root) (w_db w), m)) as [[w1 m1]|] eqn:R; [|discriminate E].
    pose proof (remove_refs_shape jk n _ _ _ _ R) as (F & _). cbn [w_fs] in F. cbn [remove_files] in E.
    apply IH in E; cbn [w_fs] in *; [|apply del_files_tree; rewrite F; apply cleanup_spec, T]. destruct E as [T' S]. split; [exact T'|]. intro q. destruct (S q) as [E|E]; [|auto]. rewrite E, F.
    match goal with |- context [del_files root ?l ?f] => destruct (del_files_sub root Rs l f q) as [E2|E2] end; [|auto]. rewrite E2. apply cleanup_sub, T.
  Qed.
  Lemma drop_gone names x cs : plain x cs -> ends_slash x = false -> forall w m w' m', db_ok (w_db w) -> agree (w_db w) m -> tree (w_fs w) -> NoDup names ->
    (forall k, In k names -> mget k (w_db w) <> None) -> drop_all jk root names w m = Ret tt w' m' ->
    (exists n, lists (w_db w) n x) -> (forall n, ~ lists (w_db w') n x) ->
    fget (w_fs w') (comps root ++ comps x) = None \/ dir_at (w_fs w') (comps root ++ comps x).
  Proof.
    intros P Es. induction names as [|n t IH]; intros w m w' m' OK AG T N Pr E (k & Lk) Z.
    { cbn [drop_all] in E. injection E as <- _. destruct (Z k Lk). }
    inversion N as [|? ? N1 N2]; subst. cbn [drop_all] in E.
    destruct (remove_refs jk n (World (cleanup_meta (w_fs w) root) (w_db w), m)) as [[w1 m1]|] eqn:R; [|discriminate E].
    destruct (drop_step n w m w1 m1 OK AG R) as (xs & F & AG1 & X). rewrite F in E. set (m2 := snd (remove_files root n [] (w1, m1))) in *. clearbody m2.
    assert (OK1 : db_ok (mdel n (w_db w))) by (apply db_ok_mdel, OK). destruct (cleanup_spec (w_fs w) root T) as [T0 _].
    assert (T1 : tree (del_files root xs (cleanup_meta (w_fs w) root))) by (apply del_files_tree, T0).
    destruct (listed_dec_db (mdel n (w_db w)) m2 x AG1) as [Ly|Ln].
    - refine (IH _ m2 w' m' _ _ _ N2 _ E _ Z); cbn [w_db w_fs]; [exact OK1|exact AG1|exact T1| |exact Ly].
      intros q Jq. rewrite mget_mdel. destruct (seqb_spec q n) as [->|Nq]; [contradiction|]. apply Pr. right. exact Jq.
    - assert (J : In x xs).
      { apply X. assert (kn : k = n) by (destruct (str_eq_dec k n) as [e|e]; [exact e|]; exfalso; apply Ln; exists k; apply lists_mdel; auto). subst k. split; [exact Lk|].
        intros q Nq Lq. apply Ln. exists q. apply lists_mdel. auto. }
      destruct (drop_tree t (World (del_files root xs (cleanup_meta (w_fs w) root)) (mdel n (w_db w))) m2 w' m' T1 E) as [_ S]. cbn [w_fs] in S. specialize (S (comps root ++ comps x)). rewrite (plain_comps _ _ P) in *.
      destruct (del_files_one xs (cleanup_meta (w_fs w) root) x cs P Es J) as [G|[nd [G K]]]; destruct S as [S|S]; [left; congruence|left; exact S| |left; exact S].
      right. exists nd. split; [congruence|exact K].
  Qed.
End Drop.

(** ** the installations: a file that is listed stays listed *)
Section Hand.
  Variables (junk : bool) (machine : str) (re : str -> str -> option bool) (sh : str -> fs -> fs * bool) (root : str).
  Notation add_run := (add_run junk machine re sh root).
  Notation run_all := (run_all junk machine re sh root).
  Lemma add_hand o conf a w m name w' m' n x : inv (w_db w) -> agree (w_db w) m -> add_run o conf a w m = Ret name w' m' -> n <> name -> lists (w_db w) n x ->
    lists (w_db w') n x \/ lists (w_db w') name x.
  Proof.
    intros [OK _] AG E N Ln. apply add_run_ret in E as (info & rules & ins & non & post & w1 & w2 & m2 & kl & w3 & m3 & w5 & m5 & E1 & E2 & _ & E4 & E5 & E6 & E7 & E8 & -> & _).
    assert (D1 : w_db w1 = w_db w).
    { destruct (o_scripts o); [eapply pre_run_db; eauto|]. inversion E5; auto. }
    assert (O5 : forall k, k <> name -> mget k (w_db w5) = mget k (w_db w3)) by (intros k Nk; apply (move_meta_db root name _ _ _ _ k E8 Nk)).
    assert (FO : files_ok ins) by (eapply ins_files_ok; eauto; eapply archive_files_ok; eauto).
    cbn [add_files_refs fst]. rewrite post_run_db. cbn [w_db r_files with_files].
    rewrite !(final_lists name ins w5 (w_db w3) [] _ x O5 FO).
    assert (L3 : lists (w_db w3) n x <-> lists (w_db w2) n x) by (apply lists_ext; eapply phase_upgrade_db; eauto).
    rewrite L3. destruct E6 as [[_ [-> _]]|[_ [Fo [kl0 [_ St]]]]]; [left; right; split; [exact N|rewrite D1; exact Ln]|].
    apply strip_refs_parts in St as [_ [-> _]]. set (cf := conflicts root name ins (w_fs w1) (m_pkgs m)) in *. rewrite strip_lists by (rewrite D1; assumption).
    destruct (in_dec str_eq_dec x cf) as [J|J]; [right; left; split; [reflexivity|]; apply conflicts_In in J; apply J|]. left. right. split; [exact N|]. rewrite D1. auto.
  Qed.
  Lemma run_hand force scripts conf l x : nameds junk machine root l -> distinct l -> forall w m w' m', inv (w_db w) -> agree (w_db w) m -> run_all force scripts conf l w m = Ret tt w' m' ->
    forall h, lists (w_db w) h x -> (forall sd a, In (sd, a) l -> ~ archive_name a h) -> exists h', lists (w_db w') h' x.
  Proof.
    induction l as [|[sd a] l IH]; intros N D w m w' m' I AG E h Lh F; cbn [DbModel.run_all] in E; [injection E as <- _; exists h; exact Lh|].
    inversion N as [|? ? N1 N2]; subst. cbn [snd] in N1.
    destruct (add_run (Opts force (upgrade_flag junk machine root a m) scripts) conf a w (set_dep sd m)) as [nm w1 m1|e w1] eqn:Ea; [|discriminate].
    pose proof (set_dep_agree _ sd m AG) as AG0. destruct (add_next junk machine re sh root _ _ _ _ _ _ _ _ I AG0 N1 Ea) as [I1 AG1].
    destruct (add_step junk machine re sh root _ _ _ _ _ _ _ _ I AG0 Ea) as (An & _ & _ & _).
    assert (Nn : h <> nm) by (intros ->; apply (F sd a (or_introl eq_refl)), An).
    assert (Dl : distinct l) by (intros u p v q z n Eq; apply (D ((sd, a) :: u) p v q z n); rewrite Eq; reflexivity).
    destruct (add_hand _ _ _ _ _ _ _ _ h x I AG0 Ea Nn Lh) as [L1|L1].
    - refine (IH N2 Dl w1 m1 w' m' I1 AG1 E h L1 _). intros sd' a' J. apply (F sd' a'). right. exact J.
    - refine (IH N2 Dl w1 m1 w' m' I1 AG1 E nm L1 _). exact (distinct_after _ [] (sd, a) l nm D eq_refl An).
  Qed.
End Hand.

Section Upgrade.
  Variables (junk : bool) (machine : str) (re : str -> str -> option bool) (sh : str -> fs -> fs * bool) (root : str).
  Variable url : str.
  Variable repo : list (str * ent).
  Variable sha : str -> str.
  Variable key : Type.
  Variable pem : str -> option key.
  Variable verify : key -> str -> str -> bool.
  Variable unpack : str -> option archive.
  Variables (j : DiffModel.junk) (jb : Z).
  Variable arch : str -> apkg.
  Variables (fuel : nat) (scripts : bool) (conf : option str) (groups : list str) (s : fstate) (w : world).
  Notation cards_upgrade := (cards_upgrade junk machine re sh root url repo sha key pem verify unpack j jb fuel false scripts conf groups s w).
  Notation certified := (certified repo sha key pem verify unpack s).
  Notation trusted := (trusted url repo sha key pem verify unpack arch s).
  Notation obsolete := (obsolete repo w).

  (** A file of an obsolete package that nobody lists after a successful upgrade is not on the system any more (what is found under
      its name can only be a directory). A name that ends in a slash is that of a directory. *)
  Theorem C77_obsolete_files w' n x cs : trusted -> tidy_world w -> junk = false -> scripts = false -> ends_slash root = true -> comps root = [] ->
    (forall n a, certified n a -> exists nd, tidy_archive a nd) ->
    cards_upgrade = Some (None, w') -> obsolete n -> lists (w_db w) n x -> plain x cs -> ends_slash x = false -> (forall k, ~ lists (w_db w') k x) ->
    fget (w_fs w') (comps root ++ comps x) = None \/ dir_at (w_fs w') (comps root ++ comps x).
  Proof.
    intros T Tw Hj Hs Rs R0 Ta E On Ln P Es Z. pose proof (w_inv _ Tw) as I.
    destruct (upgrade_outcome junk machine re sh root url repo sha key pem verify unpack j jb arch fuel scripts conf groups s w None w' T E) as [H _|m El _ _ Dq Nu No|m l hl del El Dq N O W Zl F D Nm Nd De R]; [congruence|destruct (No n On)|].
    destruct (finish_split junk machine re sh root url repo sha key pem verify unpack j jb arch scripts conf groups s w None w' m l hl del T I El W F D Nm Nd De eq_refl R) as (w1 & m1 & Er & I1 & I2 & Dl & Kp & Fr & WO).
    rewrite Er in R. pose proof (load_agree junk _ m (proj1 I) El) as AG. set (w0 := World (cleanup_meta (w_fs w) root) (w_db w)) in *.
    assert (Ti : tidies hl). { intros sd' a' Ja. destruct (F2_back _ _ _ _ _ _ _ _ _ _ _ F Ja) as [d' [_ J4]]. exact (Ta _ _ (proj2 (proj2 J4))). }
    assert (Tw0 : tidy_world w0).
    { destruct Tw as [T1 T2 T3 T4]. destruct (cleanup_spec (w_fs w) root T1) as [K1 K2]. constructor; [exact K1| |exact T3|exact T4]. intros c q Jc B. cbn [w0 w_fs]. rewrite K2; [exact (T2 c q Jc B)|].
      destruct B as [y [Nx ->]]. cbn [app]. assert (L2 : forall y, In y meta_comps -> exists z, y = [z]) by (intros z Jy; cbn [meta_comps In] in Jy; repeat (destruct Jy as [<-|Jy]; [eexists; reflexivity|]); destruct Jy).
      intro Jq. destruct (L2 _ Jq) as [z Hz]. injection Hz as _ Hz. exact (Nx Hz). }
    pose proof Er as Er'. rewrite Hs in Er'. destruct (run_keeps junk machine re sh root Rs R0 true conf hl Ti w0 m w1 m1 Tw0 AG Er') as (Tw1 & AG1 & _).
    assert (Q : forall sd a, In (sd, a) hl -> ~ archive_name a n).
    { intros sd a Ja An. destruct (F2_back _ _ _ _ _ _ _ _ _ _ _ F Ja) as [d [J1 J2]]. apply (entry_name _ _ _ _ _ _ _ _ d (sd, a) n (tr_name _ _ _ _ _ _ _ _ _ T) J2) in An. subst n.
      destruct J2 as [_ [_ (e0 & c & pk & k & sg & Ge & _)]]. destruct On as (_ & _ & On). congruence. }
    destruct (run_hand junk machine re sh root true scripts conf hl x Nm D w0 m w1 m1 I AG Er n Ln Q) as [h Lh].
    destruct (drop_all junk root del w1 m1) as [[] w2 m2|e w2] eqn:Ed; [|destruct R as [R _]; discriminate R]. destruct R as [_ ->].
    refine (drop_gone junk root Rs del x cs P Es w1 m1 w2 m2 (proj1 I1) AG1 (w_tree _ Tw1) Nd _ Ed (ex_intro _ h Lh) Z).
    intros k J. apply De in J. pose proof J as ([_ G] & _ & _). rewrite (proj1 (Fr k (fun H => WO k H J))). exact G.
  Qed.
End Upgrade.
(** usr/old of the obsolete package old: listed before, by nobody afterwards, gone *)
Example C77_obsolete_files_case : obsolete u_repo w_up (L "old") /\ lists (w_db w_up) (L "old") (L "usr/old") /\ (forall k, ~ lists (w_db w_upped) k (L "usr/old")) /\
  fget (w_fs w_up) [L "usr"; L "old"] <> None /\ (fget (w_fs w_upped) [L "usr"; L "old"] = None \/ dir_at (w_fs w_upped) [L "usr"; L "old"]).
Proof.
  assert (Ob : obsolete u_repo w_up (L "old")) by (split; [apply is_installed; vm_compute; reflexivity|]; split; [apply has_meta; vm_compute; reflexivity|vm_compute; reflexivity]).
  assert (Li : lists (w_db w_up) (L "old") (L "usr/old")).
  { assert (X : match mget (L "old") (w_db w_up) with Some dir => match mget (L "files") dir with Some c => smem (L "usr/old") (getlines c) | None => false end | None => false end = true) by (vm_compute; reflexivity).
    unfold lists. destruct (mget (L "old") (w_db w_up)) as [dir|]; [|discriminate X]. destruct (mget (L "files") dir) as [c|] eqn:Gf; [|discriminate X]. exists dir, c.
    split; [reflexivity|]. split; [exact Gf|]. split; [apply smem_In, X|discriminate]. }
  assert (No : forall k, ~ lists (w_db w_upped) k (L "usr/old")).
  { intros k (dir & c & G & Gf & J & _). assert (A : forallb (fun e : str * dbdir => match mget (L "files") (snd e) with Some c => negb (smem (L "usr/old") (getlines c)) | None => true end) (w_db w_upped) = true) by (vm_compute; reflexivity).
    rewrite forallb_forall in A. specialize (A (k, dir) (mget_In _ _ _ G)). cbn [snd] in A. rewrite Gf in A. apply negb_true_iff in A. apply (proj2 (smem_In _ _)) in J. rewrite J in A. discriminate A. }
  split; [exact Ob|]. split; [exact Li|]. split; [exact No|]. split; [vm_compute; discriminate|].
  refine (C77_obsolete_files false mach pfx quiet rt t_url u_repo t_sha unit t_pem t_verify u_unpack u_junk 0 u_arch 20 false None [] u_start w_up w_upped (L "old") (L "usr/old") [L "usr"; L "old"] (u_trusted _ _) up_tidy eq_refl eq_refl eq_refl eq_refl _ u_run Ob Li _ eq_refl No).
  - intros n a Ca. destruct (u_tidy _ _ n a Ca) as (nd & ls & z & H1 & _). exists nd. exact H1.
  - destruct (plainb_plain (L "usr/old")) as [cs P]; [vm_compute; reflexivity|]. assert (C : comps (L "usr/old") = [L "usr"; L "old"]) by (vm_compute; reflexivity).
    rewrite (plain_comps _ _ P) in C. rewrite C in P. exact P.
Qed.
