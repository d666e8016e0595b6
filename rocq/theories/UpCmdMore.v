(** C77: an upgrade that stops part way; the dependencies afterwards; a second upgrade has nothing to do. *)
From Verif Require Import Base BaseProofs StrModel StrSpec StrProofs RulesModel RulesSpec RulesProofs FsModel FsSpec FsProofs MetaModel MetaSpec MetaProofs
  DbModel DbSpec DbLoad DbOps DbRun DbInv EngineFs DbFacts DbProps RemoveProps AddRun AddProps RootProps GenDeps GenDepsProofs GenDepsProps HexModel HexProps IndexModel FetchModel FetchProps
  ManyRun ManyMeta RemoveCmdProofs DiffModel DiffProps InstallModel InstallRun InstallProps InstallClosed QueryProps UpCmdModel UpCmdProps.
Import DbInv.
From Coq Require Import ZArith Lia.

Lemma meta_text_of (d : disk) n t : dbfile d n (L "META") = Some t -> forall ls, meta_text d n ls -> parse_lines t = Some ls.
Proof. intros H ls [dir [G M]]. unfold dbfile in H. rewrite G in H. rewrite H in M. exact M. Qed.
Lemma meta_text_same (d d' : disk) n ls : same_but_files d d' n -> meta_text d' n ls -> meta_text d n ls.
Proof.
  intros (A & B & _) [dir' [G M]]. specialize (B (L "META") ltac:(discriminate)). unfold dbfile in B. rewrite G in B.
  destruct (mget n d) as [dir|] eqn:Gd; [|exfalso; assert (X : mget n d' = None) by (apply A; reflexivity); congruence]. exists dir. split; [exact Gd|]. rewrite <- B. exact M.
Qed.
Lemma meta_has_same (d d' : disk) n l : same_but_files d d' n -> meta_has d' n l -> meta_has d n l.
Proof.
  intros (_ & Sf & _) [dir [c [ls [G1 [G2 [G3 J]]]]]].
  assert (X : dbfile d n (L "META") = Some c) by (rewrite <- Sf by discriminate; unfold dbfile; rewrite G1; exact G2).
  apply dbfile_get in X as [dir' [X1 X2]]. exists dir', c, ls. auto.
Qed.
Lemma marked_parse ls : good_lines ls -> parse_lines (text_of (sins (L "d1") (set_of ls))) = Some (sins (L "d1") (set_of ls)).
Proof.
  intro G. apply parse_text. unfold good_lines in *. rewrite Forall_forall in *. intros x I. apply sins_In in I as [->|I]; [|apply G; rewrite set_of_In in I; exact I].
  pose proof BUFSIZ_big. split; [cbn; intuition discriminate|]. split; [cbn; intuition discriminate|]. cbn [List.length L list_ascii_of_string]. lia.
Qed.
Lemma field_marked {A} c ls (read : str -> A) dflt x : c <> "d"%char -> field c ls read dflt x -> field c (sins (L "d1") (set_of ls)) read dflt x.
Proof.
  intros Nc F. assert (E : forall v, In (c :: v) (sins (L "d1") (set_of ls)) <-> In (c :: v) ls).
  { intro v. rewrite sins_In, set_of_In. split; [intros [H|H]; [|exact H]|auto]. exfalso. injection H as H _. exact (Nc H). }
  destruct F as [v I M|N]; [apply field_line; [apply E, I|intros u J; apply M, E, J]|apply field_none; intros u J; apply (N u), E, J].
Qed.

Section Upgrade.
  Variables (junk : bool) (machine : str) (re : str -> str -> option bool) (sh : str -> fs -> fs * bool) (root : str).
  Variable url : str.
  Variable repo : list (str * ent).
  Variable sha : str -> str.
  Variable key : Type.
  Variable pem : str -> option key.
  Variable verify : key -> str -> str -> bool.
  Variable unpack : str -> option archive.
  Variables (j : DiffModel.junk) (jb : Z).
  Variable arch : str -> apkg.
  Variables (fuel : nat) (scripts : bool) (conf : option str) (groups : list str) (s : fstate) (w : world).
  Notation upgrade := (cards_upgrade junk machine re sh root url repo sha key pem verify unpack j jb).
  Notation certified := (certified repo sha key pem verify unpack s).
  Notation trusted := (trusted url repo sha key pem verify unpack arch s).
  Notation entry_ok := (entry_ok repo sha key pem verify unpack arch s).
  Notation wanted := (wanted repo j jb arch).
  Notation obsolete := (obsolete repo w).
  Notation offered := (offered repo j).

  (** Whatever stops the command: nothing obsolete has been removed; apart from one package that was being replaced nothing
      installed is lost; what is new was to be installed; the other packages keep their records (file lists may shrink). *)
  Theorem C77_partway e w' : trusted -> inv (w_db w) -> upgrade fuel false scripts conf groups s w = Some (Some e, w') ->
    inv (w_db w') /\ exists x, ~ obsolete x /\
      (forall n, n <> x -> installed (w_db w) n -> installed (w_db w') n) /\
      (forall m, load junk (w_db w) = Ok m ->
        (forall n, installed (w_db w') n -> installed (w_db w) n \/ wanted groups m n) /\
        (forall n, ~ wanted groups m n -> same_but_files (w_db w) (w_db w') n)).
  Proof.
    intros T I E. destruct (upgrade_outcome junk machine re sh root url repo sha key pem verify unpack j jb arch fuel scripts conf groups s w (Some e) w' T E) as [Z1 Z2|m El Z _ _ _ _|m l hl del El Dq N O W Z F D Nm Nd De R]; [|discriminate Z|].
    { rewrite Z2. cbn [w_db]. split; [exact I|]. exists ["."%char]. split; [intros ([H _] & _); exact (H [] eq_refl)|]. split; [auto|]. intros m _. split; [auto|]. intros n _. apply same_refl. }
    set (w0 := World (cleanup_meta (w_fs w) root) (w_db w)) in R. pose proof (load_agree junk _ m (proj1 I) El) as AG.
    destruct (run_all junk machine re sh root true scripts conf hl w0 m) as [[] w1 m1|e1 w1] eqn:Er.
    { exfalso. assert (X : exists w2 m2, drop_all junk root del w1 m1 = Ret tt w2 m2).
      { destruct (run_next junk machine re sh root true scripts conf hl w0 m w1 m1 Nm I AG Er) as [I1 _]. destruct (drop_spec junk root del w1 m1 (proj1 I1) Nd) as (w2 & m2 & E2 & _); [|exists w2, m2; exact E2].
        intros n J. apply De in J. pose proof J as ([_ G] & _ & Nr).
        assert (Q : forall sd a, In (sd, a) hl -> ~ archive_name a n).
        { intros sd a Ja An. destruct (F2_back _ _ _ _ _ _ _ _ _ _ _ F Ja) as [d [J1 J2]]. apply (entry_name _ _ _ _ _ _ _ _ d (sd, a) n (tr_name _ _ _ _ _ _ _ _ _ T) J2) in An. subst n.
          destruct J2 as [_ [_ (e0 & c & pk & k & sg & Ge & _)]]. congruence. }
        rewrite (proj1 (proj1 (run_frame junk machine re sh root true scripts conf hl Nm w0 m w1 m1 I AG Er n Q))). exact G. }
      destruct X as (w2 & m2 & X). rewrite X in R. destruct R as [R _]. discriminate R. }
    destruct R as [_ ->]. pose proof (run_all_fine junk machine re sh root true scripts conf hl Nm w0 m I AG) as [I' _]. rewrite Er in I'. cbn in I'. split; [exact I'|].
    destruct (run_stop junk machine re sh root true scripts conf hl Nm w0 m e1 w1 I AG Er) as (u & sd & a & v & w2 & m2 & Eh & E1 & I1 & AG1 & S1 & S2).
    rewrite Eh in F. apply Forall2_app_inv_r in F as (l1 & l2 & F1 & F2 & ->). assert (X : exists d l3, l2 = d :: l3 /\ entry_ok d (sd, a)) by (inversion F2; subst; eauto). destruct X as (d & l3 & -> & Ed). subst hl.
    assert (Nu : nameds junk machine root u) by (unfold nameds in *; rewrite Forall_app in Nm; exact (proj1 Nm)).
    assert (Du : distinct u). { intros p1 p p2 q p3 n H. subst u. apply (D p1 p p2 q (p3 ++ (sd, a) :: v)). rewrite <- !app_assoc. cbn [app]. rewrite <- !app_assoc. reflexivity. }
    assert (An : forall n, archive_name a n <-> n = fst d) by (intro n; exact (entry_name _ _ _ _ _ _ _ _ d (sd, a) n (tr_name _ _ _ _ _ _ _ _ _ T) Ed)).
    assert (Fu : forall n, ~ In n (map fst l1) -> same_but_files (w_db w) (w_db w2) n).
    { intros n Hn. apply (run_frame junk machine re sh root true scripts conf u Nu w0 m w2 m2 I AG E1 n). intros sd' a' Ja A'. destruct (F2_back _ _ _ _ _ _ _ _ _ _ _ F1 Ja) as [d' [J1 J2]].
      apply (entry_name _ _ _ _ _ _ _ _ d' (sd', a') n (tr_name _ _ _ _ _ _ _ _ _ T) J2) in A'. subst n. apply Hn, in_map, J1. }
    exists (fst d). split; [|split].
    - intros (_ & _ & Hn). destruct Ed as [_ [_ (e0 & c & pk & k & sg & Ge & _)]]. congruence.
    - intros n Nn Hi. assert (H2 : installed (w_db w2) n).
      { destruct (in_dec str_eq_dec n (map fst l1)) as [J|J]; [|split; [apply Hi|rewrite (proj1 (Fu n J)); apply Hi]].
        apply in_map_iff in J as [d' [<- J]]. exact (proj1 (listed_there junk machine re sh root url repo sha key pem verify unpack arch scripts conf s w m l1 u w2 m2 d' T I El F1 Du Nu E1 J)). }
      destruct H2 as [H2 H3]. split; [exact H2|]. rewrite (proj1 (S1 n (fun A => Nn (proj1 (An n) A)))). exact H3.
    - intros m' El'. rewrite El in El'. injection El' as <-. split.
      + intros n [H1 H2]. destruct (in_dec str_eq_dec n (map fst l1)) as [J|J]; [right; apply W; rewrite map_app, in_app_iff; left; exact J|]. left. split; [exact H1|].
        rewrite <- (proj1 (Fu n J)). intro H3. apply H2, S2, H3.
      + intros n Wn. apply (same_trans _ (w_db w2)).
        * apply Fu. intro J. apply Wn, W. rewrite map_app, in_app_iff. left. exact J.
        * apply S1. rewrite An. intros ->. apply Wn, W. rewrite map_app, in_app_iff. right. left. reflexivity.
  Qed.
  (** If every dependency recorded was installed before, the only ones missing afterwards are the obsolete packages just removed
      (provided what is reinstalled although it is up to date brings no new dependency). *)
  Theorem C77_closed w' : trusted -> tidy_world w -> junk = false -> scripts = false -> ends_slash root = true -> comps root = [] ->
    (forall n a, certified n a -> exists nd ls, tidy_archive a nd /\ well_formed nd ls /\ read_arch a = Ok (arch n)) ->
    (forall m n k t, load junk (w_db w) = Ok m -> wanted groups m n -> GenDepsProofs.current (m_pkgs m) jb arch n -> In (k, t) (a_deps (arch n)) -> installed (w_db w) k) ->
    upgrade fuel false scripts conf groups s w = Some (None, w') -> closed (w_db w) ->
    forall n k, installed (w_db w') n -> needs (w_db w') n k -> installed (w_db w') k \/ obsolete k.
  Proof.
    intros T Tw Hj Hs Rs R0 Ta Cu E Cl n k In_ Nk. pose proof (w_inv _ Tw) as I.
    assert (Ta' : forall n a, certified n a -> exists nd, tidy_archive a nd) by (intros n' a Ca; destruct (Ta n' a Ca) as (nd & ls & H & _); exists nd; exact H).
    destruct (C77_upgraded junk machine re sh root url repo sha key pem verify unpack j jb arch fuel scripts conf groups s w w' T I E) as (m & El & Wi & Wd).
    destruct (C77_kept junk machine re sh root url repo sha key pem verify unpack j jb arch fuel scripts conf groups s w w' T I E) as (_ & Ob & Kp & m1 & El1 & Nw & Fr).
    destruct (C77_meta junk machine re sh root url repo sha key pem verify unpack j jb arch fuel scripts conf groups s w w' T Tw Hj Hs Rs R0 Ta' E) as (m2 & El2 & Me).
    rewrite El in El1, El2. injection El1 as <-. injection El2 as <-.
    assert (Ks : forall k, installed (w_db w) k -> installed (w_db w') k \/ obsolete k).
    { intros q Hq. destruct (mget q repo) as [e|] eqn:G; [left; apply Kp; [exact Hq|intros (_ & _ & H); congruence]|].
      destruct (proj2 (load_inst junk _ m q El) Hq) as [r Gr]. destruct (r_auto r) eqn:A.
      - right. split; [exact Hq|]. split; [apply (load_auto junk _ m q r El Gr), A|exact G].
      - left. apply Kp; [exact Hq|]. intros (_ & H & _). apply (load_auto junk _ m q r El Gr) in H. congruence. }
    destruct (up_wanted_dec junk machine re sh root url repo sha key pem verify unpack j jb arch fuel scripts conf groups s w w' m T E El n) as [Wn|Wn].
    - destruct (Me n Wn) as (a & nd & ls & b & Ca & Tn & Pl & Db & _). destruct (Ta n a Ca) as (nd' & ls' & Tn' & Wf & Ra).
      assert (Nd : nd' = nd).
      { destruct (t_meta _ _ Tn) as (M1 & _ & _). destruct (t_meta _ _ Tn') as (_ & _ & M3). symmetry. apply (M3 (L ".META") nd M1). reflexivity. }
      subst nd'. destruct (well_formed_read nd ls' a Wf (t_meta _ _ Tn)) as [_ Pl']. rewrite Pl in Pl'. injection Pl' as <-.
      destruct (needs_archive a (arch n) nd ls (w_db w') n k b Ra (t_meta _ _ Tn) Wf Db Nk) as [t Jt].
      destruct (uptodate (m_pkgs m) jb (arch n)) eqn:U.
      + apply Ks. apply (uptodate_spec (m_pkgs m) jb arch n) in U. exact (Cu m n k t El Wn U Jt).
      + apply (Wd n k t Wn); [|exact Jt]. intro H. apply (uptodate_spec (m_pkgs m) jb arch n) in H. congruence.
    - assert (No : ~ obsolete n) by (intro H; destruct In_ as [_ H2]; exact (H2 (Ob n H))). pose proof (Fr n Wn No) as Sm.
      apply Ks. apply (Cl n k); [split; [apply In_|rewrite <- (proj1 Sm); apply In_]|]. destruct Nk as [x [Hx Dl]]. exists x. split; [exact (meta_has_same _ _ _ _ Sm Hx)|exact Dl].
  Qed.
  (** After a successful upgrade (no groups configured) a second one finds nothing to do and changes nothing, if the index gives
      the build dates of the archives and these are not 0. *)
  Theorem C77_settled fuel' conf' scripts' s' w' m' : trusted -> tidy_world w -> junk = false -> scripts = false -> ends_slash root = true -> comps root = [] ->
    (forall n a, certified n a -> exists nd ls z, tidy_archive a nd /\ well_formed nd ls /\ field "B" ls (fun v => Some (epoch v)) None (Some z) /\ z <> 0%Z /\ offered n z) ->
    upgrade fuel false scripts conf [] s w = Some (None, w') -> load junk (w_db w') = Ok m' ->
    upgrade fuel' false scripts' conf' [] s' w' = Some (None, World (cleanup_meta (w_fs w') root) (w_db w')).
  Proof.
    intros T Tw Hj Hs Rs R0 Ta E El'. pose proof (w_inv _ Tw) as I.
    assert (Ta' : forall n a, certified n a -> exists nd, tidy_archive a nd) by (intros n' a Ca; destruct (Ta n' a Ca) as (nd & ls & z & H & _); exists nd; exact H).
    destruct (C77_upgraded junk machine re sh root url repo sha key pem verify unpack j jb arch fuel scripts conf [] s w w' T I E) as (m & El & Wi & _).
    destruct (C77_kept junk machine re sh root url repo sha key pem verify unpack j jb arch fuel scripts conf [] s w w' T I E) as (_ & Ob & Kp & m1 & El1 & Nw & Fr).
    destruct (C77_meta junk machine re sh root url repo sha key pem verify unpack j jb arch fuel scripts conf [] s w w' T Tw Hj Hs Rs R0 Ta' E) as (m2 & El2 & Me).
    rewrite El in El1, El2. injection El1 as <-. injection El2 as <-.
    assert (Dp : exists n, mget n (m_pkgs m) <> None /\ mget n repo <> None).
    { destruct (upgrade_outcome junk machine re sh root url repo sha key pem verify unpack j jb arch fuel scripts conf [] s w None w' T E) as [H _|m3 El3 _ _ Dq _ _|m3 l hl del El3 Dq _ _ _ _ _ _ _ _ _ _]; [congruence| |]; rewrite El in El3; injection El3 as <-; exact Dq. }
    pose proof (up_wanted_dec junk machine re sh root url repo sha key pem verify unpack j jb arch fuel scripts conf [] s w w' m T E El) as Wdec.
    assert (Du : forall n, ~ due repo j [] m' n).
    { intros n (Gn & Nf & [Gm|(k & r & g & _ & _ & [] & _)]). apply Nf. clear Nf. destruct (mget n (m_pkgs m')) as [r'|] eqn:Gr; [|congruence]. clear Gm.
      assert (In' : installed (w_db w') n) by (apply (load_inst junk _ m' n El'); exists r'; exact Gr).
      destruct (load_meta junk _ m' n r' El' Gr) as (ls' & Mt & _ & _ & _ & _ & Fb).
      destruct (Wdec n) as [Wn|Wn].
      - destruct (Me n Wn) as (a & nd & ls & b & Ca & Tn & Pl & Db & _). destruct (Ta n a Ca) as (nd' & ls2 & z & Tn' & Wf & Fz & Nz & Of).
        assert (Nd : nd' = nd).
        { destruct (t_meta _ _ Tn) as (M1 & _ & _). destruct (t_meta _ _ Tn') as (_ & _ & M3). symmetry. apply (M3 (L ".META") nd M1). reflexivity. }
        subst nd'. destruct (well_formed_read nd ls2 a Wf (t_meta _ _ Tn)) as [_ Pl']. rewrite Pl in Pl'. injection Pl' as <-.
        pose proof (meta_text_of _ _ _ Db ls' Mt) as Pm. assert (Fz' : field "B" ls' (fun v => Some (epoch v)) None (Some z)).
        { destruct b; [|rewrite Pl in Pm; injection Pm as <-; exact Fz]. rewrite (marked_parse ls (proj1 (proj2 (proj2 Wf)))) in Pm. assert (Hx : ls' = sins (L "d1") (set_of ls)) by (clear -Pm; congruence). rewrite Hx. apply field_marked; [discriminate|exact Fz]. }
        pose proof (field_unique _ _ _ _ _ _ Fb Fz') as Eb. exists r', z. split; [exact Gr|]. split; [exact Of|]. split; [exact Nz|]. rewrite Eb. cbn. lia.
      - assert (No : ~ obsolete n) by (intros (_ & _ & H); congruence). pose proof (Fr n Wn No) as Sm.
        assert (Iw : installed (w_db w) n) by (destruct (Nw n In') as [H|H]; [exact H|contradiction]). destruct (proj2 (load_inst junk _ m n El) Iw) as [r Gw].
        destruct (mget n repo) as [e|] eqn:Ge; [|congruence]. assert (Fw : fresh repo j m n).
        { apply (fresh_same repo j m n e Ge). destruct (build_same j m n (repo_build j n (e_rec e))) eqn:B; [reflexivity|]. exfalso. apply Wn. exists n. split; [|constructor]. split; [congruence|]. split; [|left; congruence].
          intro Fr'. apply (fresh_same repo j m n e Ge) in Fr'. congruence. }
        destruct Fw as (r0 & b & G0 & Of & Nz & Le). rewrite Gw in G0. injection G0 as <-. exists r', b. split; [exact Gr|]. split; [exact Of|]. split; [exact Nz|].
        destruct (load_meta junk _ m n r El Gw) as (lw & Mw & _ & _ & _ & _ & Fbw). rewrite (meta_text_unique _ _ _ _ Mw (meta_text_same _ _ _ _ Sm Mt)) in Fbw. rewrite (field_unique _ _ _ _ _ _ Fb Fbw). exact Le. }
    assert (Nob : forall n, ~ UpCmdProps.obsolete repo w' n).
    { intros n (Hi & Ha & Hr). assert (Wn : ~ wanted [] m n) by (intro H; destruct (Wi n H) as [_ (a & rules & (e & c & pk & k & sg & G & _) & _)]; congruence).
      destruct (Nw n Hi) as [Iw|H]; [|contradiction]. destruct (proj2 (load_inst junk _ m n El) Iw) as [r Gw].
      destruct (r_auto r) eqn:A.
      - destruct Hi as [_ Hi]. apply Hi, Ob. split; [exact Iw|]. split; [apply (load_auto junk _ m n r El Gw), A|exact Hr].
      - assert (No : ~ obsolete n) by (intros (_ & H & _); apply (load_auto junk _ m n r El Gw) in H; congruence). pose proof (meta_has_same _ _ _ _ (Fr n Wn No) Ha) as H. apply (load_auto junk _ m n r El Gw) in H. congruence. }
    assert (Dp' : depot_found (index repo) m' = true).
    { destruct Dp as (n & G1 & G2). destruct (mget n (m_pkgs m)) as [r|] eqn:Gm; [|congruence]. assert (Iw : installed (w_db w) n) by (apply (load_inst junk _ m n El); exists r; exact Gm).
      destruct (proj2 (load_inst junk _ m' n El') (Kp n Iw (fun H => G2 (proj2 (proj2 H))))) as [r' G']. unfold depot_found. apply existsb_exists. exists (n, r'). split; [exact (mget_In _ _ _ G')|]. cbn [fst]. rewrite index_get. destruct (mget n repo); [reflexivity|congruence]. }
    unfold cards_upgrade. cbv zeta. rewrite El', Dp'. cbn [negb]. cbv iota.
    assert (E1 : fst (up_lists j (index repo) m' []) = []).
    { destruct (fst (up_lists j (index repo) m' [])) as [|x t] eqn:X; [reflexivity|]. exfalso. apply (Du (fst x)), (update_due junk repo j [] w' m' (fst x) El'). rewrite X. left. reflexivity. }
    assert (E2 : snd (up_lists j (index repo) m' []) = []).
    { destruct (snd (up_lists j (index repo) m' [])) as [|x t] eqn:X; [reflexivity|]. exfalso. apply (Nob x), (delete_obsolete junk repo j [] w' m' x El'). rewrite X. left. reflexivity. }
    rewrite E1, E2. reflexivity.
  Qed.
End Upgrade.
