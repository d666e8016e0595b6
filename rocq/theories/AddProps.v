(** Properties C01 (META part), C04, C18: adding and upgrading. *)
From Verif Require Import Base BaseProofs StrModel StrSpec StrProofs RulesModel RulesSpec RulesProofs FsModel FsSpec FsProofs FsOps FsExtract
  MetaModel MetaSpec MetaProofs DbModel DbSpec DbLoad DbOps DbRun DbInv EngineFs EngineRoot DbFacts DbProps RemoveProps AddRun DbExamples.

Lemma put_get name file c d k : mget k (match mget name (put_file name file c d) with Some dir => dir | None => [] end) =
  if seqb k file then Some c else mget k (match mget name d with Some dir => dir | None => [] end).
Proof. unfold put_file. rewrite mget_mset, seqb_refl, mget_mset. reflexivity. Qed.
Lemma put_some name file c d : exists dir, mget name (put_file name file c d) = Some dir.
Proof. unfold put_file. rewrite mget_mset, seqb_refl. eauto. Qed.
Definition dbfile (d : disk) (name k : str) : option str := mget k (match mget name d with Some dir => dir | None => [] end).
Lemma dbfile_put name file c d k : dbfile (put_file name file c d) name k = if seqb k file then Some c else dbfile d name k.
Proof. apply put_get. Qed.
Lemma dbfile_get d name k c : dbfile d name k = Some c <-> exists dir, mget name d = Some dir /\ mget k dir = Some c.
Proof.
  unfold dbfile. destruct (mget name d) as [dir|].
  - split; [eauto|]. intros [dr [E H]]. inversion E; subst. exact H.
  - split; [discriminate|]. intros [dr [E _]]. discriminate.
Qed.

Section Meta.
  Variables (sh : str -> fs -> fs * bool) (root : str).
  Lemma move_one_meta name x w : x <> L ".META" -> hd zero x = "."%char -> dbfile (w_db (move_one root name x w)) name (L "META") = dbfile (w_db w) name (L "META").
  Proof.
    intros N H. unfold move_one. destruct (fget (w_fs w) (comps (root ++ x))); auto. cbn [w_db]. rewrite dbfile_put.
    destruct (seqb (L "META") (skipn 1 x)) eqn:E; auto. apply seqb_eq in E. exfalso. apply N. destruct x as [|c x]; [discriminate|]. cbn in H, E. subst. reflexivity.
  Qed.
  Lemma move_meta_file name w m w' m' : move_meta root name (w, m) = Ok (w', m') ->
    exists n ls, fget (removeFile (w_fs w) root (L "/.MTREE")) (comps (root ++ L ".META")) = Some n /\ is_dir n = false /\
      parse_lines (n_data n) = Some ls /\
      dbfile (w_db w') name (L "META") = Some (if m_dep m then text_of (sins (L "d1") (set_of ls)) else n_data n).
  Proof.
    unfold move_meta. set (f0 := removeFile (w_fs w) root (L "/.MTREE")). intro E. clearbody f0.
    destruct (fget f0 (comps (root ++ L ".META"))) as [nd|] eqn:G; [|discriminate].
    destruct (is_dir nd) eqn:D; [discriminate|]. destruct (parse_set (n_data nd)) as [ls|] eqn:Ps; [|discriminate].
    unfold parse_set in Ps. destruct (parse_lines (n_data nd)) as [l|] eqn:Pl; [|discriminate]. inversion Ps; subst ls. clear Ps.
    exists nd, l. split; [reflexivity|]. split; [exact D|]. split; [exact Pl|].
    cbv zeta in E. set (extra := (if exists_file f0 (root ++ L ".POSTR") then [L ".POSTR"] else []) ++ (if exists_file f0 (root ++ L ".PRER") then [L ".PRER"] else [])) in E.
    assert (X : Forall (fun x => x <> L ".META" /\ hd zero x = "."%char) extra).
    { unfold extra. apply Forall_app. split.
      - destruct (exists_file f0 (root ++ L ".POSTR")); constructor; [split; [discriminate|reflexivity]|constructor].
      - destruct (exists_file f0 (root ++ L ".PRER")); constructor; [split; [discriminate|reflexivity]|constructor]. }
    clearbody extra. cbn [fold_left] in E. set (w1 := move_one root name (L ".META") (World f0 (w_db w))) in E.
    assert (W1 : dbfile (w_db w1) name (L "META") = Some (n_data nd)).
    { unfold w1, move_one. cbn [w_fs]. rewrite G. cbn [w_db]. rewrite dbfile_put. change (skipn 1 (L ".META")) with (L "META"). rewrite seqb_refl. reflexivity. }
    clearbody w1. set (wf := fold_left (fun w x => move_one root name x w) extra w1) in E.
    assert (WF : dbfile (w_db wf) name (L "META") = Some (n_data nd)).
    { unfold wf. rewrite <- W1. clear -X. revert w1. induction X as [|x xs [X1 X2] _ IH]; intro w1; cbn [fold_left]; auto.
      rewrite IH. apply move_one_meta; auto. }
    clearbody wf. destruct (m_dep m); inversion E; subst; cbn [w_db].
    - rewrite dbfile_put, seqb_refl. reflexivity.
    - exact WF.
  Qed.
End Meta.

Section AddProps.
  Variables (junk : bool) (machine : str) (re : str -> str -> option bool) (sh : str -> fs -> fs * bool) (root : str).
  Hypothesis Rs : ends_slash root = true.
  Notation session := (session junk machine re sh root).

  Lemma final_meta name ins w5 s : dbfile (w_db (post_run sh root s (World (w_fs w5) (put_file name (L "files") (text_of ins) (w_db w5))))) name (L "META")
     = dbfile (w_db w5) name (L "META").
  Proof. rewrite post_run_db. cbn [w_db]. rewrite dbfile_put. reflexivity. Qed.
  Lemma flagged_automatic d name ls : good_lines ls -> dbfile d name (L "META") = Some (text_of (sins (L "d1") (set_of ls))) -> automatic d name.
  Proof.
    intros G D. apply dbfile_get in D as [dir [D1 D2]]. exists dir, (text_of (sins (L "d1") (set_of ls))), (sins (L "d1") (set_of ls)).
    split; [exact D1|]. split; [exact D2|]. split; [|apply sins_In; left; reflexivity]. apply parse_text.
    unfold good_lines in G. rewrite Forall_forall in *. intros x I. apply sins_In in I as [->|I]; [|apply G; rewrite set_of_In in I; exact I].
    pose proof BUFSIZ_big. split; [cbn; intuition discriminate|]. split; [cbn; intuition discriminate|]. cbn [List.length L list_ascii_of_string]. lia.
  Qed.

  (** *** C18 *)
  Lemma flagged o sd conf a w w' : no_dot_name a -> session (Add o sd conf a) w = (None, w') ->
    exists name, archive_name a name /\ (sd = true \/ junk = true \/ (o_upgrade o = true /\ automatic (w_db w) name) -> automatic (w_db w') name).
  Proof.
    intros ND E. apply add_session in E as (w1 & name & info & rules & ins & non & post & l1 & l2 & kl & d3 & m3 & w5 & m5 & _ & _ & Eo & _ & _ & _ & _ & _ & _ & _ & _ & _ & _ & FS & _ & Em & ->); auto.
    exists name. split; [apply open_name in Eo; tauto|]. intro H. apply FS in H.
    apply move_meta_file in Em as [n [ls [_ [_ [P D]]]]]. rewrite H in D. apply parse_lines_good in P.
    apply (flagged_automatic _ _ ls P). rewrite final_meta. exact D.
  Qed.
  (** a package installed as a dependency is recorded as automatic *)
  Theorem C18_dependency_recorded o conf a w w' : no_dot_name a -> session (Add o true conf a) w = (None, w') ->
    exists name, archive_name a name /\ automatic (w_db w') name.
  Proof. intros ND E. apply flagged in E as [name [A B]]; auto. exists name. auto. Qed.
  (** upgrading an automatic package keeps it automatic, even when it is asked for by name *)
  Theorem C18_upgrade_keeps_automatic o sd conf a w w' name : no_dot_name a -> archive_name a name ->
    o_upgrade o = true -> automatic (w_db w) name -> session (Add o sd conf a) w = (None, w') -> automatic (w_db w') name.
  Proof.
    intros ND An U Au E. apply flagged in E as [nm [A B]]; auto. rewrite (archive_name_unique _ _ _ A An) in B. auto.
  Qed.
  (** the mark is what the next load reads *)
  Theorem C18_loaded d m n r : load junk d = Ok m -> mget n (m_pkgs m) = Some r -> (r_auto r = true <-> automatic d n).
  Proof. exact (load_auto junk d m n r). Qed.

  (** *** The META file recorded is the one of the archive *)
  (** an archive whose META member is a regular entry, once, at the top *)
  Definition meta_once (a : archive) (n : node) : Prop :=
    In (L ".META", n) a /\ n_kind n <> KDir /\ (forall x m, In (x, m) a -> comps x = [L ".META"] -> x = L ".META" /\ m = n).
  Definition rooted (a : archive) : Prop := forall x n, In (x, n) a -> comps x = [] -> n_kind n = KDir.
  Definition plain_names (a : archive) : Prop := forall x, ships a x -> exists cs, plain x cs.
  Lemma meta_dot_not_shipped a x v : ships a x -> x <> "."%char :: v.
  Proof. intros [ls [_ [_ H]]]. apply H. Qed.
  Lemma del_root xs f : (forall x, In x xs -> exists cs, plain x cs) -> dir_at f (comps root) -> dir_at (del_files root xs f) (comps root).
  Proof.
    intros P D. eapply dir_at_ext; [|exact D]. symmetry. apply del_files_frame; auto. intros x I E.
    destruct (P x I) as [cs Pc]. rewrite (plain_comps _ _ Pc) in E. destruct (plain_comp _ _ Pc) as [_ N].
    apply (f_equal (@List.length str)) in E. unfold R in E. rewrite app_length in E. destruct cs; [congruence|cbn in E; lia].
  Qed.
  Lemma comps_meta : comps (root ++ L ".META") = comps root ++ [L ".META"].
  Proof. apply (comps_root_lit root Rs). lit. Qed.
  Theorem C01_meta_recorded o sd conf a n w w' : no_dot_name a -> o_scripts o = false -> tree (w_fs w) -> dir_at (w_fs w) (comps root) -> ~ where_meta (comps root) ->
    meta_once a n -> rooted a -> plain_names a -> (forall nm x, archive_name a nm -> lists (w_db w) nm x -> exists cs, plain x cs) ->
    session (Add o sd conf a) w = (None, w') ->
    exists name ls, archive_name a name /\ parse_lines (n_data n) = Some ls /\
      exists b, (b = true <-> (sd = true \/ junk = true \/ (o_upgrade o = true /\ automatic (w_db w) name))) /\
        dbfile (w_db w') name (L "META") = Some (if b then text_of (sins (L "d1") (set_of ls)) else n_data n).
  Proof.
    intros ND NS T D NW [M1 [M2 M3]] Ro PN PL E.
    apply add_session in E as (w1 & name & info & rules & ins & non & post & l1 & l2 & kl & d3 & m3 & w5 & m5 & Dw & Ew & Eo & _ & Ei & _ & _ & I1 & KL & _ & _ & I2 & _ & FS & _ & Em & ->); auto.
    rewrite NS in Ew. inversion Ew; subst w1. cbn [w_fs] in *. clear Ew Dw.
    pose proof (open_name _ _ _ _ _ _ Eo) as [An Sh]. pose proof (install_rules_spec _ _ _ _ _ _ Ei) as [Ai [Ni _]].
    destruct (cleanup_spec (w_fs w) root T) as [T0 F0].
    assert (D0 : dir_at (cleanup_meta (w_fs w) root) (comps root)).
    { eapply dir_at_ext; [|exact D]. symmetry. apply F0. intro J. apply NW. apply meta_where. exact J. }
    set (f2 := del_files root l2 (del_files root l1 (cleanup_meta (w_fs w) root))) in *.
    assert (T2 : tree f2) by (unfold f2; apply del_files_tree; auto; apply del_files_tree; auto).
    assert (D2 : dir_at f2 (comps root)).
    { unfold f2. apply del_root.
      - intros x I. apply I2 in I as [_ [[I _] _]]. apply (PL name); auto.
      - apply del_root; [|exact D0]. intros x I. apply I1 in I as [[I _] _]. apply PN. apply I. }
    clearbody f2.
    assert (NK : ~ In (L ".META") kl).
    { intro I. apply KL in I as [I _]. apply Ai in I as [I _]. apply Sh in I. apply (meta_dot_not_shipped a (L ".META") (L "META") I). reflexivity. }
    assert (NN : ~ In (L ".META") non).
    { intro I. apply Ni in I as [I _]. apply Sh in I. apply (meta_dot_not_shipped a (L ".META") (L "META") I). reflexivity. }
    assert (Cm : comp (L ".META")) by lit.
    assert (PK : forall x, In x kl -> exists cs, plain x cs).
    { intros x I. apply KL in I as [I _]. apply Ai in I as [I _]. apply PN, Sh, I. }
    pose proof (install_once root (L ".META") Cm ltac:(discriminate) a kl non n M1 M3 M2 NK NN PK Ro f2 T2 D2) as IO.
    set (f4 := install_archive root a kl non f2) in *. assert (T4 : tree f4) by (apply install_tree, T2). clearbody f4.
    apply move_meta_file in Em as [nd [ls [G [Gd [P Db]]]]]. cbn [w_fs] in G. rewrite comps_meta in G.
    rewrite (removeFile_single f4 root (L ".MTREE") T4 ltac:(lit)) in G.
    2:{ intro Z. destruct (comps root) as [|c [|c' t]]; discriminate Z. }
    assert (nd = n).
    { destruct IO as [IO|[o' [IO K]]]; [congruence|]. exfalso. rewrite IO in G. inversion G; subst o'. apply is_dir_kind in K. congruence. }
    subst nd. exists name, ls. split; [exact An|]. split; [exact P|]. exists (m_dep m3). split; [exact FS|]. rewrite final_meta. exact Db.
  Qed.
  (** upgrading a manual package keeps it manual: holds only if the flag of the tool happens to be false at the start *)
  Theorem C18_manual_stays_manual_partial o conf a n w w' name : junk = false -> no_dot_name a -> archive_name a name ->
    o_scripts o = false -> tree (w_fs w) -> dir_at (w_fs w) (comps root) -> ~ where_meta (comps root) ->
    meta_once a n -> rooted a -> plain_names a -> (forall nm x, archive_name a nm -> lists (w_db w) nm x -> exists cs, plain x cs) ->
    (forall ls, parse_lines (n_data n) = Some ls -> ~ In (L "d1") ls) ->
    session (Add o false conf a) w = (None, w') -> ~ automatic (w_db w) name -> ~ automatic (w_db w') name.
  Proof.
    intros J ND An NS T D NW MO Ro PN PL NoD E NA A.
    destruct (C01_meta_recorded o false conf a n w w' ND NS T D NW MO Ro PN PL E) as [nm [ls [An' [P [b [B Db]]]]]].
    rewrite (archive_name_unique _ _ _ An' An) in *. assert (b = false).
    { apply not_true_iff_false. intro Z. apply B in Z as [Z|[Z|[_ Z]]]; [discriminate|congruence|auto]. }
    subst b. destruct A as [dir [c [ls' [G1 [G2 [G3 I]]]]]].
    assert (X : dbfile (w_db w') name (L "META") = Some c) by (apply dbfile_get; eauto). rewrite Db in X. inversion X; subst c.
    apply (NoD ls'); auto.
  Qed.

  (** *** C04 *)
  (** A refusal leaves the database, and the files apart from left-over metadata of an earlier run, as they were: for "already
      installed" and "not installed" always; for conflicts and bad rules when no script runs and (for bad rules) not in a forced upgrade *)
  Definition refusal (o : opts) (e : stop) : Prop :=
    e = Already \/ e = NotInstalled \/
    (o_scripts o = false /\ ((exists cf, e = Conflict cf) \/ (e = BadRules /\ (o_force o = false \/ o_upgrade o = false)))).
  Lemma refused_world o sd conf a w e w' : session (Add o sd conf a) w = (Some e, w') -> refusal o e ->
    w' = World (cleanup_meta (w_fs w) root) (w_db w).
  Proof.
    intros E Rf. apply session_add_some in E as [[-> _]|[m [Lo E]]]; [reflexivity|].
    unfold add_run in E. set (w0 := World (cleanup_meta (w_fs w) root) (w_db w)) in *.
    destruct (open_archive junk machine root a) as [[name info]| |] eqn:Eo; [|inversion E; reflexivity|inversion E; reflexivity].
    destruct (read_rules_file conf) as [rules|] eqn:Err; [|inversion E; reflexivity].
    destruct (name_exists (set_dep sd m) name && negb (o_upgrade o)); [inversion E; reflexivity|].
    destruct (negb (name_exists (set_dep sd m) name) && o_upgrade o); [inversion E; reflexivity|].
    destruct (apply_install_rules re rules (r_files info)) as [[[ins non] post]|] eqn:Ei; [|inversion E; reflexivity].
    destruct (if o_scripts o then pre_run sh root a w0 else inr w0) as [w1|w1] eqn:Ep.
    { inversion E; subst e w'. destruct Rf as [Z|[Z|[_ [[cf Z]|[Z _]]]]]; discriminate. }
    match type of E with (match ?x with _ => _ end) = _ => destruct x as [e1|[w2 m2]] eqn:Ec end.
    - inversion E; subst e1 w'. clear E. assert (NSc : o_scripts o = false).
      { destruct Rf as [Z|[Z|[Z _]]]; auto; subst e;
        (destruct (conflicts root name ins (w_fs w1) (m_pkgs (set_dep sd m))) as [|c cf]; [discriminate|]; destruct (o_force o);
         [destruct (if o_upgrade o then get_keep_list re rules (c :: cf) else Some []); discriminate|discriminate]). }
      rewrite NSc in Ep. inversion Ep; reflexivity.
    - match type of E with (match ?x with _ => _ end) = _ => destruct x as [[e1 w3]|[[w3 m3] kl]] eqn:Eu end.
      + inversion E; subst e1 w'. destruct (o_upgrade o) eqn:U; [|discriminate].
        destruct (get_keep_list re rules ins) as [kl|].
        * destruct (remove_refs _ _ _); inversion Eu; subst e. destruct Rf as [Z|[Z|[_ [[cf Z]|[Z _]]]]]; discriminate.
        * inversion Eu; subst e w3. destruct Rf as [Z|[Z|[NSc [[cf Z]|[_ [Z|Z]]]]]]; try discriminate; [|congruence].
          rewrite NSc in Ep. inversion Ep; subst w1. rewrite Z in Ec.
          destruct (conflicts root name ins (w_fs w0) (m_pkgs (set_dep sd m))) as [|c cf]; inversion Ec; reflexivity.
      + destruct (move_meta _ _ _) as [[w5 m5]| |]; [discriminate| |]; inversion E; subst e; destruct Rf as [Z|[Z|[_ [[cf Z]|[Z _]]]]]; discriminate.
  Qed.
  Theorem C04_refused_unchanged_partial o sd conf a w e w' : session (Add o sd conf a) w = (Some e, w') -> refusal o e -> tree (w_fs w) ->
    w_db w' = w_db w /\ forall q, ~ where_meta q -> fget (w_fs w') q = fget (w_fs w) q.
  Proof.
    intros E Rf T. rewrite (refused_world _ _ _ _ _ _ _ E Rf). split; [reflexivity|]. intros q N. cbn [w_fs].
    apply cleanup_spec; auto. intro J. apply N, meta_where, J.
  Qed.
End AddProps.

(** *** the exceptions are real *)
(** C04: the .PRE script of the archive has already run when the conflicts are found *)
Definition touchy (s : str) (f : fs) : fs * bool := (fset [L "touched"] (reg (L "by .PRE")) f, true).
Definition bar_pre : archive := pkg [L "Nbar"; L "V1"; L "ax86_64"]
  [(L "usr/", dirn); (L "usr/bin/", dirn); (L "usr/bin/tool", reg (L "bar tool")); (L ".PRE", reg (L "#!/bin/sh"))].
Theorem C04_pre_script_refuted :
  let r := session false mach pfx touchy rt (Add (Opts false false true) false None bar_pre) w_foo in
  fst r = Some (Conflict [L "usr/bin/tool"]) /\ fget (w_fs w_foo) [L "touched"] = None /\
  fget (w_fs (snd r)) [L "touched"] = Some (reg (L "by .PRE")).
Proof. split; [|split]; vm_compute; reflexivity. Qed.
(** C04: a forced upgrade refused for a bad pattern has already deleted the conflicting files of other packages.
    The bad pattern is met only after a matching later rule stops hiding it. *)
Definition bad_re (p f : str) : option bool := if seqb p (L "[") then None else Some (prefixb p f).
Definition bad_conf : str := L "UPGRADE [ NO" ++ nl :: L "UPGRADE usr/bar YES" ++ [nl].
Definition foo3 : archive := pkg [L "Nfoo"; L "V3"; L "ax86_64"] [(L "usr/", dirn); (L "usr/bar.txt", reg (L "stolen"))].
Definition bar0 : archive := pkg [L "Nbar"; L "V1"; L "ax86_64"] [(L "usr/", dirn); (L "usr/bar.txt", reg (L "about bar"))].
Theorem C04_bad_rules_refuted :
  let w := history false mach bad_re quiet rt [Add simple false None foo; Add simple false None bar0] w_empty in
  let r := session false mach bad_re quiet rt (Add (Opts true true false) false (Some bad_conf) foo3) w in
  fst r = Some BadRules /\ fget (w_fs w) [L "usr"; L "bar.txt"] = Some (reg (L "about bar")) /\
  fget (w_fs (snd r)) [L "usr"; L "bar.txt"] = None /\
  files_of (w_db w) (L "bar") = Some [L "usr/"; L "usr/bar.txt"] /\ files_of (w_db (snd r)) (L "bar") = Some [L "usr/"].
Proof. split; [|split; [|split; [|split]]]; vm_compute; reflexivity. Qed.

(** C18: the flag of the tool is never initialised; when memory happens to hold true, a package installed by name becomes automatic *)
Theorem C18_uninitialised_flag_refuted :
  let r := session true mach pfx quiet rt (Add simple false None foo) w_empty in
  fst r = None /\ exists dir c, mget (L "foo") (w_db (snd r)) = Some dir /\ mget (L "META") dir = Some c /\ In (L "d1") (read_files c).
Proof. split; [vm_compute; reflexivity|]. eexists. eexists. split; [vm_compute; reflexivity|]. split; [vm_compute; reflexivity|]. vm_compute. tauto. Qed.
(** C18: a manual package that is upgraded because another package needs it becomes automatic (install.cxx:85-86) *)
Theorem C18_manual_becomes_automatic_refuted :
  let w := snd (session false mach pfx quiet rt (Many false false None [(false, foo)] []) w_empty) in
  let w' := snd (session false mach pfx quiet rt (Many false false None [(true, foo2)] []) w) in
  (exists m r, load false (w_db w) = Ok m /\ mget (L "foo") (m_pkgs m) = Some r /\ r_auto r = false) /\
  (exists m r, load false (w_db w') = Ok m /\ mget (L "foo") (m_pkgs m) = Some r /\ r_auto r = true).
Proof.
  split; (eexists; eexists; split; [vm_compute; reflexivity|split; [vm_compute; reflexivity|vm_compute; reflexivity]]).
Qed.
