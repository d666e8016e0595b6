(** C87: the database, the configuration file and the user of each cards command. *)
From Verif Require Import Base BaseProofs StrModel StrSpec StrProofs RulesModel FsModel FsSpec FsProofs MetaModel DbModel DbSpec DbProps DbInv EngineFs GenDeps GenDepsProofs HexModel IndexModel FetchModel FetchProps
  FetchExamples RemoveCmdProofs InstallModel InstallRun InstallProps InstallClosed DbExamples RemoveCmdExamples InstallExamples.
From Verif Require Import ArgModel ArgSpec ArgProps CmdModel.
From Coq Require Import ZArith Lia.
Import DbInv.

(** ** specification *)
(** 'cards <cmd> ...' is a correct command line with these options and arguments *)
Definition cards_line (args : list str) (cmd : str) (items : list item) : Prop :=
  exists c, a_name c = cmd /\ line_means cards_table args c items /\ acceptable cards_table c items.
(** the last --<name>=<v> of the line; no --<name> on the line *)
Definition given (name : str) (items : list item) (v : str) : Prop := exists o, In o cards_opts /\ o_long o = name /\ gives (o_id o) items v.
Definition absent (name : str) (items : list item) : Prop := forall o, In o cards_opts -> o_long o = name -> ~ ArgSpec.named (o_id o) items.
(** what the parser hands to the command *)
Definition runs_with (args : list str) (cmd : str) (set : list (nat * str)) : Prop := exists c others, parse cards_table args = Go c set others /\ a_name c = cmd.
(** the database of the system below directory [r] *)
Definition db_of (r : path) : path := r ++ [L "var"; L "lib"; L "pkg"; L "DB"].

(** ** proofs *)
Lemma line_runs args cmd items : cards_line args cmd items -> exists set, runs_with args cmd set /\ forall id v, opt_value id set = Some v <-> gives id items v.
Proof.
  intros (c & E & M & A). destruct (C42_complete cards_table args c items cards_ok M A) as (set & P & G). exists set. split; [exists c, (args_of items); auto|exact G].
Qed.
Lemma runs_det args cmd set cmd' set' : runs_with args cmd set -> runs_with args cmd' set' -> set = set'.
Proof. intros (c & o & E & _) (c' & o' & E' & _). rewrite E in E'. congruence. Qed.
Lemma line_opts args cmd items set : cards_line args cmd items -> runs_with args cmd set -> forall id v, opt_value id set = Some v <-> gives id items v.
Proof. intros Li R. destruct (line_runs args cmd items Li) as (s2 & R2 & G). rewrite (runs_det _ _ _ _ _ R R2). exact G. Qed.
Lemma given_value name id items v : (forall o, In o cards_opts -> o_long o = name -> o_id o = id) -> given name items v -> gives id items v.
Proof. intros U (o & I & E & G). rewrite (U o I E) in G. exact G. Qed.
Lemma absent_none name id items : (exists o, In o cards_opts /\ o_long o = name /\ o_id o = id) -> absent name items -> forall v, ~ gives id items v.
Proof. intros (o & I & E & <-) A v (l1 & o' & l2 & -> & Ei & _). apply (A o I E). exists o', v. split; [apply in_or_app; right; left; reflexivity|exact Ei]. Qed.
Lemma root_id o : In o cards_opts -> o_long o = L "root" -> o_id o = o_root.
Proof. intros I E. unfold cards_opts in I. cbn [In] in I. repeat (destruct I as [<-|I]; [try discriminate E; reflexivity|]). destruct I. Qed.
Lemma conf_id o : In o cards_opts -> o_long o = L "conf" -> o_id o = o_conf.
Proof. intros I E. unfold cards_opts in I. cbn [In] in I. repeat (destruct I as [<-|I]; [try discriminate E; reflexivity|]). destruct I. Qed.
Lemma root_there : exists o, In o cards_opts /\ o_long o = L "root" /\ o_id o = o_root.
Proof. exists (Aopt 10 (L "root") None true). split; [unfold cards_opts; cbn [In]; auto 20|auto]. Qed.
Lemma conf_there : exists o, In o cards_opts /\ o_long o = L "conf" /\ o_id o = o_conf.
Proof. exists (Aopt 2 (L "conf") None true). split; [unfold cards_opts; cbn [In]; auto 20|auto]. Qed.
Lemma root_value args cmd items set : cards_line args cmd items -> runs_with args cmd set ->
  (forall v, given (L "root") items v -> opt_value o_root set = Some v) /\ (absent (L "root") items -> opt_value o_root set = None).
Proof.
  intros Li R. pose proof (line_opts args cmd items set Li R) as G. split.
  - intros v H. apply G, (given_value _ _ _ _ root_id H).
  - intro H. destruct (opt_value o_root set) as [v|] eqn:E; [|reflexivity]. apply G in E. destruct (absent_none _ _ _ root_there H v E).
Qed.
Lemma conf_value args cmd items set : cards_line args cmd items -> runs_with args cmd set ->
  (forall v, given (L "conf") items v -> opt_value o_conf set = Some v) /\ (absent (L "conf") items -> opt_value o_conf set = None).
Proof.
  intros Li R. pose proof (line_opts args cmd items set Li R) as G. split.
  - intros v H. apply G, (given_value _ _ _ _ conf_id H).
  - intro H. destruct (opt_value o_conf set) as [v|] eqn:E; [|reflexivity]. apply G in E. destruct (absent_none _ _ _ conf_there H v E).
Qed.
Lemma db_slashed a : comps (db_path (a ++ L "/")) = db_of (comps a).
Proof. unfold db_path, db_of. rewrite <- app_assoc, comps_slashed. f_equal. Qed.
Lemma db_host : comps (db_path (L "/")) = db_of [].
Proof. reflexivity. Qed.
Lemma db_ends a : ends_slash a = true -> comps (db_path a) = db_of (comps a).
Proof. intro H. unfold db_path, db_of. rewrite comps_app by auto. f_equal. Qed.
(** a name that ends in something else *)
Lemma last_part v : v <> [] -> ends_slash v = false -> exists a t, v = a ++ t /\ (a = [] \/ ends_slash a = true) /\ t <> [] /\ ~ In slash t.
Proof.
  induction v as [|c v IH] using rev_ind; [congruence|]. intros _ H. assert (Nc : c <> slash).
  { intros ->. assert (X : ends_slash (v ++ [slash]) = true) by (apply ends_slash_spec; exists v; reflexivity). congruence. }
  destruct v as [|d v]; [exists [], [c]; split; [reflexivity|]; split; [auto|]; split; [discriminate|intros [E|[]]; congruence]|].
  destruct (ends_slash (d :: v)) eqn:E; [exists (d :: v), [c]; split; [reflexivity|]; split; [auto|]; split; [discriminate|intros [X|[]]; congruence]|].
  destruct (IH ltac:(discriminate) eq_refl) as (a & t & -> & A & T & S). exists a, (t ++ [c]). rewrite app_assoc. split; [reflexivity|]. split; [exact A|]. split; [destruct t; discriminate|].
  rewrite in_app_iff. intros [X|[X|[]]]; [exact (S X)|congruence].
Qed.
Lemma glued t : t <> [] -> ~ In slash t -> comps (t ++ L "var/lib/pkg/DB/") = [t ++ L "var"; L "lib"; L "pkg"; L "DB"].
Proof.
  intros T S. assert (C : comp (t ++ L "var")).
  { split; [destruct t; discriminate|]. split; [rewrite in_app_iff; intros [H|H]; [exact (S H)|cbn in H; intuition discriminate]|].
    intro E. apply (f_equal (@List.length ascii)) in E. rewrite app_length in E. cbn [List.length L list_ascii_of_string] in E. lia. }
  change (L "var/lib/pkg/DB/") with (L "var" ++ L "/" ++ L "lib/pkg/DB/"). rewrite app_assoc, comps_slashed.
  assert (E1 : comps (t ++ L "var") = [t ++ L "var"]) by (rewrite <- (comps_join [t ++ L "var"]) by (constructor; [exact C|constructor]); reflexivity).
  rewrite E1. reflexivity.
Qed.

(** ** C87 *)
(** 'install' and 'remove' work on the database below the directory given with --root, and without --root on the one of the system. *)
Theorem C87_root : forall args cmd items set, cards_line args cmd items -> runs_with args cmd set -> cmd = L "install" \/ cmd = L "remove" ->
  (forall v, given (L "root") items v -> comps (db_path (engine_root cmd set)) = db_of (comps v) /\ comps (lock_path (engine_root cmd set)) = db_of (comps v)) /\
  (absent (L "root") items -> comps (db_path (engine_root cmd set)) = db_of []).
Proof.
  intros args cmd items set Li R C. destruct (root_value args cmd items set Li R) as [V N].
  assert (B : (seqb cmd (L "install") || seqb cmd (L "remove")) = true) by (destruct C as [-> | ->]; reflexivity).
  split.
  - intros v H. unfold engine_root. rewrite (V v H), B. split; [apply db_slashed|]. unfold lock_path. rewrite comps_slashed. unfold db_of. change (v ++ L "/") with (v ++ [slash]). rewrite comps_snoc_slash. reflexivity.
  - intro H. unfold engine_root. rewrite (N H). apply db_host.
Qed.
(** 'upgrade' does so if there is no --root or its value ends in a slash *)
Theorem C87_upgrade_root_partial : forall args items set, cards_line args (L "upgrade") items -> runs_with args (L "upgrade") set ->
  (forall v, given (L "root") items v -> ends_slash v = true -> comps (db_path (engine_root (L "upgrade") set)) = db_of (comps v)) /\
  (absent (L "root") items -> comps (db_path (engine_root (L "upgrade") set)) = db_of []).
Proof.
  intros args items set Li R. destruct (root_value args _ items set Li R) as [V N]. split.
  - intros v H Es. unfold engine_root. rewrite (V v H). apply db_ends, Es.
  - intro H. unfold engine_root. rewrite (N H). apply db_host.
Qed.
(** With any other value it reads a directory that is the database of no system at all, the last component of the value being glued
    to "var"; what it locks is the right one. *)
Theorem C87_upgrade_root_refuted : forall args items set v, cards_line args (L "upgrade") items -> runs_with args (L "upgrade") set ->
  given (L "root") items v -> ends_slash v = false ->
  comps (db_path (engine_root (L "upgrade") set)) <> db_of (comps v) /\ (forall r, comps (db_path (engine_root (L "upgrade") set)) <> db_of r) /\
  comps (lock_path (engine_root (L "upgrade") set)) = db_of (comps v).
Proof.
  intros args items set v Li R H Es. destruct (root_value args _ items set Li R) as [V _]. unfold engine_root. rewrite (V v H). cbn [seqb orb].
  assert (Nv : v <> []).
  { intros ->. destruct (line_runs args _ items Li) as (s2 & (c & others & P & Ec) & G). destruct H as (o & I & Eo & Gv). destruct Gv as (l1 & o' & l2 & El & Ei & _).
    destruct Li as (c0 & _ & (pre & post & i1 & i2 & _ & _ & _ & _ & _ & W1 & W2 & ->) & _).
    assert (W : forall ws is, words cards_table ws is -> forall o, In (IOpt o []) is -> o_val o = false).
    { assert (X : forall w i, ArgSpec.word cards_table w i -> forall o, i = IOpt o [] -> o_val o = false).
      { intros w i Wd q Eq. destruct Wd as [a0 _|q0 _ _ Q|q0 x0 _ _ Q|q0 v0 _ _ _ Nn|q0 c1 _ _ Q|q0 c1 v0 Iq Sc Qv]; try discriminate Eq; try (injection Eq as <-; exact Q).
        - injection Eq as _ Eq. contradiction.
        - injection Eq as <- _. exact (cards_no_short_values q0 c1 Iq Sc). }
      intros ws is Ws. induction Ws as [|w i ws is Wd Ws IH]; intros q J; [destruct J|]. destruct J as [->|J]; [exact (X w _ Wd q eq_refl)|exact (IH q J)]. }
    assert (J : In (IOpt o' []) (i1 ++ i2)) by (rewrite El; apply in_or_app; right; left; reflexivity).
    assert (Q : o_val o' = false) by (apply in_app_iff in J as [J|J]; [exact (W _ _ W1 o' J)|exact (W _ _ W2 o' J)]).
    assert (T : forall ws is, words cards_table ws is -> forall q x, In (IOpt q x) is -> In q cards_opts).
    { intros ws is Ws. induction Ws as [|w i ws is Wd Ws IH]; intros q x Jq; [destruct Jq|]. destruct Jq as [->|Jq]; [|exact (IH q x Jq)]. inversion Wd; subst; assumption. }
    assert (Io : In o' cards_opts) by (apply in_app_iff in J as [J|J]; [exact (T _ _ W1 o' _ J)|exact (T _ _ W2 o' _ J)]).
    rewrite (root_id o I Eo) in Ei. clear - Io Ei Q. unfold cards_opts in Io. cbn [In] in Io. repeat (destruct Io as [<-|Io]; [first [discriminate Ei|discriminate Q]|]). destruct Io. }
  assert (X : forall r, comps (db_path v) <> db_of r).
  { intros r E. destruct (last_part v Nv Es) as (a & t & -> & A & T & S). unfold db_path in E. rewrite <- app_assoc, (comps_app a _ A), (glued t T S) in E. unfold db_of in E.
    change [t ++ L "var"; L "lib"; L "pkg"; L "DB"] with ([t ++ L "var"; L "lib"; L "pkg"] ++ [L "DB"]) in E. change [L "var"; L "lib"; L "pkg"; L "DB"] with ([L "var"; L "lib"; L "pkg"] ++ [L "DB"]) in E.
    rewrite !app_assoc in E. apply app_inj_tail in E as [E _].
    change [t ++ L "var"; L "lib"; L "pkg"] with ([t ++ L "var"; L "lib"] ++ [L "pkg"]) in E. change [L "var"; L "lib"; L "pkg"] with ([L "var"; L "lib"] ++ [L "pkg"]) in E. rewrite !app_assoc in E. apply app_inj_tail in E as [E _].
    change [t ++ L "var"; L "lib"] with ([t ++ L "var"] ++ [L "lib"]) in E. change [L "var"; L "lib"] with ([L "var"] ++ [L "lib"]) in E. rewrite !app_assoc in E. apply app_inj_tail in E as [E _].
    apply app_inj_tail in E as [_ E]. apply (f_equal (@List.length ascii)) in E. rewrite app_length in E. destruct t; [congruence|]. cbn [List.length L list_ascii_of_string] in E. lia. }
  split; [apply X|]. split; [exact X|]. unfold lock_path. rewrite comps_slashed. reflexivity.
Qed.
(** Every other command works on the database of the system, --root or not; so do the repository queries of every command. *)
Theorem C87_others : forall args cmd items set, cards_line args cmd items -> runs_with args cmd set ->
  (~ In cmd (map L ["install"; "remove"; "upgrade"]%string) -> comps (db_path (engine_root cmd set)) = db_of []) /\ comps (repo_db set) = db_of [].
Proof.
  intros args cmd items set _ _. split; [|reflexivity]. intro N. unfold engine_root. destruct (opt_value o_root set) as [v|]; [|reflexivity].
  assert (B : forall x, In x ["install"; "remove"; "upgrade"]%string -> seqb cmd (L x) = false) by (intros x J; apply seqb_neq; intros ->; apply N, in_map, J).
  rewrite !B by (cbn; auto). reflexivity.
Qed.
(** The configuration is the file given with --conf, below the directory given with --root; without --conf it is the one of the system, even with --root.
    The commands for ports (create, level, depends, dependent, deptree) always use the one of the system. *)
Theorem C87_config : forall args cmd items set, cards_line args cmd items -> runs_with args cmd set -> cmd <> L "help" ->
  exists p, config_path cmd set = Some p /\
    (In cmd (map L ["create"; "level"; "depends"; "dependent"; "deptree"]%string) -> comps p = [L "etc"; L "cards.conf"]) /\
    (absent (L "conf") items -> comps p = [L "etc"; L "cards.conf"]) /\
    (~ In cmd (map L ["create"; "level"; "depends"; "dependent"; "deptree"]%string) -> forall f, given (L "conf") items f ->
      (forall r, given (L "root") items r -> comps p = comps r ++ comps f) /\ (absent (L "root") items -> comps p = comps f)).
Proof.
  intros args cmd items set Li R Nh. destruct (root_value args cmd items set Li R) as [V N]. destruct (conf_value args cmd items set Li R) as [Vc Nc].
  unfold config_path. apply seqb_neq in Nh. rewrite Nh.
  assert (F : fixed_conf cmd = true <-> In cmd (map L ["create"; "level"; "depends"; "dependent"; "deptree"]%string)).
  { unfold fixed_conf. rewrite existsb_exists. split; [intros (x & J & E); apply seqb_eq in E; subst x; exact J|intro J; exists cmd; split; [exact J|apply seqb_refl]]. }
  destruct (fixed_conf cmd).
  - eexists. split; [reflexivity|]. split; [reflexivity|]. split; [reflexivity|]. intro X. exfalso. apply X, F. reflexivity.
  - assert (M : exists p, (if seqb cmd (L "sync") then Some (L "/" ++ main_conf set) else Some (main_conf set)) = Some p /\ comps p = comps (main_conf set)).
    { destruct (seqb cmd (L "sync")); eexists; (split; [reflexivity|]); [change (L "/" ++ main_conf set) with (slash :: main_conf set); apply comps_cons_slash|reflexivity]. }
    destruct M as (p & E & C). exists p. split; [exact E|]. split; [intro J; apply F in J; discriminate J|]. rewrite C. unfold main_conf. split.
    + intro A. rewrite (Nc A). reflexivity.
    + intros _ f G. rewrite (Vc f G). unfold main_root. split.
      * intros r Gr. rewrite (V r Gr), <- app_assoc, comps_slashed. reflexivity.
      * intro A. rewrite (N A). change (L "/" ++ f) with (slash :: f). apply comps_cons_slash.
Qed.
(** Somebody who is not root is refused by every command that changes the system; keys and repo refuse root. *)
Theorem C87_who : forall args cmd items set uid, cards_line args cmd items -> runs_with args cmd set ->
  (uid <> 0 -> In cmd (map L ["install"; "remove"; "create"; "sync"; "purge"]%string) -> permits cmd set uid = Refused) /\
  (uid <> 0 -> cmd = L "upgrade" -> permits cmd set uid = Refused \/ up_acts set = false) /\
  (In cmd (map L ["keys"; "repo"]%string) -> permits cmd set uid = Refused <-> uid = 0) /\
  (uid = 0 -> ~ In cmd (map L ["keys"; "repo"]%string) -> permits cmd set uid = Allowed).
Proof.
  intros args cmd items set uid _ _. split; [|split; [|split]].
  - intros U J. apply Nat.eqb_neq in U. unfold permits. rewrite U. cbn [map In] in J. repeat (destruct J as [<-|J]; [reflexivity|]). destruct J.
  - intros U ->. apply Nat.eqb_neq in U. unfold permits, up_acts. rewrite U. destruct (is_set 4 set); [right; rewrite andb_false_r; reflexivity|left; reflexivity].
  - intro J. unfold permits. destruct (Nat.eqb_spec uid 0) as [E|E]; cbn [map In] in J; (destruct J as [<-|[<-|[]]]; (split; [auto|]; intro X; first [contradiction|reflexivity|discriminate X])).
  - intros -> N. unfold permits. cbn [Nat.eqb].
    assert (B : existsb (seqb cmd) (map L ["keys"; "repo"]%string) = false).
    { apply not_true_iff_false. intro X. apply existsb_exists in X as (x & J & E). apply seqb_eq in E. subst x. exact (N J). }
    rewrite B. destruct (existsb (seqb cmd) (map L ["sync"; "purge"; "install"; "create"; "remove"]%string)); [reflexivity|]. destruct (seqb cmd (L "upgrade")); [destruct (is_set 4 set); reflexivity|reflexivity].
Qed.
(** A dependency that the system has is not installed in another root: 'cards install --root=/mnt foo', foo needing bar, leaves /mnt
    without bar if the running system has it. *)
Definition w_host : world := snd (ses (Add simple false None a_bar) w_empty).
Definition w_mnt : world := World [([L "mnt"], dirn)] [].
Definition w_mounted : world :=
  after (cards_install false mach pfx quiet (L "/mnt/") t_url t_repo t_sha unit t_pem t_verify t_unpack 0 20 (w_db w_host) false false None [Package (L "foo")] [] t_start w_mnt).
Theorem C87_install_root_refuted :
  cards_install false mach pfx quiet (L "/mnt/") t_url t_repo t_sha unit t_pem t_verify t_unpack 0 20 (w_db w_host) false false None [Package (L "foo")] [] t_start w_mnt = Some (None, w_mounted) /\
  closed (w_db w_mnt) /\ installed (w_db w_mounted) (L "foo") /\ needs (w_db w_mounted) (L "foo") (L "bar") /\ ~ installed (w_db w_mounted) (L "bar").
Proof.
  split; [vm_compute; reflexivity|]. split; [intros n k [_ H]; exfalso; apply H; reflexivity|].
  split; [split; [intros v E; discriminate E|vm_compute; discriminate]|]. split; [|intros [_ H]; apply H; vm_compute; reflexivity].
  exists (L "Rbar1700000000"). split; [apply has_meta; vm_compute; reflexivity|]. left. exists (L "1700000000"). split; reflexivity.
Qed.
Lemma named_gives id items : ArgSpec.named id items -> exists v, gives id items v.
Proof.
  intros (o & v & I & E). induction items as [|x l IH] using rev_ind; [destruct I|].
  assert (D : {exists o' v', x = IOpt o' v' /\ o_id o' = id} + {~ exists o' v', x = IOpt o' v' /\ o_id o' = id}).
  { destruct x as [o' v'|a]; [destruct (Nat.eq_dec (o_id o') id) as [X|X]; [left; exists o', v'; auto|right; intros (q & y & Q & Y); injection Q as -> ->; contradiction]|right; intros (q & y & Q & _); discriminate Q]. }
  destruct D as [(o' & v' & -> & X)|N].
  - exists v', l, o', []. split; [reflexivity|]. split; [exact X|]. intros q y [].
  - apply in_app_iff in I. destruct I as [I|[->|[]]]; [|exfalso; apply N; exists o, v; auto].
    destruct (IH I) as (v1 & l1 & o1 & l2 & -> & E1 & N1). exists v1, l1, o1, (l2 ++ [x]). split; [rewrite <- app_assoc; reflexivity|]. split; [exact E1|].
    intros q y J Y. apply in_app_iff in J. destruct J as [J|[->|[]]]; [apply (N1 q y J Y)|apply N; exists q, y; auto].
Qed.
Lemma switch_off args cmd items set id name : cards_line args cmd items -> runs_with args cmd set ->
  (forall o, In o cards_opts -> o_long o = name -> o_id o = id) -> (exists o, In o cards_opts /\ o_long o = name) ->
  (is_set id set = false <-> absent name items).
Proof.
  intros Li R U (o & Io & Eo). pose proof (line_opts args cmd items set Li R) as G. unfold is_set. split.
  - intros H q Iq Eq Nq. rewrite (U q Iq Eq) in Nq. destruct (named_gives id items Nq) as (v & V). apply G in V. rewrite V in H. discriminate H.
  - intro A. destruct (opt_value id set) as [v|] eqn:E; [|reflexivity]. apply G in E. exfalso.
    exact (absent_none name id items (ex_intro _ o (conj Io (conj Eo (U o Io Eo)))) A v E).
Qed.
(** 'upgrade' goes as far as changing the system only without --check, --size, --ready and --download-only; the indexes are fetched
    again first exactly when root runs sync, diff or upgrade. *)
Theorem C87_acts : forall args cmd items set uid, cards_line args cmd items -> runs_with args cmd set ->
  (up_acts set = true <-> absent (L "check") items /\ absent (L "size") items /\ absent (L "ready") items /\ absent (L "download-only") items) /\
  (syncs cmd uid = true <-> uid = 0 /\ In cmd (map L ["sync"; "diff"; "upgrade"]%string)).
Proof.
  intros args cmd items set uid Li R. split.
  - unfold up_acts.
    assert (U : forall id name, (forall o, In o cards_opts -> o_long o = name -> o_id o = id) -> (exists o, In o cards_opts /\ o_long o = name) -> (is_set id set = false <-> absent name items))
      by (intros id name; apply (switch_off args cmd items set id name Li R)).
    rewrite <- (U 8 (L "check")), <- (U 7 (L "size")), <- (U 3 (L "ready")), <- (U 4 (L "download-only"));
      try (intros o Io Eo; unfold cards_opts in Io; cbn [In] in Io; repeat (destruct Io as [<-|Io]; [try discriminate Eo; reflexivity|]); destruct Io).
    + rewrite !andb_true_iff, !negb_true_iff. tauto.
    + exists (Aopt 4 (L "download-only") None false). split; [unfold cards_opts; cbn [In]; auto 20|reflexivity].
    + exists (Aopt 3 (L "ready") None false). split; [unfold cards_opts; cbn [In]; auto 20|reflexivity].
    + exists (Aopt 7 (L "size") (Some "s"%char) false). split; [unfold cards_opts; cbn [In]; auto 20|reflexivity].
    + exists (Aopt 8 (L "check") (Some "c"%char) false). split; [unfold cards_opts; cbn [In]; auto 20|reflexivity].
  - unfold syncs. rewrite andb_true_iff, Nat.eqb_eq, existsb_exists. split.
    + intros (U & x & I & E). apply seqb_eq in E. subst x. split; assumption.
    + intros (U & I). split; [exact U|]. exists cmd. split; [exact I|apply seqb_refl].
Qed.
(** a command line that meets the hypotheses *)
Example C87_case : exists args items set, cards_line args (L "install") items /\ runs_with args (L "install") set /\ given (L "root") items (L "/mnt") /\ given (L "conf") items (L "etc/my.conf") /\
  db_path (engine_root (L "install") set) = L "/mnt/var/lib/pkg/DB/" /\ config_path (L "install") set = Some (L "/mnt/etc/my.conf").
Proof.
  destruct (C42_sound cards_table (map L ["install"; "--root=/mnt"; "--conf=etc/my.conf"; "foo"]%string) (Acmd (L "install") Min 1 [] [1; 14; 15; 16; 10; 17; 2]) [(2, L "etc/my.conf"); (10, L "/mnt")] [L "foo"] cards_ok cards_no_short_values ltac:(vm_compute; reflexivity)) as (items & M & A & _ & G).
  exists (map L ["install"; "--root=/mnt"; "--conf=etc/my.conf"; "foo"]%string), items, [(2, L "etc/my.conf"); (10, L "/mnt")].
  split; [eexists; split; [|split; [exact M|exact A]]; reflexivity|]. split; [eexists; exists [L "foo"]; split; [vm_compute; reflexivity|reflexivity]|].
  split; [destruct root_there as (o & I & E1 & E2); exists o; split; [exact I|]; split; [exact E1|]; rewrite E2; apply G; reflexivity|].
  split; [destruct conf_there as (o & I & E1 & E2); exists o; split; [exact I|]; split; [exact E1|]; rewrite E2; apply G; reflexivity|]. split; reflexivity.
Qed.
Example C87_upgrade_case : exists args items set, cards_line args (L "upgrade") items /\ runs_with args (L "upgrade") set /\ given (L "root") items (L "/mnt") /\ ends_slash (L "/mnt") = false /\
  db_path (engine_root (L "upgrade") set) = L "/mntvar/lib/pkg/DB/".
Proof.
  destruct (C42_sound cards_table (map L ["upgrade"; "--root=/mnt"]%string) (Acmd (L "upgrade") NoCheck 0 [] [1; 3; 4; 5; 6; 7; 8; 9; 10; 2]) [(10, L "/mnt")] [] cards_ok cards_no_short_values ltac:(vm_compute; reflexivity)) as (items & M & A & _ & G).
  exists (map L ["upgrade"; "--root=/mnt"]%string), items, [(10, L "/mnt")].
  split; [eexists; split; [|split; [exact M|exact A]]; reflexivity|]. split; [eexists; exists []; split; [vm_compute; reflexivity|reflexivity]|].
  split; [destruct root_there as (o & I & E1 & E2); exists o; split; [exact I|]; split; [exact E1|]; rewrite E2; apply G; reflexivity|]. split; reflexivity.
Qed.
