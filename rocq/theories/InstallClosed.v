(** C76: dependencies in the database after 'cards install'; the concrete case; what does not hold. *)
From Verif Require Import Base BaseProofs StrModel StrSpec StrProofs RulesModel RulesSpec RulesProofs FsModel FsSpec FsProofs FsExtract MetaModel MetaSpec MetaProofs
  DbModel DbSpec DbLoad DbOps DbRun DbInv EngineFs DbFacts DbProps RemoveProps AddRun AddProps RootProps GenDeps GenDepsProofs GenDepsProps HexModel HexProps IndexModel FetchModel FetchProps
  ManyRun ManyMeta RemoveCmd RemoveCmdProofs RemoveCmdExamples InstallModel InstallRun InstallProps.
From Coq Require Import ZArith Lia.
Import DbInv.

(** ** META as the archive reader sees it and as the database reader sees it *)
(** a META member as pkgmk writes it: lines, each ended by a newline, none empty, none too long, no NUL *)
Definition well_formed (nd : node) (ls : list str) : Prop := n_data nd = text_of ls /\ ls <> [] /\ good_lines ls /\ Forall (fun l => l <> []) ls.
Lemma text_join ls : ls <> [] -> text_of ls = join nl ls ++ [nl].
Proof.
  induction ls as [|l t IH]; [congruence|]. intros _. destruct t as [|l2 t]; [unfold text_of; cbn [map concat flat_map join]; rewrite ?app_nil_r; reflexivity|]. change (text_of (l :: l2 :: t)) with ((l ++ [nl]) ++ text_of (l2 :: t)). rewrite IH by discriminate.
  change (join nl (l :: l2 :: t)) with (l ++ nl :: join nl (l2 :: t)). rewrite <- !app_assoc. reflexivity.
Qed.
Lemma join_nozero ls : Forall (fun l => ~ In zero l) ls -> ~ In zero (join nl ls).
Proof.
  induction ls as [|l t IH]; [intros _ []|]. intro F. inversion F as [|? ? F1 F2]; subst. destruct t as [|l2 t]; [exact F1|]. change (join nl (l :: l2 :: t)) with (l ++ nl :: join nl (l2 :: t)).
  rewrite in_app_iff. intros [J|[J|J]]; [exact (F1 J)|discriminate J|exact (IH F2 J)].
Qed.
Lemma well_formed_read nd ls a : well_formed nd ls -> meta_once a nd -> member_lines a (L ".META") = Ok ls /\ parse_lines (n_data nd) = Some ls.
Proof.
  intros (Ed & Ne & G & F) (M1 & _ & M3). split.
  - assert (Em : member a (L ".META") = Some nd).
    { assert (X : exists m, member a (L ".META") = Some m /\ In (L ".META", m) a).
      { clear -M1. induction a as [|[x y] t IH]; [destruct M1|]. cbn [member]. destruct (seqb x (L ".META")) eqn:B; [apply seqb_eq in B; subst x; exists y; split; [reflexivity|left; reflexivity]|].
        destruct M1 as [M|M]; [injection M as -> _; rewrite seqb_refl in B; discriminate B|]. destruct (IH M) as [m [E1 E2]]. exists m. split; [exact E1|right; exact E2]. }
      destruct X as [m [E1 E2]]. rewrite E1. f_equal. apply (M3 (L ".META") m E2). reflexivity. }
    unfold member_lines. rewrite Em, Ed, (text_join ls Ne). destruct (join nl ls ++ [nl]) as [|x t] eqn:Ej; [destruct (join nl ls); discriminate Ej|]. rewrite <- Ej. rewrite removelast_last.
    rewrite cstr_nozero; [|apply join_nozero; unfold good_lines in G; rewrite Forall_forall in *; intros l J; apply G, J]. f_equal. apply split_join. unfold good_lines in G. rewrite Forall_forall in *. intros l J. split; [apply F, J|apply G, J].
  - rewrite Ed. apply parse_text. exact G.
Qed.
Lemma arch_deps_In ls : forall acc deps d, arch_deps ls acc = Ok deps -> (In d deps <-> In d acc \/ exists s, In s ls /\ has_tag "R" s = true /\ dep_of_line s = Ok d).
Proof.
  induction ls as [|s t IH]; intros acc deps d E; cbn [arch_deps] in E.
  - injection E as <-. split; [auto|]. intros [J|[s [[] _]]]. exact J.
  - destruct (has_tag "R" s) eqn:T.
    + destruct (dep_of_line s) as [d1| |] eqn:Ds; try discriminate E. cbn [rbind] in E. rewrite (IH _ _ d E), dins_In. split.
      * intros [[->|J]|[x [J1 J2]]]; [right; exists s; split; [left; reflexivity|auto]|left; exact J|right; exists x; split; [right; exact J1|exact J2]].
      * intros [J|[x [[<-|J1] [J2 J3]]]]; [auto|left; left; congruence|right; exists x; auto].
    + rewrite (IH _ _ d E). split.
      * intros [J|[x [J1 J2]]]; [auto|right; exists x; split; [right; exact J1|exact J2]].
      * intros [J|[x [[<-|J1] J2]]]; [auto|destruct J2; congruence|right; exists x; auto].
Qed.
Lemma arch_deps_ok ls : forall acc deps s, arch_deps ls acc = Ok deps -> In s ls -> has_tag "R" s = true -> exists d, dep_of_line s = Ok d.
Proof.
  induction ls as [|x t IH]; intros acc deps s E J T; [destruct J|]. cbn [arch_deps] in E. destruct J as [->|J].
  - rewrite T in E. destruct (dep_of_line s) as [d| |]; [exists d; reflexivity|discriminate E..].
  - destruct (has_tag "R" x); [destruct (dep_of_line x) as [d| |]; try discriminate E; cbn [rbind] in E|]; exact (IH _ _ s E J T).
Qed.
(** what the database says a package needs is what the archive says *)
Lemma needs_archive a p nd ls d n k (b : bool) : read_arch a = Ok p -> meta_once a nd -> well_formed nd ls ->
  dbfile d n (L "META") = Some (if b then text_of (sins (L "d1") (set_of ls)) else n_data nd) -> needs d n k -> exists t, In (k, t) (a_deps p).
Proof.
  intros R M Wf Db [s [[dir [c [ls' [G1 [G2 [G3 J]]]]]] Dl]]. destruct (well_formed_read nd ls a Wf M) as [Ml Pl].
  assert (X : dbfile d n (L "META") = Some c) by (unfold dbfile; rewrite G1; exact G2). rewrite Db in X.
  assert (Ec : c = (if b then text_of (sins (L "d1") (set_of ls)) else n_data nd)) by (clear -X; congruence). subst c. clear X.
  apply dep_line_spec in Dl as [T Dn].
  assert (Js : In s ls).
  { destruct b; [|congruence]. assert (Y : parse_lines (text_of (sins (L "d1") (set_of ls))) = Some (sins (L "d1") (set_of ls))).
    { apply parse_text. destruct Wf as (_ & _ & G & _). unfold good_lines in G. rewrite Forall_forall in *. intros x I. apply sins_In in I as [->|I]; [|apply G; rewrite set_of_In in I; exact I].
      pose proof BUFSIZ_big. split; [cbn; intuition discriminate|]. split; [cbn; intuition discriminate|]. cbn [List.length L list_ascii_of_string]. lia. }
    cbv iota in G3. rewrite Y in G3. assert (El : ls' = sins (L "d1") (set_of ls)) by (clear -G3; congruence). rewrite El in J. apply sins_In in J as [->|J]; [discriminate T|]. exact (proj1 (set_of_In _ _) J). }
  unfold read_arch in R. destruct (member_lines a (L ".MTREE")) as [mtree| |]; try discriminate R. cbn [rbind] in R. rewrite Ml in R. cbn [rbind] in R.
  destruct ls as [|x ls]; [destruct Js|]. destruct mtree as [|y mtree]; [discriminate R|]. destruct (first_tag "N" (x :: ls)) as [name|]; [|discriminate R].
  destruct (match first_tag "r" (x :: ls) with Some v => stoi_int v | None => Ok 0%Z end) as [rel| |]; try discriminate R. cbn [rbind] in R.
  destruct (arch_deps (x :: ls) _) as [deps| |] eqn:Ad; try discriminate R. cbn [rbind] in R. injection R as <-. cbn [a_deps].
  destruct (arch_deps_ok _ _ _ s Ad Js T) as [[k' t] Hd]. exists t. apply (arch_deps_In _ _ _ (k, t) Ad). right. exists s. split; [exact Js|]. split; [exact T|].
  rewrite Hd. f_equal. f_equal. rewrite <- Dn. unfold dep_of_line in Hd. destruct (length s <? 10); [discriminate Hd|]. injection Hd as Hd _. symmetry. exact Hd.
Qed.

Section Closed.
  Variables (junk : bool) (machine : str) (re : str -> str -> option bool) (sh : str -> fs -> fs * bool) (root : str).
  Variable url : str.
  Variable repo : list (str * ent).
  Variable sha : str -> str.
  Variable key : Type.
  Variable pem : str -> option key.
  Variable verify : key -> str -> str -> bool.
  Variable unpack : str -> option archive.
  Variable jb : Z.
  Variable arch : str -> apkg.
  Variables (fuel : nat) (force scripts : bool) (conf : option str) (requests : list request) (groups : list str) (s : fstate) (w : world).
  Notation cards_install := (cards_install junk machine re sh root url repo sha key pem verify unpack jb fuel (w_db w) force scripts conf requests groups s w).
  Notation certified := (certified repo sha key pem verify unpack s).
  Notation trusted := (trusted url repo sha key pem verify unpack arch s).
  Notation wanted := (wanted repo jb arch requests groups w).

  (** every dependency recorded in the database is installed *)
  Definition closed (d : disk) : Prop := forall n k, installed d n -> needs d n k -> installed d k.
  (** Closed before, closed after, if what is reinstalled although it is up to date brings no new dependency. *)
  Theorem C76_closed w' : trusted -> tidy_world w -> junk = false -> scripts = false -> ends_slash root = true -> comps root = [] ->
    (forall n a, certified n a -> exists nd ls, tidy_archive a nd /\ well_formed nd ls /\ read_arch a = Ok (arch n)) ->
    (forall m n k t, load junk (w_db w) = Ok m -> wanted m n -> current (m_pkgs m) jb arch n -> In (k, t) (a_deps (arch n)) -> installed (w_db w) k) ->
    cards_install = Some (None, w') -> closed (w_db w) -> closed (w_db w').
  Proof.
    intros T Tw Hj Hs Rs R0 Ta Cu E Cl n k In_ Nk. pose proof (w_inv _ Tw) as I.
    assert (Ta' : forall n a, certified n a -> exists nd, tidy_archive a nd) by (intros n' a Ca; destruct (Ta n' a Ca) as (nd & ls & H & _); exists nd; exact H).
    destruct (C76_installed junk machine re sh root url repo sha key pem verify unpack jb arch fuel (w_db w) force scripts conf requests groups s w w' T I E) as (m & El & Wi & Wd & _).
    destruct (C76_kept junk machine re sh root url repo sha key pem verify unpack jb arch fuel (w_db w) force scripts conf requests groups s w w' T I E) as (_ & Kp & m1 & El1 & Fr).
    destruct (C76_meta junk machine re sh root url repo sha key pem verify unpack jb arch fuel (w_db w) force scripts conf requests groups s w w' T Tw Hj Hs Rs R0 Ta' E) as (m2 & El2 & Me).
    rewrite El in El1, El2. injection El1 as <-. injection El2 as <-.
    destruct (wanted_dec junk machine re sh root url repo sha key pem verify unpack jb arch fuel (w_db w) force scripts conf requests groups s w w' m T E El n) as [Wn|Wn].
    - destruct (Me n Wn) as (a & nd & ls & b & Ca & Tn & Pl & Db & _). destruct (Ta n a Ca) as (nd' & ls' & Tn' & Wf & Ra).
      assert (Nd : nd' = nd).
      { destruct (t_meta _ _ Tn) as (M1 & _ & _). destruct (t_meta _ _ Tn') as (_ & _ & M3). symmetry. apply (M3 (L ".META") nd M1). reflexivity. }
      subst nd'. destruct (well_formed_read nd ls' a Wf (t_meta _ _ Tn)) as [_ Pl']. rewrite Pl in Pl'. injection Pl' as <-.
      destruct (needs_archive a (arch n) nd ls (w_db w') n k b Ra (t_meta _ _ Tn) Wf Db Nk) as [t Jt].
      destruct (uptodate (m_pkgs m) jb (arch n)) eqn:U.
      + apply Kp. apply (uptodate_spec (m_pkgs m) jb arch n) in U. exact (Cu m n k t El Wn U Jt).
      + destruct (Wd n k t Wn) as [Q|[Q _]]; [|exact Jt|exact Q|destruct (Q eq_refl)]. intro H. apply (uptodate_spec (m_pkgs m) jb arch n) in H. congruence.
    - destruct (Fr n Wn) as [(Z & Sf & _) _]. destruct In_ as [Dn Gn]. apply Kp. apply (Cl n k); [split; [exact Dn|rewrite <- Z; exact Gn]|].
      destruct Nk as [x [[dir [c [ls [G1 [G2 [G3 J]]]]]] Dl]]. exists x. split; [|exact Dl].
      assert (X : dbfile (w_db w) n (L "META") = Some c) by (rewrite <- Sf by discriminate; unfold dbfile; rewrite G1; exact G2).
      apply dbfile_get in X as [dir' [X1 X2]]. exists dir', c, ls. auto.
  Qed.
End Closed.
