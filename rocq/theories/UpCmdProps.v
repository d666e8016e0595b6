(** C77: 'cards upgrade' end to end. *)
From Verif Require Import Base BaseProofs StrModel StrSpec StrProofs RulesModel RulesSpec RulesProofs FsModel FsSpec FsProofs MetaModel MetaSpec MetaProofs
  DbModel DbSpec DbLoad DbOps DbRun DbInv EngineFs DbFacts DbProps RemoveProps AddRun AddProps RootProps GenDeps GenDepsProofs GenDepsProps HexModel HexProps IndexModel FetchModel FetchProps
  ManyRun ManyMeta RemoveCmdProofs DiffModel DiffProps InstallModel InstallRun InstallProps InstallClosed UpCmdModel.
Import DbInv.
From Coq Require Import ZArith Lia.

(** ** the removal of the obsolete packages *)
Section Drop.
  Variables (jk : bool) (root : str).
  Lemma drop_spec names : forall w m, db_ok (w_db w) -> NoDup names -> (forall n, In n names -> mget n (w_db w) <> None) ->
    exists w' m', drop_all jk root names w m = Ret tt w' m' /\ (forall n, In n names -> mget n (w_db w') = None) /\ (forall n, ~ In n names -> mget n (w_db w') = mget n (w_db w)).
  Proof.
    induction names as [|n t IH]; intros w m OK N P; cbn [drop_all].
    - exists w, m. split; [reflexivity|]. split; [intros n []|auto].
    - inversion N as [|? ? N1 N2]; subst. set (w0 := World (cleanup_meta (w_fs w) root) (w_db w)).
      destruct (remove_refs jk n (w0, m)) as [[w1 m1]|] eqn:R.
      2:{ exfalso. unfold remove_refs in R. cbn [w0 w_db] in R. destruct (mget n (w_db w)) eqn:G; [discriminate R|]. exact (P n (or_introl eq_refl) G). }
      assert (D : w_db w1 = mdel n (w_db w)) by (apply (remove_refs_disk jk n w0 m w1 m1) in R; [tauto|exact OK]).
      cbn [remove_files]. match goal with |- context [drop_all jk root t ?u ?v] => destruct (IH u v) as (w' & m' & E & A & B) end; cbn [w_db].
      + rewrite D. apply db_ok_mdel, OK.
      + exact N2.
      + intros k J. rewrite D, mget_mdel. destruct (seqb_spec k n) as [->|Nk]; [contradiction|]. apply P. right. exact J.
      + cbn [w_db] in A, B. rewrite D in B. exists w', m'. split; [exact E|]. split.
        * intros k [<-|J]; [|exact (A k J)]. rewrite (B n N1), mget_mdel, seqb_refl. reflexivity.
        * intros k J. rewrite B by (intro; apply J; right; assumption). rewrite mget_mdel. destruct (seqb_spec k n) as [->|Nk]; [|reflexivity]. exfalso. apply J. left. reflexivity.
  Qed.
  Lemma drop_same names w m w' m' n : db_ok (w_db w) -> NoDup names -> (forall k, In k names -> mget k (w_db w) <> None) -> drop_all jk root names w m = Ret tt w' m' ->
    (In n names -> mget n (w_db w') = None) /\ (~ In n names -> mget n (w_db w') = mget n (w_db w)).
  Proof.
    intros OK N P E. destruct (drop_spec names w m OK N P) as (w1 & m1 & E1 & A & B). rewrite E in E1. injection E1 as <- _. split; [apply A|apply B].
  Qed.
End Drop.
Lemma up_del_sorted j repo m l : forall acc, ssorted (snd acc) -> ssorted (snd (fold_left (up_turn j repo m) l acc)).
Proof.
  induction l as [|p l IH]; intros acc H; [exact H|]. cbn [fold_left]. apply IH. unfold up_turn. destruct (mget (fst p) repo) as [i|]; [cbv zeta; destruct (build_same _ _ _ _); exact H|].
  destruct (r_auto (snd p)); [apply sins_sorted, H|exact H].
Qed.

Lemma load_inst junk (d : disk) m n : load junk d = Ok m -> ((exists r, mget n (m_pkgs m) = Some r) <-> installed d n).
Proof.
  intro E. rewrite <- (load_installed junk d m n E). split.
  - intros [r G]. apply (in_map fst) in G || apply mget_In, (in_map fst) in G. exact G.
  - intro J. destruct (mget n (m_pkgs m)) as [r|] eqn:G; [exists r; reflexivity|]. exfalso. apply (proj1 (mget_None _ _) G J).
Qed.

Section Upgrade.
  Variables (junk : bool) (machine : str) (re : str -> str -> option bool) (sh : str -> fs -> fs * bool) (root : str).
  Variable url : str.
  Variable repo : list (str * ent).
  Variable sha : str -> str.
  Variable key : Type.
  Variable pem : str -> option key.
  Variable verify : key -> str -> str -> bool.
  Variable unpack : str -> option archive.
  Variables (j : DiffModel.junk) (jb : Z).
  Variable arch : str -> apkg.
  Variables (fuel : nat) (scripts : bool) (conf : option str) (groups : list str) (s : fstate) (w : world).
  Notation cards_upgrade := (cards_upgrade junk machine re sh root url repo sha key pem verify unpack j jb fuel false scripts conf groups s w).
  Notation certified := (certified repo sha key pem verify unpack s).
  Notation trusted := (trusted url repo sha key pem verify unpack arch s).
  Notation entry_ok := (entry_ok repo sha key pem verify unpack arch s).
  Notation session := (session junk machine re sh root).
  Notation run_all := (run_all junk machine re sh root).

  (** ** specification *)
  (** the build of [n] according to the index *)
  Definition offered (n : str) (b : Z) : Prop := exists e, mget n repo = Some e /\ b = repo_build j n (e_rec e).
  (** installed, in the build of the index or a later one *)
  Definition fresh (m : mem) (n : str) : Prop := exists r b, mget n (m_pkgs m) = Some r /\ offered n b /\ b <> 0%Z /\ (b <= DiffModel.known (j_ibuild j n) (r_build r))%Z.
  (** to be upgraded, [m] being the database as read: offered in a build that is not there, and installed or the package <name>.<group>
      of an installed package that belongs to no group itself *)
  Definition due (m : mem) (n : str) : Prop :=
    mget n repo <> None /\ ~ fresh m n /\
    (mget n (m_pkgs m) <> None \/ exists k r g, mget k (m_pkgs m) = Some r /\ r_group r = [] /\ In g groups /\ n = k ++ L "." ++ g).
  (** to be installed: reached from what is to be upgraded through dependencies that are not there *)
  Definition wanted (m : mem) (n : str) : Prop := exists r, due m r /\ wants (m_pkgs m) jb arch r n.
  (** to be removed *)
  Definition obsolete (n : str) : Prop := installed (w_db w) n /\ automatic (w_db w) n /\ mget n repo = None.

  (** ** proofs *)
  Lemma index_get n : mget n (index repo) = option_map e_rec (mget n repo).
  Proof. unfold index. clear. induction repo as [|[k e] r IH]; [reflexivity|]. cbn. destruct (seqb n k); [reflexivity|exact IH]. Qed.
  Lemma fresh_same m n e : mget n repo = Some e -> (build_same j m n (repo_build j n (e_rec e)) = true <-> fresh m n).
  Proof.
    intro G. unfold build_same, fresh, offered. destruct (Z.eqb_spec (repo_build j n (e_rec e)) 0) as [Z0|Z0].
    - split; [discriminate|]. intros (r & b & _ & (e' & G' & ->) & Nz & _). rewrite G in G'. injection G' as <-. contradiction.
    - destruct (mget n (m_pkgs m)) as [r|]; [|split; [discriminate|intros (r & b & X & _); discriminate X]]. rewrite negb_true_iff, Z.ltb_ge. split.
      + intro H. exists r, (repo_build j n (e_rec e)). split; [reflexivity|]. split; [exists e; auto|]. auto.
      + intros (r' & b & X & (e' & G' & ->) & _ & H). injection X as <-. rewrite G in G'. injection G' as <-. exact H.
  Qed.
  Lemma update_due m n : load junk (w_db w) = Ok m -> (In n (map fst (fst (up_lists j (index repo) m groups))) <-> due m n).
  Proof.
    intro El. pose proof (ssorted_NoDup _ (load_keys junk _ m El)) as N. unfold due. split.
    - intro J. apply in_map_iff in J as [[n' b] [E J]]. cbn [fst] in E. subst n'. unfold up_lists in J. apply up_loop in J as [J|(r & i & A & B & C & D)].
      + apply group_In in J as (k & r & g & i & A & B & C & D & F & H & I). cbn [fst snd] in *. rewrite index_get in F. destruct (mget n repo) as [e|] eqn:G; [|discriminate F]. cbn in F. injection F as <-.
        split; [discriminate|]. split; [intro Fr; apply (fresh_same m n e G) in Fr; congruence|]. right. exists k, r, g. split; [exact (In_mget k r _ N A)|]. auto.
      + cbn [fst snd] in *. rewrite index_get in B. destruct (mget n repo) as [e|] eqn:G; [|discriminate B]. cbn in B. injection B as <-.
        split; [discriminate|]. split; [intro Fr; apply (fresh_same m n e G) in Fr; congruence|]. left. rewrite (In_mget n r _ N A). discriminate.
    - intros (G & Fr & K). destruct (mget n repo) as [e|] eqn:Ge; [|congruence]. assert (B : build_same j m n (repo_build j n (e_rec e)) = false).
      { apply not_true_iff_false. intro B. apply Fr, (fresh_same m n e Ge), B. }
      assert (Gi : mget n (index repo) = Some (e_rec e)) by (rewrite index_get, Ge; reflexivity).
      apply in_map_iff. exists (n, repo_build j n (e_rec e)). split; [reflexivity|]. unfold up_lists. apply up_loop. cbn [fst snd]. destruct K as [K|(k & r & g & A & B1 & C & D)].
      + right. destruct (mget n (m_pkgs m)) as [r|] eqn:Gr; [|congruence]. exists r, (e_rec e). split; [exact (mget_In _ _ _ Gr)|]. auto.
      + left. apply group_In. exists k, r, g, (e_rec e). cbn [fst snd]. split; [exact (mget_In _ _ _ A)|]. auto 10.
  Qed.
  Lemma delete_obsolete m n : load junk (w_db w) = Ok m -> (In n (snd (up_lists j (index repo) m groups)) <-> obsolete n).
  Proof.
    intro El. pose proof (ssorted_NoDup _ (load_keys junk _ m El)) as N. unfold up_lists. rewrite up_del. cbn [snd]. unfold obsolete. rewrite index_get. split.
    - intros [[]|(r & A & B & C)]. apply (In_mget n r _ N) in A. split; [apply (load_inst junk _ m n El); exists r; exact A|]. split; [apply (load_auto junk _ m n r El A), C|]. destruct (mget n repo); [discriminate B|reflexivity].
    - intros (A & B & C). right. destruct (proj2 (load_inst junk _ m n El) A) as [r G]. clear A. rename G into A. exists r. split; [exact (mget_In _ _ _ A)|]. rewrite C. split; [reflexivity|]. apply (load_auto junk _ m n r El A), B.
  Qed.
  Lemma delete_nodup m : NoDup (snd (up_lists j (index repo) m groups)).
  Proof. apply ssorted_NoDup, up_del_sorted. constructor. Qed.
  Lemma asked_due m r : load junk (w_db w) = Ok m -> (asked repo (m_pkgs m) jb arch (map fst (fst (up_lists j (index repo) m groups))) [] r <-> due m r).
  Proof. intro El. unfold asked. split; [intros [H|(q & k & g & _ & _ & [] & _)]; apply (update_due m r El), H|]. intro H. left. apply (update_due m r El), H. Qed.
  Lemma plain_names_of l : map fst (plain_entries l) = map fst l.
  Proof. unfold plain_entries. rewrite map_map. reflexivity. Qed.

  (** what happened *)
  Let w0 : world := World (cleanup_meta (w_fs w) root) (w_db w).
  Inductive up_outcome (o : option stop) (w' : world) : Prop :=
  | Stopped : o <> None -> w' = w0 -> up_outcome o w'
  | Nothing m : load junk (w_db w) = Ok m -> o = None -> w' = w0 -> (exists n, mget n (m_pkgs m) <> None /\ mget n repo <> None) -> (forall n, ~ due m n) -> (forall n, ~ obsolete n) -> up_outcome o w'
  | Did m l hl del : load junk (w_db w) = Ok m -> (exists n, mget n (m_pkgs m) <> None /\ mget n repo <> None) -> NoDup (map fst l) ->
      (forall u x v, l = u ++ x :: v -> forall k, missing (m_pkgs m) jb arch (fst x) k -> In k (map fst u)) ->
      (forall n, In n (map fst l) <-> wanted m n) -> Forall (fun d => snd d = 0%Z) l ->
      Forall2 entry_ok l hl -> distinct hl -> nameds junk machine root hl ->
      NoDup del -> (forall n, In n del <-> obsolete n) ->
      (match run_all true scripts conf hl w0 m with
       | Ret _ w1 m1 => match drop_all junk root del w1 m1 with Ret _ w2 _ => o = None /\ w' = w2 | Stop e w2 => o = Some e /\ w' = w2 end
       | Stop e w1 => o = Some e /\ w' = w1 end) -> up_outcome o w'.
  Lemma depot_spec m : depot_found (index repo) m = true -> NoDup (keys (m_pkgs m)) -> exists n, mget n (m_pkgs m) <> None /\ mget n repo <> None.
  Proof.
    unfold depot_found. intros H N. apply existsb_exists in H as [[n r] [H1 H2]]. cbn [fst] in H2. exists n. rewrite (In_mget n r _ N H1). split; [discriminate|]. rewrite index_get in H2. destruct (mget n repo); discriminate.
  Qed.
  Lemma upgrade_outcome o w' : trusted -> cards_upgrade = Some (o, w') -> up_outcome o w'.
  Proof.
    intros T E. unfold UpCmdModel.cards_upgrade in E. cbv zeta in E. destruct (load junk (w_db w)) as [m| |] eqn:El; [|injection E as <- <-; apply Stopped; [discriminate|reflexivity]..]. cbv iota in E.
    destruct (depot_found (index repo) m) eqn:Dp; cbn [negb] in E; [|injection E as <- <-; apply Stopped; [discriminate|reflexivity]].
    pose proof (depot_spec m Dp (ssorted_NoDup _ (load_keys junk _ m El))) as Dq.
    pose proof (fun n => update_due m n El) as Du. pose proof (fun n => delete_obsolete m n El) as De. pose proof (delete_nodup m) as Nd. pose proof (fun n => asked_due m n El) as As.
    set (ls := up_lists j (index repo) m groups) in *. clearbody ls.
    assert (C : (fst ls = [] /\ snd ls = [] /\ (o, w') = (None, w0)) \/
      match resolve url repo sha key pem verify unpack (m_pkgs m) jb fuel (map fst (fst ls)) [] s with
      | None => False | Some UB => (o, w') = (Some Undefined, w0) | Some Throw => (o, w') = (Some Exception, w0)
      | Some (Ok (l, g)) => let r := handed repo unpack (f_files (g_st g)) (plain_entries l) in
              let q := session (Many true scripts conf (fst r) (if snd r then snd ls else [])) w in
              (o, w') = (match fst q with Some e => Some e | None => if snd r then None else Some Exception end, snd q)
      end).
    { clear - E. cbv zeta. subst w0. destruct (fst ls) as [|u us]; [destruct (snd ls) as [|v vs]|].
      - left. injection E as <- <-. auto.
      - right. destruct (resolve _ _ _ _ _ _ _ _ _ _ _ _ _) as [[[l g]| |]|]; [| | |discriminate E]; injection E as <- <-; reflexivity.
      - right. destruct (resolve _ _ _ _ _ _ _ _ _ _ _ _ _) as [[[l g]| |]|]; [| | |discriminate E]; injection E as <- <-; reflexivity. }
    clear E. destruct C as [(C1 & C2 & C3)|C].
    { injection C3 as -> ->. apply (Nothing None w0 m); auto; [intros n H; apply Du in H; rewrite C1 in H; destruct H|intros n H; apply De in H; rewrite C2 in H; destruct H]. }
    destruct (resolve url repo sha key pem verify unpack (m_pkgs m) jb fuel (map fst (fst ls)) [] s) as [[[l g]| |]|] eqn:Er; [|injection C as -> ->; apply Stopped; [discriminate|reflexivity]..|destruct C].
    destruct (resolve_ok url repo sha key pem verify unpack (m_pkgs m) jb arch s (tr_sep _ _ _ _ _ _ _ _ _ T) (tr_url _ _ _ _ _ _ _ _ _ T) (tr_auth _ _ _ _ _ _ _ _ _ T) (tr_name _ _ _ _ _ _ _ _ _ T) (tr_index _ _ _ _ _ _ _ _ _ T) fuel _ [] l g Er) as (N & O & W & _ & A).
    rewrite <- plain_names_of in N, A.
    destruct (handed_ok repo sha key pem verify unpack arch s (f_files (g_st g)) (plain_entries l) A) as [hl [Eh F]].
    pose proof (F2_distinct _ _ _ _ _ _ _ _ _ _ (tr_name _ _ _ _ _ _ _ _ _ T) F N) as D.
    assert (Nm : nameds junk machine root hl).
    { apply Forall_forall. intros p J. destruct (F2_back _ _ _ _ _ _ _ _ _ _ p F J) as [d [J1 J2]]. apply no_dot_named. intros v Av. apply (entry_name _ _ _ _ _ _ _ _ d p _ (tr_name _ _ _ _ _ _ _ _ _ T) J2) in Av.
      apply (entry_dot _ _ _ _ _ _ _ _ _ d p T J2 v). symmetry. exact Av. }
    apply (Did o w' m (plain_entries l) hl (snd ls)); auto.
    - intros u x v Eq k M. unfold plain_entries in Eq. apply map_eq_app in Eq as (u' & xv & -> & <- & Eq). destruct xv as [|x' v']; [discriminate Eq|]. cbn [map] in Eq. injection Eq as <- <-. cbn [fst] in M.
      change (map (fun d => (fst d, 0%Z)) u') with (plain_entries u'). rewrite plain_names_of. exact (O u' x' v' eq_refl k M).
    - intro n. rewrite plain_names_of, W. unfold wanted. split; intros [r [H1 H2]]; exists r; (split; [apply (As r), H1|exact H2]).
    - apply Forall_forall. intros d J. unfold plain_entries in J. apply in_map_iff in J as [d' [<- _]]. reflexivity.
    - cbv zeta in C. rewrite Eh in C. cbn [fst snd] in C. unfold DbModel.session in C. cbv zeta in C. cbn [w_db] in C. rewrite El in C. fold w0 in C.
      destruct (run_all true scripts conf hl w0 m) as [[] w1 m1|e w1]; [destruct (drop_all junk root (snd ls) w1 m1) as [[] w2 m2|e w2]|]; cbn in C; injection C as -> ->; auto.
  Qed.
  (** everything that follows from a successful run with work to do *)
  Lemma wanted_in_repo m l hl n : (forall n, In n (map fst l) <-> wanted m n) -> Forall2 entry_ok l hl -> wanted m n -> mget n repo <> None.
  Proof.
    intros W F H. apply W, in_map_iff in H as [d [<- J]]. destruct (F2_In _ _ _ _ _ _ _ _ _ _ d F J) as [p [_ [_ [_ (e & c & pk & k & sg & G & _)]]]]. rewrite G. discriminate.
  Qed.
  Lemma finish_split o w' m l hl del : trusted -> inv (w_db w) -> load junk (w_db w) = Ok m -> (forall n, In n (map fst l) <-> wanted m n) -> Forall2 entry_ok l hl -> distinct hl -> nameds junk machine root hl ->
    NoDup del -> (forall n, In n del <-> obsolete n) -> o = None ->
    (match run_all true scripts conf hl w0 m with
       | Ret _ w1 m1 => match drop_all junk root del w1 m1 with Ret _ w2 _ => o = None /\ w' = w2 | Stop e w2 => o = Some e /\ w' = w2 end
       | Stop e w1 => o = Some e /\ w' = w1 end) ->
    exists w1 m1, run_all true scripts conf hl w0 m = Ret tt w1 m1 /\ inv (w_db w1) /\ inv (w_db w') /\
      (forall n, obsolete n -> mget n (w_db w') = None) /\ (forall n, ~ obsolete n -> mget n (w_db w') = mget n (w_db w1)) /\
      (forall n, ~ wanted m n -> same_but_files (w_db w) (w_db w1) n) /\ (forall n, wanted m n -> ~ obsolete n).
  Proof.
    intros T I El W F D Nm Nd De -> R. pose proof (load_agree junk _ m (proj1 I) El) as AG.
    destruct (run_all true scripts conf hl w0 m) as [[] w1 m1|e w1] eqn:Er; [|destruct R as [R _]; discriminate R].
    destruct (run_next junk machine re sh root true scripts conf hl w0 m w1 m1 Nm I AG Er) as [I1 _].
    assert (Fr : forall n, ~ wanted m n -> same_but_files (w_db w) (w_db w1) n).
    { intros n H. apply (run_frame junk machine re sh root true scripts conf hl Nm w0 m w1 m1 I AG Er n). intros sd a Ja An. destruct (F2_back _ _ _ _ _ _ _ _ _ _ _ F Ja) as [d [J1 J2]].
      apply (entry_name _ _ _ _ _ _ _ _ d (sd, a) n (tr_name _ _ _ _ _ _ _ _ _ T) J2) in An. subst n. apply H, W, in_map, J1. }
    assert (WO : forall n, wanted m n -> ~ obsolete n).
    { intros n Hw (_ & _ & Hn). exact (wanted_in_repo m l hl n W F Hw Hn). }
    assert (P : forall n, In n del -> mget n (w_db w1) <> None).
    { intros n J. apply De in J. pose proof J as ([_ G] & _ & _). rewrite (proj1 (Fr n (fun H => WO n H J))). exact G. }
    destruct (drop_spec junk root del w1 m1 (proj1 I1) Nd P) as (w2 & m2 & E2 & A & B). pose proof (drop_all_inv junk machine re sh root del w1 m1 I1) as I2. rewrite E2 in R, I2. destruct R as [_ ->]. cbn in I2.
    exists w1, m1. split; [reflexivity|]. split; [exact I1|]. split; [exact I2|]. split; [intros n H; apply A, De, H|]. split; [intros n H; apply B; intro H2; apply H, De, H2|]. auto.
  Qed.
  Lemma listed_there m l hl w1 m1 d : trusted -> inv (w_db w) -> load junk (w_db w) = Ok m -> Forall2 entry_ok l hl -> distinct hl -> nameds junk machine root hl ->
    run_all true scripts conf hl w0 m = Ret tt w1 m1 -> In d l ->
    installed (w_db w1) (fst d) /\ exists a rules, certified (fst d) a /\ archive_name a (fst d) /\ read_rules_file conf = inl rules /\
      forall x, lists (w_db w1) (fst d) x -> ships a x /\ verdict re INSTALL rules x true.
  Proof.
    intros T I El F D N R J. destruct (F2_In _ _ _ _ _ _ _ _ _ _ d F J) as [[sd a] [J1 J2]].
    destruct (run_listed junk machine re sh root true scripts conf hl w0 m w1 m1 sd a N D I (load_agree junk _ m (proj1 I) El) R J1) as (name & rules & An & Gn & Ru & Li & _).
    assert (En : name = fst d) by (apply (entry_name _ _ _ _ _ _ _ _ d (sd, a) name (tr_name _ _ _ _ _ _ _ _ _ T) J2), An). subst name. split.
    - split; [exact (entry_dot _ _ _ _ _ _ _ _ _ d _ T J2)|exact Gn].
    - exists a, rules. split; [exact (proj2 (proj2 J2))|]. auto.
  Qed.
  Lemma lists_same (d d' : disk) n x : mget n d' = mget n d -> lists d' n x -> lists d n x.
  Proof. intros E H. apply (lists_ext d' d n x E), H. Qed.

  (** If the command succeeds, every installed package that the index offers in another build, the group packages that go with
      them and everything they need is installed from archives that the index signatures certify, with files of those
      archives that the rules accept; the dependencies of what was not up to date are installed, unless they have just been removed as obsolete. *)
  Theorem C77_upgraded w' : trusted -> inv (w_db w) -> cards_upgrade = Some (None, w') ->
    exists m, load junk (w_db w) = Ok m /\
      (forall n, wanted m n -> installed (w_db w') n /\
        exists a rules, certified n a /\ archive_name a n /\ read_rules_file conf = inl rules /\ forall x, lists (w_db w') n x -> ships a x /\ verdict re INSTALL rules x true) /\
      (forall n k t, wanted m n -> ~ GenDepsProofs.current (m_pkgs m) jb arch n -> In (k, t) (a_deps (arch n)) -> installed (w_db w') k \/ obsolete k).
  Proof.
    intros T I E. destruct (upgrade_outcome None w' T E) as [H _|m El _ -> Dq Nu No|m l hl del El Dq N O W Z F D Nm Nd De R]; [congruence| |].
    - exists m. split; [exact El|]. assert (X : forall n, ~ wanted m n) by (intros n [r [H _]]; exact (Nu r H)). split; [intros n H; destruct (X n H)|intros n k t H; destruct (X n H)].
    - destruct (finish_split None w' m l hl del T I El W F D Nm Nd De eq_refl R) as (w1 & m1 & Er & I1 & I2 & Dl & Kp & Fr & WO). exists m. split; [exact El|].
      assert (Wi : forall n, wanted m n -> installed (w_db w') n /\ exists a rules, certified n a /\ archive_name a n /\ read_rules_file conf = inl rules /\ forall x, lists (w_db w') n x -> ships a x /\ verdict re INSTALL rules x true).
      { intros n Hw. pose proof (WO n Hw) as Hn. apply W in Hw. apply in_map_iff in Hw as [d [<- J]]. destruct (listed_there m l hl w1 m1 d T I El F D Nm Er J) as [[I3 I4] (a & rules & Ca & An & Ru & Li)].
        split; [split; [exact I3|rewrite (Kp _ Hn); exact I4]|]. exists a, rules. split; [exact Ca|]. split; [exact An|]. split; [exact Ru|]. intros x H. apply Li, (lists_same _ (w_db w') _ _ (Kp _ Hn) H). }
      split; [exact Wi|]. intros n k t Wn Nc J. destruct (str_eq_dec k n) as [->|Nk]; [left; apply Wi, Wn|]. destruct (same (m_pkgs m) jb (k, t)) eqn:Sm.
      + apply same_spec in Sm as [_ [r [G _]]]. assert (Ik : installed (w_db w) k) by (apply (load_inst junk _ m k El); exists r; exact G).
        destruct (in_dec str_eq_dec k del) as [Jd|Jd]; [right; apply De, Jd|]. left. assert (Hn : ~ obsolete k) by (intro H; apply Jd, De, H).
        destruct (in_dec str_eq_dec k (map fst l)) as [Jl|Jl]; [apply Wi, W, Jl|]. split; [apply Ik|]. rewrite (Kp k Hn), (proj1 (Fr k (fun H => Jl (proj2 (W k) H)))). apply Ik.
      + left. apply Wi. destruct Wn as [r [A Wr]]. exists r. split; [exact A|]. apply wants_dep with n; [exact Wr|]. exists t. split; [exact J|]. split; [exact Nk|]. split; [|exact Nc]. intro B. apply same_spec in B. congruence.
  Qed.
  (** Of what was installed exactly the obsolete packages are gone; nothing else is new; packages that are neither upgraded nor
      obsolete keep their records (their file lists may shrink: files that the new archives ship change hands). *)
  Theorem C77_kept w' : trusted -> inv (w_db w) -> cards_upgrade = Some (None, w') ->
    inv (w_db w') /\ (forall n, obsolete n -> mget n (w_db w') = None) /\
    (forall n, installed (w_db w) n -> ~ obsolete n -> installed (w_db w') n) /\
    exists m, load junk (w_db w) = Ok m /\ (forall n, installed (w_db w') n -> installed (w_db w) n \/ wanted m n) /\
      forall n, ~ wanted m n -> ~ obsolete n -> same_but_files (w_db w) (w_db w') n.
  Proof.
    intros T I E. destruct (upgrade_outcome None w' T E) as [H _|m El _ -> Dq Nu No|m l hl del El Dq N O W Z F D Nm Nd De R]; [congruence| |].
    - split; [exact I|]. split; [intros n H; destruct (No n H)|]. split; [auto|]. exists m. split; [exact El|]. split; [auto|]. intros n _ _. apply same_refl.
    - destruct (finish_split None w' m l hl del T I El W F D Nm Nd De eq_refl R) as (w1 & m1 & Er & I1 & I2 & Dl & Kp & Fr & WO).
      split; [exact I2|]. split; [exact Dl|].
      assert (Wd : forall n, wanted m n \/ ~ wanted m n) by (intro n; destruct (in_dec str_eq_dec n (map fst l)) as [J|J]; [left; apply W, J|right; intro H; apply J, W, H]).
      assert (Od : forall n, obsolete n \/ ~ obsolete n) by (intro n; destruct (in_dec str_eq_dec n del) as [J|J]; [left; apply De, J|right; intro H; apply J, De, H]). split.
      + intros n [H1 H2] Hn. split; [exact H1|]. rewrite (Kp n Hn). destruct (Wd n) as [Hw|Hw].
        * apply W in Hw. apply in_map_iff in Hw as [d [<- J]]. apply (listed_there m l hl w1 m1 d T I El F D Nm Er J).
        * rewrite (proj1 (Fr n Hw)). exact H2.
      + exists m. split; [exact El|]. split.
        * intros n [H1 H2]. destruct (Wd n) as [Hw|Hw]; [right; exact Hw|]. left. split; [exact H1|]. rewrite <- (proj1 (Fr n Hw)). destruct (Od n) as [Ho|Ho]; [rewrite (Dl n Ho) in H2; congruence|]. rewrite <- (Kp n Ho). exact H2.
        * intros n Hw Ho. apply (same_trans _ (w_db w1)); [exact (Fr n Hw)|apply (same_ext machine re sh), Kp, Ho].
  Qed.
  Lemma up_wanted_dec w' m : trusted -> cards_upgrade = Some (None, w') -> load junk (w_db w) = Ok m -> forall n, wanted m n \/ ~ wanted m n.
  Proof.
    intros T E El0 n. destruct (upgrade_outcome None w' T E) as [H _|m2 El _ -> Dq Nu No|m2 l hl del El Dq N O W Z F D Nm Nd De R]; [congruence| |]; rewrite El in El0; injection El0 as <-.
    - right. intros [r [H _]]. exact (Nu r H).
    - destruct (in_dec str_eq_dec n (map fst l)) as [J|J]; [left; apply W, J|right; intro H; apply J, W, H].
  Qed.
  (** META of every package installed by the command: the text of its archive; the automatic mark is kept, and never given. *)
  Theorem C77_meta w' : trusted -> tidy_world w -> junk = false -> scripts = false -> ends_slash root = true -> comps root = [] ->
    (forall n a, certified n a -> exists nd, tidy_archive a nd) ->
    cards_upgrade = Some (None, w') ->
    exists m, load junk (w_db w) = Ok m /\ forall n, wanted m n ->
      exists a nd ls (b : bool), certified n a /\ tidy_archive a nd /\ parse_lines (n_data nd) = Some ls /\
        dbfile (w_db w') n (L "META") = Some (if b then text_of (sins (L "d1") (set_of ls)) else n_data nd) /\ (b = true <-> automatic (w_db w) n).
  Proof.
    intros T Tw Hj Hs Rs R0 Ta E. pose proof (w_inv _ Tw) as I. destruct (upgrade_outcome None w' T E) as [H _|m El _ -> Dq Nu No|m l hl del El Dq N O W Z F D Nm Nd De R]; [congruence| |].
    { exists m. split; [exact El|]. intros n [r [H _]]. destruct (Nu r H). }
    destruct (finish_split None w' m l hl del T I El W F D Nm Nd De eq_refl R) as (w1 & m1 & Er & I1 & I2 & Dl & Kp & Fr & WO). clear R.
    exists m. split; [exact El|]. intros n Wn. pose proof (WO n Wn) as Hn. apply W in Wn. apply in_map_iff in Wn as [d [En J]]. destruct (F2_In _ _ _ _ _ _ _ _ _ _ d F J) as [[sd a] [J1 J2]].
    rewrite Hs in Er. destruct (Ta (fst d) a (proj2 (proj2 J2))) as [nd Tn].
    assert (Ti : tidies hl). { intros sd' a' Ja. destruct (F2_back _ _ _ _ _ _ _ _ _ _ _ F Ja) as [d' [_ J4]]. exact (Ta _ _ (proj2 (proj2 J4))). }
    assert (Tw0 : tidy_world w0).
    { destruct Tw as [T1 T2 T3 T4]. destruct (cleanup_spec (w_fs w) root T1) as [K1 K2]. constructor; [exact K1| |exact T3|exact T4]. intros c q Jc B. cbn [w0 w_fs]. rewrite K2; [exact (T2 c q Jc B)|].
      destruct B as [x [Nx ->]]. cbn [app]. assert (L2 : forall y, In y meta_comps -> exists z, y = [z]) by (intros y Jy; cbn [meta_comps In] in Jy; repeat (destruct Jy as [<-|Jy]; [eexists; reflexivity|]); destruct Jy).
      intro Jq. destruct (L2 _ Jq) as [z Hz]. injection Hz as _ Hz. exact (Nx Hz). }
    apply in_split in J1 as (u & v & Eh). rewrite Eh in Er, D, Ti.
    destruct (run_meta junk machine re sh root Rs R0 true conf u sd a v nd w0 m w1 m1 Ti D Tn Tw0 El Er) as (name & ls & b & An & Pl & Db & Bs).
    apply (entry_name _ _ _ _ _ _ _ _ d (sd, a) name (tr_name _ _ _ _ _ _ _ _ _ T) J2) in An. rewrite En in An. subst name. exists a, nd, ls, b. rewrite <- En at 1. split; [exact (proj2 (proj2 J2))|]. split; [exact Tn|]. split; [exact Pl|].
    split; [unfold dbfile in *; rewrite (Kp n Hn); exact Db|]. destruct J2 as [S1 _]. cbn [fst] in S1. rewrite Forall_forall in Z. rewrite (Z d J) in S1. cbn in S1. rewrite Bs. split; [intros [H|[[_ H]|H]]; [congruence|congruence|exact H]|auto].
  Qed.
End Upgrade.
