(** C76: 'cards install' end to end. *)
From Verif Require Import Base BaseProofs StrModel StrSpec StrProofs RulesModel RulesSpec RulesProofs FsModel FsSpec FsProofs MetaModel MetaSpec MetaProofs
  DbModel DbSpec DbLoad DbOps DbRun DbInv EngineFs DbFacts DbProps RemoveProps AddRun AddProps RootProps GenDeps GenDepsProofs GenDepsProps HexModel HexProps IndexModel FetchModel FetchProps
  ManyRun ManyMeta RemoveCmdProofs InstallModel InstallRun.
Import DbInv.
From Coq Require Import ZArith Lia.

Lemma disk_eq_dec (a b : disk) : {a = b} + {a <> b}.
Proof. repeat decide equality. Defined.

Section Install.
  Variables (junk : bool) (machine : str) (re : str -> str -> option bool) (sh : str -> fs -> fs * bool) (root : str).
  Variable url : str.
  Variable repo : list (str * ent).
  Variable sha : str -> str.
  Variable key : Type.
  Variable pem : str -> option key.
  Variable verify : key -> str -> str -> bool.
  Variable unpack : str -> option archive.
  Variable jb : Z.
  Variable arch : str -> apkg.
  Variables (fuel : nat) (host : disk) (force scripts : bool) (conf : option str) (requests : list request) (groups : list str) (s : fstate) (w : world).
  Notation cards_install := (cards_install junk machine re sh root url repo sha key pem verify unpack jb fuel host force scripts conf requests groups s w).
  Notation certified := (certified repo sha key pem verify unpack s).

  (** ** specification *)
  (** what is asked of the repository: a download url, no two packages in one file and no package file over a public key, genuine
      public keys, archives that bear the name they are listed under, an index with the dependencies of the archives, and no name
      starting with a dot *)
  Record trusted : Prop := Trusted {
    tr_url : url <> [];
    tr_sep : separate repo;
    tr_auth : authentic repo sha key pem verify unpack arch (f_files s);
    tr_name : forall n, a_name (arch n) = n;
    tr_index : index_agrees repo arch;
    tr_dot : forall n, mget n repo <> None -> nodot n }.
  (** asked for on the command line: a name, or a member of a set or collection that the database does not know *)
  Definition requested (n : str) : Prop := In (Package n) requests \/ exists l, In (Members l) requests /\ In n l /\ ~ known (w_db w) n.
  (** asked for: a request, or the group package <name>.<group> of something that a request leads to, [m] being the database of
      "/" as read *)
  Definition asked_for (m : mem) (r : str) : Prop :=
    requested r \/ exists q k g, requested q /\ wants (m_pkgs m) jb arch q k /\ In g groups /\ r = k ++ L "." ++ g /\ mget r repo <> None.
  (** [n] is to be installed: reached through dependencies that are not there *)
  Definition wanted (m : mem) (n : str) : Prop := exists r, asked_for m r /\ wants (m_pkgs m) jb arch r n.

  (** ** proofs *)
  Lemma read_arch_name a p : read_arch a = Ok p -> archive_name a (a_name p).
  Proof.
    unfold read_arch. intro E. destruct (member_lines a (L ".MTREE")) as [mtree| |]; try discriminate E. cbn [rbind] in E.
    destruct (member_lines a (L ".META")) as [meta| |] eqn:Em; try discriminate E. cbn [rbind] in E. destruct meta as [|x meta]; [discriminate E|]. destruct mtree as [|y mtree]; [discriminate E|].
    destruct (first_tag "N" (x :: meta)) as [name|] eqn:F; [|discriminate E].
    destruct (match first_tag "r" (x :: meta) with Some v => stoi_int v | None => Ok 0%Z end) as [rel| |]; try discriminate E. cbn [rbind] in E.
    destruct (arch_deps (x :: meta) _) as [deps| |]; try discriminate E. cbn [rbind] in E. injection E as <-. cbn [a_name].
    apply member_lines_text in Em; [|discriminate]. apply first_tag_split in F as [b [c [F1 F2]]]. exists (x :: meta), b, c. auto.
  Qed.
  Lemma requested_names m r : load junk (w_db w) = Ok m -> (In r (flat_map (names_of m) requests) <-> requested r).
  Proof.
    intro El. rewrite in_flat_map. unfold requested. split.
    - intros [[n|l] [J K]]; cbn [names_of] in K.
      + destruct K as [<-|[]]. left. exact J.
      + apply filter_In in K as [K1 K2]. right. exists l. split; [exact J|]. split; [exact K1|]. intro Kn. apply (name_exists_known junk _ m r El) in Kn. rewrite Kn in K2. discriminate K2.
    - intros [J|[l [J [K1 K2]]]]; [exists (Package r); split; [exact J|left; reflexivity]|]. exists (Members l). split; [exact J|]. cbn [names_of]. apply filter_In. split; [exact K1|].
      apply negb_true_iff, not_true_iff_false. intro Z. apply K2, (name_exists_known junk _ m r El), Z.
  Qed.
  Lemma asked_same mh m r : load junk (w_db w) = Ok m -> (asked repo (m_pkgs mh) jb arch (flat_map (names_of m) requests) groups r <-> asked_for mh r).
  Proof.
    intro El. unfold asked, asked_for. split; (intros [A|(q & k & g & A1 & A2)]; [left; apply (requested_names m r El), A|]; right; exists q, k, g; split; [apply (requested_names m q El), A1|exact A2]).
  Qed.
  Lemma asked_wanted mh m n : load junk (w_db w) = Ok m ->
    ((exists r, asked repo (m_pkgs mh) jb arch (flat_map (names_of m) requests) groups r /\ wants (m_pkgs mh) jb arch r n) <-> wanted mh n).
  Proof. intro El. unfold wanted. split; intros [r [A W]]; exists r; (split; [apply (asked_same mh m r El), A|exact W]). Qed.
  (** the archives handed over, one for each entry of the list *)
  Definition entry_ok (d : dep) (p : bool * archive) : Prop := fst p = (0 <? snd d)%Z /\ read_arch (snd p) = Ok (arch (fst d)) /\ certified (fst d) (snd p).
  Lemma handed_ok files l : (forall n, In n (map fst l) -> exists a, archive_of repo unpack files n = Some a /\ read_arch a = Ok (arch n) /\ certified n a) ->
    exists hl, handed repo unpack files l = (hl, true) /\ Forall2 entry_ok l hl.
  Proof.
    induction l as [|d t IH]; intro H; [exists []; split; [reflexivity|constructor]|]. destruct (H (fst d) (or_introl eq_refl)) as [a [A1 A2]].
    destruct IH as [hl [E F]]; [intros n J; apply H; right; exact J|]. exists (((0 <? snd d)%Z, a) :: hl). cbn [handed]. rewrite A1, E. cbn [fst snd]. split; [reflexivity|].
    constructor; [|exact F]. split; [reflexivity|exact A2].
  Qed.
  Lemma F2_In l hl d : Forall2 entry_ok l hl -> In d l -> exists p, In p hl /\ entry_ok d p.
  Proof. induction 1 as [|x p l hl E F IH]; intro J; [destruct J|]. destruct J as [<-|J]; [exists p; split; [left; reflexivity|exact E]|]. destruct (IH J) as [q [Q1 Q2]]. exists q. split; [right; exact Q1|exact Q2]. Qed.
  Lemma F2_back l hl p : Forall2 entry_ok l hl -> In p hl -> exists d, In d l /\ entry_ok d p.
  Proof. induction 1 as [|x q l hl E F IH]; intro J; [destruct J|]. destruct J as [<-|J]; [exists x; split; [left; reflexivity|exact E]|]. destruct (IH J) as [d [Q1 Q2]]. exists d. split; [right; exact Q1|exact Q2]. Qed.
  Lemma entry_name d p n : (forall n, a_name (arch n) = n) -> entry_ok d p -> (archive_name (snd p) n <-> n = fst d).
  Proof.
    intros An [_ [R _]]. apply read_arch_name in R. rewrite An in R. split; [intro A; exact (archive_name_unique _ _ _ A R)|intros ->; exact R].
  Qed.
  Lemma F2_distinct l hl : (forall n, a_name (arch n) = n) -> Forall2 entry_ok l hl -> NoDup (map fst l) -> distinct hl.
  Proof.
    intros An F N u p v q x n -> A B. apply Forall2_app_inv_r in F as (l1 & l2 & F1 & F2 & ->). inversion F2 as [|d ? l3 ? Ed F3]; subst.
    apply Forall2_app_inv_r in F3 as (l4 & l5 & _ & F5 & ->). inversion F5 as [|d' ? l6 ? Ed' F6]; subst.
    apply (entry_name d p n An Ed) in A. apply (entry_name d' q n An Ed') in B. rewrite map_app in N. cbn [map] in N. apply NoDup_remove_2 in N. apply N. rewrite in_app_iff. right. rewrite map_app, in_app_iff. right. left. congruence.
  Qed.
  (** what happened *)
  Inductive outcome (o : option stop) (w' : world) : Prop :=
  | Early : o <> None -> w' = w -> outcome o w'
  | Ran mh m l hl : load junk host = Ok mh -> load junk (w_db w) = Ok m -> NoDup (map fst l) ->
      (forall u x v, l = u ++ x :: v -> forall k, missing (m_pkgs mh) jb arch (fst x) k -> In k (map fst u)) ->
      (forall n, In n (map fst l) <-> wanted mh n) ->
      (forall d, In d l -> exists r, asked_for mh r /\ comes (m_pkgs mh) jb arch r d) ->
      Forall2 entry_ok l hl -> distinct hl -> nameds junk machine root hl ->
      (match run_all junk machine re sh root force scripts conf hl (World (cleanup_meta (w_fs w) root) (w_db w)) m with
       | Ret _ w1 _ => o = None /\ w' = w1 | Stop e w1 => o = Some e /\ w' = w1 end) -> outcome o w'.
  Lemma install_outcome o w' : trusted -> cards_install = Some (o, w') -> outcome o w'.
  Proof.
    intros T E. unfold InstallModel.cards_install in E. destruct (load junk host) as [mh| |] eqn:Eh0; cbn [rbind] in E; [|injection E as <- <-; apply Early; [discriminate|reflexivity]..].
    destruct (load junk (w_db w)) as [m| |] eqn:El; cbn [rbind] in E; [|injection E as <- <-; apply Early; [discriminate|reflexivity]..].
    destruct (resolve url repo sha key pem verify unpack (m_pkgs mh) jb fuel (flat_map (names_of m) requests) groups s) as [[[l g]| |]|] eqn:Er; [|injection E as <- <-; apply Early; [discriminate|reflexivity]..|discriminate E].
    destruct (resolve_ok url repo sha key pem verify unpack (m_pkgs mh) jb arch s (tr_sep T) (tr_url T) (tr_auth T) (tr_name T) (tr_index T) fuel _ groups l g Er) as (N & O & W & C & A).
    destruct (handed_ok (f_files (g_st g)) l A) as [hl [Eh F]]. rewrite Eh in E. cbn [fst snd] in E. pose proof (F2_distinct l hl (tr_name T) F N) as D.
    assert (Nm : nameds junk machine root hl).
    { apply Forall_forall. intros p J. destruct (F2_back l hl p F J) as [d [J1 J2]]. apply no_dot_named. intros v Av. apply (entry_name d p _ (tr_name T) J2) in Av.
      assert (Rd : mget (fst d) repo <> None) by (destruct J2 as [_ [_ (e & c & pk & k & sg & G & _)]]; rewrite G; discriminate). apply (tr_dot T (fst d) Rd v). symmetry. exact Av. }
    apply (Ran o w' mh m l hl); auto.
    - intro n. rewrite W. apply asked_wanted, El.
    - intros d J. destruct (C d J) as [r [A1 A2]]. exists r. split; [apply (asked_same mh m r El), A1|exact A2].
    - unfold session in E. cbv zeta in E. cbn [w_db] in E. rewrite El in E. destruct (run_all junk machine re sh root force scripts conf hl (World (cleanup_meta (w_fs w) root) (w_db w)) m) as [[] w1 m1|e w1]; cbn in E; injection E as <- <-; auto.
  Qed.
  Let w0 : world := World (cleanup_meta (w_fs w) root) (w_db w).
  Lemma entry_dot d p : trusted -> entry_ok d p -> nodot (fst d).
  Proof. intros T [_ [_ (e & c & pk & k & sg & G & _)]]. apply (tr_dot T). rewrite G. discriminate. Qed.
  Lemma listed_installed m l hl w' m' d : trusted -> inv (w_db w) -> load junk (w_db w) = Ok m -> Forall2 entry_ok l hl -> distinct hl -> nameds junk machine root hl ->
    run_all junk machine re sh root force scripts conf hl w0 m = Ret tt w' m' -> In d l -> installed (w_db w') (fst d).
  Proof.
    intros T I El F D N R J. destruct (F2_In l hl d F J) as [[sd a] [J1 J2]]. split; [exact (entry_dot d _ T J2)|].
    destruct (run_listed junk machine re sh root force scripts conf hl w0 m w' m' sd a N D I (load_agree junk _ m (proj1 I) El) R J1) as (name & rules & An & Gn & _).
    apply (entry_name d (sd, a) name (tr_name T) J2) in An. subst name. exact Gn.
  Qed.
  Lemma kept m l hl w' m' n : trusted -> inv (w_db w) -> load junk (w_db w) = Ok m -> Forall2 entry_ok l hl -> distinct hl -> nameds junk machine root hl ->
    run_all junk machine re sh root force scripts conf hl w0 m = Ret tt w' m' -> installed (w_db w) n -> installed (w_db w') n.
  Proof.
    intros T I El F D N R [Dn Gn]. destruct (in_dec str_eq_dec n (map fst l)) as [J|J].
    - apply in_map_iff in J as [d [<- J]]. exact (listed_installed m l hl w' m' d T I El F D N R J).
    - split; [exact Dn|]. destruct (run_frame junk machine re sh root force scripts conf hl N w0 m w' m' I (load_agree junk _ m (proj1 I) El) R n) as [[Z _] _].
      + intros sd a Ja An. destruct (F2_back l hl _ F Ja) as [d [J1 J2]]. apply (entry_name d (sd, a) n (tr_name T) J2) in An. subst n. apply J, in_map, J1.
      + cbn [w0 w_db] in Z. rewrite Z. exact Gn.
  Qed.

  (** If the command succeeds, everything wanted is installed, with all dependencies of what was not up to date (those that "/" has
      excepted, if the database worked on is another: C87); every member of a requested set is installed or known under that name
      already. *)
  Theorem C76_installed w' : trusted -> inv (w_db w) -> cards_install = Some (None, w') ->
    exists m, load junk host = Ok m /\
      (forall n, wanted m n -> installed (w_db w') n) /\
      (forall n k t, wanted m n -> ~ current (m_pkgs m) jb arch n -> In (k, t) (a_deps (arch n)) ->
        installed (w_db w') k \/ host <> w_db w /\ installed host k) /\
      (forall n, In (Package n) requests -> installed (w_db w') n) /\
      (forall l n, In (Members l) requests -> In n l -> installed (w_db w') n \/ known (w_db w) n).
  Proof.
    intros T I E. destruct (install_outcome None w' T E) as [H _|mh m l hl Eh El N O W C F D Nm R]; [congruence|].
    destruct (run_all junk machine re sh root force scripts conf hl w0 m) as [[] w1 m1|e w1] eqn:Er; fold w0 in R; rewrite Er in R; destruct R as [R1 R2]; [subst w1|discriminate R1].
    exists mh. split; [exact Eh|].
    assert (Wi : forall n, wanted mh n -> installed (w_db w') n).
    { intros n J. apply W in J. apply in_map_iff in J as [d [<- J]]. exact (listed_installed m l hl w' m1 d T I El F D Nm Er J). }
    assert (Rq : forall n, requested n -> wanted mh n) by (intros n J; exists n; split; [left; exact J|constructor]).
    split; [exact Wi|]. split; [|split].
    - intros n k t Wn Nc J. destruct (str_eq_dec k n) as [->|Nk]; [left; apply Wi, Wn|]. destruct (same (m_pkgs mh) jb (k, t)) eqn:Sm.
      + apply same_spec in Sm as [_ [r [G _]]]. pose proof (load_spec _ _ _ Eh) as [_ [P _]]. apply P in G as [Nd [dir [G _]]]. assert (Ih : installed host k) by (split; [exact (proj1 (nondot_spec _) Nd)|rewrite G; discriminate]).
        destruct (disk_eq_dec host (w_db w)) as [Q|Q]; [|right; auto]. left. apply (kept m l hl w' m1 k T I El F D Nm Er). rewrite <- Q. exact Ih.
      + left. apply Wi. destruct Wn as [r [A Wr]]. exists r. split; [exact A|]. apply wants_dep with n; [exact Wr|]. exists t. split; [exact J|]. split; [exact Nk|]. split; [|exact Nc]. intro B. apply same_spec in B. congruence.
    - intros n J. apply Wi, Rq. left. exact J.
    - intros ms n J Jn. destruct (name_exists m n) eqn:Nx; [right; apply (name_exists_known junk _ m n El), Nx|]. left. apply Wi, Rq. right. exists ms. split; [exact J|]. split; [exact Jn|].
      intro Kn. apply (name_exists_known junk _ m n El) in Kn. congruence.
  Qed.
  Lemma wanted_dec w' m : trusted -> cards_install = Some (None, w') -> load junk host = Ok m -> forall n, wanted m n \/ ~ wanted m n.
  Proof.
    intros T E El0 n. destruct (install_outcome None w' T E) as [H _|m2 m' l hl El El' N O W C F D Nm R]; [congruence|]. rewrite El in El0. injection El0 as <-.
    destruct (in_dec str_eq_dec n (map fst l)) as [J|J]; [left; apply W, J|right; intro H; apply J, W, H].
  Qed.
  (** Nothing that was installed is lost; without 'force' the packages that are not wanted keep every file of their records. *)
  Theorem C76_kept w' : trusted -> inv (w_db w) -> cards_install = Some (None, w') ->
    inv (w_db w') /\ (forall n, installed (w_db w) n -> installed (w_db w') n) /\
    exists m, load junk host = Ok m /\ forall n, ~ wanted m n -> same_but_files (w_db w) (w_db w') n /\ (force = false -> mget n (w_db w') = mget n (w_db w)).
  Proof.
    intros T I E. destruct (install_outcome None w' T E) as [H _|mh m l hl Eh El N O W C F D Nm R]; [congruence|].
    destruct (run_all junk machine re sh root force scripts conf hl w0 m) as [[] w1 m1|e w1] eqn:Er; fold w0 in R; rewrite Er in R; destruct R as [R1 R2]; [subst w1|discriminate R1].
    pose proof (load_agree junk _ m (proj1 I) El) as AG. split; [|split].
    - exact (proj1 (run_next junk machine re sh root force scripts conf hl w0 m w' m1 Nm I AG Er)).
    - intros n J. exact (kept m l hl w' m1 n T I El F D Nm Er J).
    - exists mh. split; [exact Eh|]. intros n J. apply (run_frame junk machine re sh root force scripts conf hl Nm w0 m w' m1 I AG Er n).
      intros sd a Ja An. destruct (F2_back l hl _ F Ja) as [d [J1 J2]]. apply (entry_name d (sd, a) n (tr_name T) J2) in An. subst n. apply J, W, in_map, J1.
  Qed.
  (** Every wanted package has been installed from an archive that the index signature certifies: its file list holds files of
      that archive that the rules accept and, without 'force', all of them. *)
  Theorem C76_files w' : trusted -> inv (w_db w) -> cards_install = Some (None, w') ->
    exists m, load junk host = Ok m /\ forall n, wanted m n ->
      exists a rules, certified n a /\ archive_name a n /\ read_rules_file conf = inl rules /\
        (forall x, lists (w_db w') n x -> ships a x /\ verdict re INSTALL rules x true) /\
        (force = false -> forall x, ships a x -> verdict re INSTALL rules x true -> lists (w_db w') n x).
  Proof.
    intros T I E. destruct (install_outcome None w' T E) as [H _|mh m l hl Eh El N O W C F D Nm R]; [congruence|].
    destruct (run_all junk machine re sh root force scripts conf hl w0 m) as [[] w1 m1|e w1] eqn:Er; fold w0 in R; rewrite Er in R; destruct R as [R1 R2]; [subst w1|discriminate R1].
    exists mh. split; [exact Eh|]. intros n J. apply W in J. apply in_map_iff in J as [d [<- J]]. destruct (F2_In l hl d F J) as [[sd a] [J1 J2]].
    destruct (run_listed junk machine re sh root force scripts conf hl w0 m w' m1 sd a Nm D I (load_agree junk _ m (proj1 I) El) Er J1) as (name & rules & An & _ & Ru & Li & Lf).
    assert (En : name = fst d) by (apply (entry_name d (sd, a) name (tr_name T) J2), An). subst name. exists a, rules. split; [exact (proj2 (proj2 J2))|]. auto.
  Qed.
  (** Whatever stops the command: apart from one package that was being replaced nothing installed is lost, what is new is wanted and
      has its dependencies (that package excepted), and other packages keep their records (with 'force' their file lists may shrink). *)
  Theorem C76_partway e w' : trusted -> inv (w_db w) -> cards_install = Some (Some e, w') ->
    exists x,
      (forall n, n <> x -> installed (w_db w) n -> installed (w_db w') n) /\
      (forall m, load junk host = Ok m ->
        (forall n, installed (w_db w') n -> ~ installed (w_db w) n -> wanted m n /\ (~ (host <> w_db w /\ current (m_pkgs m) jb arch n) ->
          forall k t, In (k, t) (a_deps (arch n)) -> k = x \/ installed (w_db w') k \/ host <> w_db w /\ installed host k)) /\
        (forall n, ~ wanted m n -> same_but_files (w_db w) (w_db w') n)).
  Proof.
    intros T I E. destruct (install_outcome (Some e) w' T E) as [Z1 Z2|mh m l hl Eh0 El N O W C F D Nm R].
    { rewrite Z2. exists []. split; [intros n _ H; exact H|]. intros m _. split; [intros n H1 H2; destruct (H2 H1)|intros n _; apply same_refl]. }
    destruct (run_all junk machine re sh root force scripts conf hl w0 m) as [[] w1 m1|e1 w1] eqn:Er; fold w0 in R; rewrite Er in R; destruct R as [R1 R2]; [discriminate R1|subst w1]. clear R1.
    pose proof (load_agree junk _ m (proj1 I) El) as AG.
    destruct (run_stop junk machine re sh root force scripts conf hl Nm w0 m e1 w' I AG Er) as (u & sd & a & v & w1 & m1 & Eh & E1 & I1 & AG1 & S1 & S2).
    rewrite Eh in F. apply Forall2_app_inv_r in F as (l1 & l2 & F1 & F2 & ->). assert (X : exists d l3, l2 = d :: l3 /\ entry_ok d (sd, a)) by (inversion F2; subst; eauto). destruct X as (d & l3 & -> & Ed). subst hl.
    assert (Du : distinct u). { intros p1 p p2 q p3 n H. subst u. apply (D p1 p p2 q (p3 ++ (sd, a) :: v)). rewrite <- !app_assoc. cbn [app]. rewrite <- !app_assoc. reflexivity. }
    assert (Nu : nameds junk machine root u) by (unfold nameds in *; rewrite Forall_app in Nm; exact (proj1 Nm)).
    assert (An : forall n, archive_name a n <-> n = fst d) by (intro n; exact (entry_name d (sd, a) n (tr_name T) Ed)).
    assert (Sx : forall n, n <> fst d -> installed (w_db w1) n -> installed (w_db w') n).
    { intros n Nn [Ha Hc]. split; [exact Ha|]. destruct (S1 n) as [Z _]; [rewrite An; exact Nn|]. rewrite Z. exact Hc. }
    assert (Sb : forall n, installed (w_db w') n -> installed (w_db w1) n) by (intros n [H1 H2]; split; [exact H1|]; intro H3; apply H2, S2, H3).
    exists (fst d). split.
    - intros n Nn H. apply Sx; [exact Nn|]. exact (kept m l1 u w1 m1 n T I El F1 Du Nu E1 H).
    - intros m2 El2. rewrite Eh0 in El2. injection El2 as <-. split.
      + intros n Hn Hb. apply Sb in Hn. assert (Jn : In n (map fst l1)).
        { destruct (in_dec str_eq_dec n (map fst l1)) as [J|J]; [exact J|]. exfalso. apply Hb. destruct Hn as [H1 H2]. split; [exact H1|].
          destruct (run_frame junk machine re sh root force scripts conf u Nu w0 m w1 m1 I AG E1 n) as [[Z _] _]; [|cbn [w0 w_db] in Z; rewrite <- Z; exact H2].
          intros sd' a' Ja A'. destruct (F2_back l1 u _ F1 Ja) as [d' [J1 J2]]. apply (entry_name d' (sd', a') n (tr_name T) J2) in A'. subst n. apply J, in_map, J1. }
        assert (Wn : wanted mh n) by (apply W; rewrite map_app, in_app_iff; left; exact Jn). split; [exact Wn|].
        intros Nc0 k t Jk. assert (Nc : ~ current (m_pkgs mh) jb arch n).
        { intro Cu. destruct (disk_eq_dec host (w_db w)) as [Q|Q]; [|apply Nc0; auto]. destruct Cu as [r [G _]]. rewrite (tr_name T) in G. apply Hb. rewrite <- Q. pose proof (load_spec _ _ _ Eh0) as [_ [P _]]. apply P in G as [Nd [dir [G _]]]. split; [exact (proj1 (nondot_spec _) Nd)|rewrite G; discriminate]. }
        destruct (str_eq_dec k (fst d)) as [->|Nk]; [left; reflexivity|]. right. destruct (str_eq_dec k n) as [->|Nkn]; [left; apply Sx; [exact Nk|exact Hn]|].
        destruct (same (m_pkgs mh) jb (k, t)) eqn:Sm.
        * apply same_spec in Sm as [_ [r [G _]]]. pose proof (load_spec _ _ _ Eh0) as [_ [P _]]. apply P in G as [Nd [dir [G _]]]. assert (Ih : installed host k) by (split; [exact (proj1 (nondot_spec _) Nd)|rewrite G; discriminate]).
          destruct (disk_eq_dec host (w_db w)) as [Q|Q]; [|right; auto]. left. apply Sx; [exact Nk|]. apply (kept m l1 u w1 m1 k T I El F1 Du Nu E1). rewrite <- Q. exact Ih.
        * left. apply Sx; [exact Nk|]. apply in_map_iff in Jn as [y [Ey Jy]]. apply in_split in Jy as (p1 & p2 & ->). assert (Jk' : In k (map fst p1)).
          { apply (O p1 y (p2 ++ d :: l3)); [rewrite <- app_assoc; reflexivity|]. rewrite Ey. exists t. split; [exact Jk|]. split; [exact Nkn|]. split; [intro B; apply same_spec in B; congruence|exact Nc]. }
          apply in_map_iff in Jk' as [z [Ez Jz]]. rewrite <- Ez. apply (listed_installed m (p1 ++ y :: p2) u w1 m1 z T I El F1 Du Nu E1). apply in_or_app. left. exact Jz.
      + intros n Wn. apply (same_trans _ (w_db w1)).
        * apply (run_frame junk machine re sh root force scripts conf u Nu w0 m w1 m1 I AG E1 n). intros sd' a' Ja A'. destruct (F2_back l1 u _ F1 Ja) as [d' [J1 J2]].
          apply (entry_name d' (sd', a') n (tr_name T) J2) in A'. subst n. apply Wn, W. rewrite map_app, in_app_iff. left. apply in_map, J1.
        * apply S1. rewrite An. intros ->. apply Wn, W. rewrite map_app, in_app_iff. right. left. reflexivity.
  Qed.
  (** The META text of every wanted package is the one of its certified archive, but for the automatic mark. The mark is set if
      and only if the package was automatic already or its entry of the list is a dependency; so it is set for everything that was
      not asked for, and not set for what no wanted package depends on. *)
  Theorem C76_meta w' : trusted -> tidy_world w -> junk = false -> scripts = false -> ends_slash root = true -> comps root = [] ->
    (forall n a, certified n a -> exists nd, tidy_archive a nd) ->
    cards_install = Some (None, w') ->
    exists m, load junk host = Ok m /\ forall n, wanted m n ->
      exists a nd ls (b : bool), certified n a /\ tidy_archive a nd /\ parse_lines (n_data nd) = Some ls /\
        dbfile (w_db w') n (L "META") = Some (if b then text_of (sins (L "d1") (set_of ls)) else n_data nd) /\
        (b = true -> automatic (w_db w) n \/ exists q t, wanted m q /\ q <> n /\ In (n, t) (a_deps (arch q)) /\ (0 < t)%Z) /\
        (automatic (w_db w) n -> b = true) /\
        (~ asked_for m n -> (forall q t, wanted m q -> In (n, t) (a_deps (arch q)) -> (0 < t)%Z) -> b = true).
  Proof.
    intros T Tw Hj Hs Rs R0 Ta E. destruct (install_outcome None w' T E) as [H _|mh m l hl Eh0 El N O W C F D Nm R]; [congruence|].
    destruct (run_all junk machine re sh root force scripts conf hl w0 m) as [[] w1 m1|e w1] eqn:Er; fold w0 in R; rewrite Er in R; destruct R as [R1 R2]; [subst w1|discriminate R1].
    exists mh. split; [exact Eh0|]. intros n Wn. apply W in Wn. apply in_map_iff in Wn as [d [En J]]. destruct (C d J) as [r [A1 A2]]. destruct (F2_In l hl d F J) as [[sd a] [J1 J2]].
    rewrite Hs in Er. destruct (Ta (fst d) a (proj2 (proj2 J2))) as [nd Tn].
    assert (Ti : tidies hl). { intros sd' a' Ja. destruct (F2_back l hl _ F Ja) as [d' [_ J4]]. exact (Ta _ _ (proj2 (proj2 J4))). }
    assert (Tw0 : tidy_world w0).
    { destruct Tw as [T1 T2 T3 T4]. destruct (cleanup_spec (w_fs w) root T1) as [K1 K2]. constructor; [exact K1| |exact T3|exact T4]. intros c q Jc B. cbn [w0 w_fs]. rewrite K2; [exact (T2 c q Jc B)|].
      destruct B as [x [Nx ->]]. cbn [app]. assert (L2 : forall y, In y meta_comps -> exists z, y = [z]) by (intros y Jy; cbn [meta_comps In] in Jy; repeat (destruct Jy as [<-|Jy]; [eexists; reflexivity|]); destruct Jy).
      intro Jq. destruct (L2 _ Jq) as [z Hz]. injection Hz as _ Hz. exact (Nx Hz). }
    apply in_split in J1 as (u & v & Eh). rewrite Eh in Er, D, Ti.
    destruct (run_meta junk machine re sh root Rs R0 force conf u sd a v nd w0 m w' m1 Ti D Tn Tw0 El Er) as (name & ls & b & An & Pl & Db & Bs).
    apply (entry_name d (sd, a) name (tr_name T) J2) in An. rewrite En in An. subst name. exists a, nd, ls, b. rewrite <- En at 1. split; [exact (proj2 (proj2 J2))|]. split; [exact Tn|]. split; [exact Pl|]. split; [exact Db|].
    destruct J2 as [S1 _]. cbn [fst] in S1. subst sd. split; [|split].
    - intro Hb. apply Bs in Hb as [Hb|[[_ Hb]|Hb]]; [|congruence|left; exact Hb]. right. apply Z.ltb_lt in Hb. destruct A2 as [-> |(q & Wq & Jq & Nq & _)]; [cbn in Hb; lia|].
      exists q, (snd d). split; [exists r; auto|]. split; [congruence|]. split; [|exact Hb]. rewrite <- En. destruct d; exact Jq.
    - intro Au. apply Bs. right. right. exact Au.
    - intros Na Po. apply Bs. left. apply Z.ltb_lt. destruct A2 as [-> |(q & Wq & Jq & Nq & _)]; [exfalso; apply Na; rewrite <- En; exact A1|].
      apply (Po q (snd d)); [exists r; auto|]. rewrite <- En. destruct d; exact Jq.
  Qed.
End Install.
