(** C115: repeating an installation that was killed while it unpacked its archive
    (pkgadd::run, pkgadd.cxx:67-139, on the model of DbModel.v). *)
From Verif Require Import Base BaseProofs StrModel StrSpec StrProofs RulesModel RulesSpec RulesProofs FsModel FsSpec FsProofs FsOps FsExtract
  MetaModel MetaSpec MetaProofs DbModel DbSpec DbLoad DbOps DbRun DbInv EngineFs EngineRoot EngineWay DbFacts DbProps RemoveProps AddRun DbExamples AddProps UpgradeProps UpgradeExamples.

(** the same to a user: the same node, or two directories of the same mode and owner *)
Definition same_dir (m n : node) : Prop := n_kind m = KDir /\ n_kind n = KDir /\ same_attr m n.
Definition same_at (f g : fs) (q : path) : Prop :=
  fget f q = fget g q \/ exists m n, fget f q = Some m /\ fget g q = Some n /\ same_dir m n.

Section Repeat.
  Variables (junk : bool) (machine : str) (re : str -> str -> option bool) (sh : str -> fs -> fs * bool) (root : str).
  Notation session := (session junk machine re sh root).
  Notation R := (comps root).
  Variable a : archive.
  Variable rules : list rule.
  Definition place (x : str) : path := R ++ comps x.
  (** the entries of the archive that an installation unpacks: all but the listed files that the rules keep out *)
  Definition unpacks (x : str) (n : node) : Prop := In (x, n) a /\ ~ (ships a x /\ verdict re INSTALL rules x false).
  (** nothing of another sort stands where the archive has a directory, and no directory where it has a file *)
  Definition room (f : fs) : Prop := forall x n, unpacks x n ->
    way_clear f (place x) /\ (n_kind n = KDir -> fget f (place x) = None \/ dir_at f (place x)) /\ (n_kind n <> KDir -> ~ dir_at f (place x)).
  (** [f']: what a killed installation may have made of [f]. Places of the archive hold anything of the right sort (a file may be
      missing, or have any content, mode and owner; a directory any mode and owner), missing directories above them may have been
      made, stray meta files may have been cleaned, everything else is as before. *)
  Definition unfinished (f f' : fs) : Prop := tree f' /\ forall q,
    fget f' q = fget f q \/
    (where_meta q /\ fget f' q = None) \/
    (exists x n, unpacks x n /\ q = place x /\ (n_kind n = KDir -> dir_at f' q) /\ (n_kind n <> KDir -> ~ dir_at f' q)) \/
    (fget f q = None /\ fget f' q = Some new_dir /\ exists x n, unpacks x n /\ below q (place x)).

  Hypothesis Ti : tidy a.
  Lemma place_inj x n y m : In (x, n) a -> In (y, m) a -> place x = place y -> (x, n) = (y, m).
  Proof.
    intros I J E. apply app_inv_head in E. destruct Ti as [ND _]. revert I J E ND. clear. induction a as [|e t IH]; intros I J E ND; [destruct I|].
    cbn [map] in ND. inversion ND as [|? ? N1 N2]; subst. destruct I as [->|I]; destruct J as [J|J].
    - exact J.
    - exfalso. apply N1. apply in_map_iff. exists (y, m). split; [cbn [fst]; symmetry; exact E|exact J].
    - subst e. exfalso. apply N1. apply in_map_iff. exists (x, n). split; [cbn [fst]; exact E|exact I].
    - apply IH; auto.
  Qed.
  Lemma not_below_file x n y m : In (x, n) a -> In (y, m) a -> below (place x) (place y) -> n_kind n = KDir.
  Proof.
    intros I J B. destruct (is_dir n) eqn:D; [apply is_dir_kind, D|]. apply is_dir_false in D. exfalso.
    destruct Ti as [_ T]. apply (T x n y m I J D). unfold place in B. exact (proj1 (EngineWay.below_app R _ _) B).
  Qed.

  Lemma extract_below f name n g q : extract f name n = (true, g) -> comps name <> [] -> below q (comps name) ->
    fget g q = fget (mk_parents f [] (removelast (comps name))) q.
  Proof.
    intros E N B. unfold extract in E. set (p := comps name) in *.
    assert (Nq : q <> p) by (intros ->; exact (below_irrefl _ B)).
    set (f1 := mk_parents f [] (removelast p)) in *. clearbody f1. destruct p as [|c cs]; [congruence|].
    assert (F : forall o, (true, fset (c :: cs) o f1) = (true, g) -> fget g q = fget f1 q).
    { intros o Eo. assert (g = fset (c :: cs) o f1) as -> by (inversion Eo; reflexivity). apply fget_fset_other, Nq. }
    destruct (is_dir n).
    - destruct (fget f1 (c :: cs)) as [o|]; [destruct (is_dir o)|]; eapply F, E.
    - destruct (blocked f [] (c :: cs)); [discriminate|]. destruct (fget f (c :: cs)) as [o|]; [destruct (is_dir o && has_child f (c :: cs)); [discriminate|]|]; eapply F, E.
  Qed.
  (** unpacking an entry that has room *)
  Lemma extract_room f x n name : tree f -> room f -> unpacks x n -> comps name = place x ->
    exists g, extract f name n = (true, g) /\ tree g /\
      (forall q, q <> place x -> ~ below q (place x) -> fget g q = fget f q) /\
      (forall q, below q (place x) -> dir_at f q -> fget g q = fget f q) /\
      (forall q, below q (place x) -> fget f q = None -> fget g q = Some new_dir) /\
      (forall q, below q (place x) -> dir_at g q) /\
      (n_kind n <> KDir -> fget g (place x) = Some n) /\
      (n_kind n = KDir -> exists o, fget g (place x) = Some o /\ n_kind o = KDir /\ same_attr n o).
  Proof.
    intros T Ro U C. destruct (Ro x n U) as (W & Kd & Kf).
    assert (B : exists g, extract f name n = (true, g)).
    { unfold extract. rewrite C. set (p := place x) in *. destruct (is_dir n) eqn:D.
      - destruct p as [|c cs].
        + destruct (proj1 T) as [o [Go _]]. rewrite Go. eauto.
        + destruct (fget (mk_parents f [] (removelast (c :: cs))) (c :: cs)) as [o|]; [destruct (is_dir o)|]; eauto.
      - apply is_dir_false in D. pose proof (Kf D) as Nd. destruct p as [|c cs]; [exfalso; apply Nd, T|].
        destruct (blocked f [] (c :: cs)) eqn:Bl.
        + exfalso. apply blocked_true in Bl as (u & v & m & Nu & Nv & E & G & K). cbn [app] in G.
          destruct (W u) as [Z|[m' [G' K']]]; [exists v; split; [exact Nv|exact E]|congruence|]. rewrite G in G'. injection G' as <-. contradiction.
        + destruct (fget f (c :: cs)) as [o|] eqn:G; [|eauto]. assert (is_dir o = false) as ->; [|cbn [andb]; eauto].
          destruct (is_dir o) eqn:Do; [|reflexivity]. exfalso. apply Nd. exists o. split; [exact G|apply is_dir_kind, Do]. }
    destruct B as [g E]. exists g. split; [exact E|].
    pose proof (extract_spec f name n true g T E) as (_ & S1 & S2 & _ & S4 & S5 & S6). rewrite C in S1, S2, S4, S5, S6.
    split; [exact (extract_tree _ _ _ _ _ T E)|]. split; [exact S1|].
    split. { intros q Bq Dq. apply S2; [intros ->; exact (below_irrefl _ Bq)|exact Dq]. }
    split.
    { intros q Bq Nq. rewrite (extract_below f name n g q E); [|rewrite C; intro Z; rewrite Z in Bq; destruct Bq as [r [Hr Er]]; destruct q; cbn [app] in Er; [subst r; congruence|discriminate Er]|rewrite C; exact Bq].
      rewrite C. destruct (mk_parents_spec f [] (removelast (place x))) as [_ M]. destruct (M q) as [[D _]|[_ G]]; [|destruct D as [o [Go _]]; congruence|exact G].
      apply between_below. split; [|exact Bq]. intros ->. destruct (proj1 T) as [o [Go _]]. congruence. }
    split; [intros q Bq; exact (S4 eq_refl q Bq)|]. split; [exact (S5 eq_refl)|exact (S6 eq_refl)].
  Qed.
  Lemma below_cases q p : below q p \/ ~ below q p.
  Proof. destruct (belowb q p) eqn:B; [left; apply belowb_below, B|right; intro Z; apply belowb_below in Z; congruence]. Qed.
  Lemma kind_cases n : n_kind n = KDir \/ n_kind n <> KDir.
  Proof. destruct (is_dir n) eqn:D; [left; apply is_dir_kind, D|right; apply is_dir_false, D]. Qed.
  (** there is room as before *)
  Lemma room_step f x n g : tree f -> room f -> unpacks x n ->
    (forall q, q <> place x -> ~ below q (place x) -> fget g q = fget f q) ->
    (forall q, below q (place x) -> dir_at g q) ->
    (n_kind n <> KDir -> ~ dir_at g (place x)) -> (n_kind n = KDir -> dir_at g (place x)) -> room g.
  Proof.
    intros T Ro U S1 S4 S5 S6 y m V. destruct (Ro y m V) as (W & Kd & Kf).
    assert (Ext : forall q, fget g q = fget f q -> dir_at g q -> dir_at f q) by (intros q E [o [Go K]]; exists o; split; [congruence|exact K]).
    split; [|split].
    - intros q Bq. destruct (path_eq_dec q (place x)) as [->|N].
      + right. apply S6. exact (not_below_file x n y m (proj1 U) (proj1 V) Bq).
      + destruct (below_cases q (place x)) as [Bx|Bx]; [right; exact (S4 q Bx)|]. pose proof (S1 q N Bx) as E.
        destruct (W q Bq) as [Z|[o [Go K]]]; [left; congruence|right; exists o; split; [congruence|exact K]].
    - intro K. destruct (path_eq_dec (place y) (place x)) as [E|N].
      + pose proof (place_inj y m x n (proj1 V) (proj1 U) E) as P. injection P as -> ->. right. exact (S6 K).
      + destruct (below_cases (place y) (place x)) as [Bx|Bx]; [right; exact (S4 _ Bx)|]. pose proof (S1 _ N Bx) as E.
        destruct (Kd K) as [Z|[o [Go Ko]]]; [left; congruence|right; exists o; split; [congruence|exact Ko]].
    - intros K D. destruct (path_eq_dec (place y) (place x)) as [E|N].
      + pose proof (place_inj y m x n (proj1 V) (proj1 U) E) as P. injection P as -> ->. exact (S5 K D).
      + destruct (below_cases (place y) (place x)) as [Bx|Bx]; [exact (K (not_below_file y m x n (proj1 V) (proj1 U) Bx))|].
        exact (Kf K (Ext _ (S1 _ N Bx) D)).
  Qed.
  Lemma room_extract f x n g : tree f -> room f -> unpacks x n -> forall name, comps name = place x -> extract f name n = (true, g) -> tree g /\ room g.
  Proof.
    intros T Ro U name C E. destruct (extract_room f x n name T Ro U C) as (g' & E' & Tg & S1 & _ & _ & S4 & S5 & S6). rewrite E in E'. injection E' as <-.
    split; [exact Tg|]. apply (room_step f x n g T Ro U S1 S4).
    - intros K [o [Go Ko]]. rewrite (S5 K) in Go. injection Go as <-. contradiction.
    - intro K. destruct (S6 K) as (o & Go & Ko & _). exists o. split; [exact Go|exact Ko].
  Qed.

  (** *** two runs side by side *)
  Definition dir_entry (q : path) : Prop := exists x n, unpacks x n /\ n_kind n = KDir /\ q = place x.
  Definition agree (f g : fs) (q : path) : Prop :=
    fget f q = fget g q \/ (dir_entry q /\ exists m n, fget f q = Some m /\ fget g q = Some n /\ same_dir m n).
  (** [t]: the entries still to come; [K]: the places already unpacked *)
  Definition beside (t : archive) (K : path -> Prop) (g h : fs) : Prop :=
    tree g /\ tree h /\ room g /\ room h /\ (forall e, In e t -> In e a) /\
    forall q, agree g h q \/ (exists x n, In (x, n) t /\ unpacks x n /\ q = place x) \/
      (fget g q = None /\ fget h q = Some new_dir /\ exists x n, In (x, n) t /\ unpacks x n /\ below q (place x)) \/
      (where_meta q /\ ~ K q).
  Lemma same_dir_via n o o' : n_kind o = KDir -> n_kind o' = KDir -> same_attr n o -> same_attr n o' -> same_dir o o'.
  Proof. unfold same_dir, same_attr. intros K1 K2 (A1 & A2 & A3) (B1 & B2 & B3). split; [exact K1|]. split; [exact K2|]. split; [congruence|]. split; congruence. Qed.
  Lemma beside_step x n t K g h name : beside ((x, n) :: t) K g h -> unpacks x n -> comps name = place x ->
    exists g' h', extract g name n = (true, g') /\ extract h name n = (true, h') /\ beside t (fun q => K q \/ q = place x) g' h'.
  Proof.
    intros (Tg & Th & Rg & Rh & Sub & D) U C.
    destruct (extract_room g x n name Tg Rg U C) as (g' & Eg & Tg' & G1 & G2 & G3 & G4 & G5 & G6).
    destruct (extract_room h x n name Th Rh U C) as (h' & Eh & Th' & H1 & H2 & H3 & H4 & H5 & H6).
    exists g', h'. split; [exact Eg|]. split; [exact Eh|].
    split; [exact Tg'|]. split; [exact Th'|].
    split; [exact (proj2 (room_extract g x n g' Tg Rg U name C Eg))|]. split; [exact (proj2 (room_extract h x n h' Th Rh U name C Eh))|].
    split; [intros e I; apply Sub; right; exact I|]. intro q.
    destruct (path_eq_dec q (place x)) as [->|N].
    - left. destruct (kind_cases n) as [Kn|Kn].
      + right. split; [exists x, n; split; [exact U|]; split; [exact Kn|reflexivity]|].
        destruct (G6 Kn) as (o & Go & Ko & Ao). destruct (H6 Kn) as (o' & Go' & Ko' & Ao'). exists o, o'. split; [exact Go|]. split; [exact Go'|].
        exact (same_dir_via n o o' Ko Ko' Ao Ao').
      + left. rewrite (G5 Kn), (H5 Kn). reflexivity.
    - assert (Two : (exists x0 n0, In (x0, n0) ((x, n) :: t) /\ unpacks x0 n0 /\ q = place x0) -> exists x0 n0, In (x0, n0) t /\ unpacks x0 n0 /\ q = place x0).
      { intros (x0 & n0 & [E|I] & U0 & Eq); [injection E as <- <-; contradiction|exists x0, n0; split; [exact I|]; split; assumption]. }
      destruct (below_cases q (place x)) as [B|B].
      + destruct (Rg x n U) as (Wg & _). destruct (Rh x n U) as (Wh & _).
        destruct (D q) as [A|[P|[(Z1 & Z2 & _)|M]]].
        * left. destruct (Wg q B) as [Zg|Zg]; destruct (Wh q B) as [Zh|Zh].
          -- left. rewrite (G3 q B Zg), (H3 q B Zh). reflexivity.
          -- exfalso. destruct Zh as [o [Go _]]. destruct A as [A|(_ & m & m' & A & _)]; congruence.
          -- exfalso. destruct Zg as [o [Go _]]. destruct A as [A|(_ & m & m' & _ & A & _)]; congruence.
          -- unfold agree. rewrite (G2 q B Zg), (H2 q B Zh). exact A.
        * right. left. exact (Two P).
        * left. left. rewrite (G3 q B Z1), (H2 q B), Z2; [reflexivity|]. exists new_dir. split; [exact Z2|reflexivity].
        * right. right. right. split; [apply M|]. intros [Z|Z]; [exact (proj2 M Z)|contradiction].
      + unfold agree. rewrite (G1 q N B), (H1 q N B). destruct (D q) as [A|[P|[(Z1 & Z2 & x0 & n0 & I & U0 & B0)|M]]].
        * left. exact A.
        * right. left. exact (Two P).
        * right. right. left. split; [exact Z1|]. split; [exact Z2|]. destruct I as [E|I]; [injection E as <- <-; contradiction|].
          exists x0, n0. split; [exact I|]. split; assumption.
        * right. right. right. split; [apply M|]. intros [Z|Z]; [exact (proj2 M Z)|contradiction].
  Qed.
  Lemma beside_weak t t' (K K' : path -> Prop) g h : beside t K g h ->
    (forall x n, In (x, n) t -> unpacks x n -> In (x, n) t') -> (forall e, In e t' -> In e a) -> (forall q, K' q -> K q) -> beside t' K' g h.
  Proof.
    intros (Tg & Th & Rg & Rh & _ & D) I S F. split; [exact Tg|]. split; [exact Th|]. split; [exact Rg|]. split; [exact Rh|]. split; [exact S|].
    intro q. destruct (D q) as [A|[(x & n & J & U & E)|[(Z1 & Z2 & x & n & J & U & B)|(M & N)]]].
    - left. exact A.
    - right. left. exists x, n. split; [exact (I x n J U)|]. split; assumption.
    - right. right. left. split; [exact Z1|]. split; [exact Z2|]. exists x, n. split; [exact (I x n J U)|]. split; assumption.
    - right. right. right. split; [exact M|]. intro Z. exact (N (F q Z)).
  Qed.
  (** the files kept out, as pkgadd computes them *)
  Variable non : list str.
  Hypothesis Non : forall x, In x non <-> ships a x /\ verdict re INSTALL rules x false.
  Lemma unpacks_non x n : In (x, n) a -> (unpacks x n <-> smem x non = false).
  Proof.
    intro I. unfold unpacks. rewrite <- Non. split.
    - intros [_ N]. destruct (smem x non) eqn:S; [|reflexivity]. exfalso. apply N. apply smem_In, S.
    - intro S. split; [exact I|]. intro J. apply smem_In in J. congruence.
  Qed.
  Lemma entry_none f x n : install_entry root [] non f (x, n) = if smem x non then f else snd (extract f (orig_name root x) n).
  Proof.
    unfold install_entry. destruct (smem x non); [reflexivity|]. cbn [smem existsb]. rewrite andb_false_r.
    destruct (extract f (orig_name root x) n) as [b g]. destruct b; [|reflexivity]. rewrite seqb_refl. reflexivity.
  Qed.
  Lemma beside_install t : forall K g h, beside t K g h ->
    exists K' : path -> Prop, (forall q, K q -> K' q) /\ (forall x n, In (x, n) t -> unpacks x n -> K' (place x)) /\
      beside [] K' (install_archive root t [] non g) (install_archive root t [] non h).
  Proof.
    induction t as [|[x n] t IH]; intros K g h B.
    - exists K. split; [auto|]. split; [intros x n []|exact B].
    - rewrite !install_cons, !entry_none. assert (Ia : In (x, n) a) by (destruct B as (_ & _ & _ & _ & S & _); apply S; left; reflexivity).
      destruct (smem x non) eqn:S.
      + assert (NU : ~ unpacks x n) by (intro U; apply (unpacks_non x n Ia) in U; congruence).
        destruct (IH K g h) as (K' & K1 & K2 & B').
        { apply (beside_weak _ t K K g h B).
          - intros y m [E|J] U; [injection E as <- <-; contradiction|exact J].
          - intros e J. destruct B as (_ & _ & _ & _ & Sb & _). apply Sb. right. exact J.
          - auto. }
        exists K'. split; [exact K1|]. split; [|exact B']. intros y m [E|J] U; [injection E as <- <-; contradiction|exact (K2 y m J U)].
      + assert (U : unpacks x n) by (apply (unpacks_non x n Ia), S).
        destruct (beside_step x n t K g h (orig_name root x) B U (comps_orig root x)) as (g' & h' & Eg & Eh & B'). rewrite Eg, Eh. cbn [snd].
        destruct (IH _ _ _ B') as (K' & K1 & K2 & B2). exists K'. split; [intros q Z; apply K1; left; exact Z|]. split; [|exact B2].
        intros y m [E|J] V; [injection E as <- <-; apply K1; right; reflexivity|exact (K2 y m J V)].
  Qed.

  (** *** the state of the interrupted run is one to which the above applies *)
  Lemma room_sub f g : room f -> (forall q, fget g q = fget f q \/ fget g q = None) -> room g.
  Proof.
    intros Ro S x n U. destruct (Ro x n U) as (W & Kd & Kf). split; [exact (way_sub f g _ S W)|]. split.
    - intro K. destruct (S (place x)) as [E|E]; [|left; exact E]. destruct (Kd K) as [Z|[o [Go Ko]]]; [left; congruence|right; exists o; split; [congruence|exact Ko]].
    - intros K [o [Go Ko]]. destruct (S (place x)) as [E|E]; [|congruence]. apply (Kf K). exists o. split; [congruence|exact Ko].
  Qed.
  Lemma room_unfinished f f' : room f -> unfinished f f' -> room f'.
  Proof.
    intros Ro [T S] x n U. destruct (Ro x n U) as (W & Kd & Kf).
    assert (Nd : fget f' = fget f' -> forall q, fget f' q = Some new_dir -> dir_at f' q) by (intros _ q G; exists new_dir; split; [exact G|reflexivity]).
    specialize (Nd eq_refl). split; [|split].
    - intros q B. destruct (S q) as [E|[[_ E]|[(y & m & V & -> & Dd & _)|(_ & E & _)]]].
      + destruct (W q B) as [Z|[o [Go Ko]]]; [left; congruence|right; exists o; split; [congruence|exact Ko]].
      + left. exact E.
      + right. apply Dd. exact (not_below_file y m x n (proj1 V) (proj1 U) B).
      + right. exact (Nd q E).
    - intro K. destruct (S (place x)) as [E|[[_ E]|[(y & m & V & Eq & Dd & _)|(_ & E & _)]]].
      + destruct (Kd K) as [Z|[o [Go Ko]]]; [left; congruence|right; exists o; split; [congruence|exact Ko]].
      + left. exact E.
      + right. pose proof (place_inj x n y m (proj1 U) (proj1 V) Eq) as P. injection P as -> ->. exact (Dd K).
      + right. exact (Nd _ E).
    - intros K D. destruct (S (place x)) as [E|[[_ E]|[(y & m & V & Eq & _ & Df)|(_ & E & y & m & V & B)]]].
      + apply (Kf K). destruct D as [o [Go Ko]]. exists o. split; [congruence|exact Ko].
      + destruct D as [o [Go _]]. congruence.
      + pose proof (place_inj x n y m (proj1 U) (proj1 V) Eq) as P. injection P as -> ->. exact (Df K D).
      + exact (K (not_below_file x n y m (proj1 U) (proj1 V) B)).
  Qed.
  Hypothesis Rs : ends_slash root = true.
  Lemma beside_start f f' cf : tree f -> room f -> unfinished f f' ->
    (forall x, In x cf -> exists n, unpacks x n) ->
    beside a (fun _ => False) (cleanup_meta f root) (del_files root cf (cleanup_meta f' root)).
  Proof.
    intros T Ro Un C. pose proof Un as [T' S]. destruct (cleanup_spec f root T) as [Tc Fc]. destruct (cleanup_spec f' root T') as [Tc' Fc'].
    split; [exact Tc|]. split; [apply del_files_tree; assumption|]. split; [apply (room_sub f _ Ro), (cleanup_sub root), T|].
    split.
    { apply (room_sub f' _ (room_unfinished f f' Ro Un)). intro q. destruct (del_files_sub root Rs cf (cleanup_meta f' root) q) as [-> | ->]; [|right; reflexivity].
      apply (cleanup_sub root), T'. }
    split; [auto|]. intro q.
    destruct (in_dec path_eq_dec q (map place cf)) as [I|I].
    - apply in_map_iff in I as (x & <- & I). destruct (C x I) as (n & U). right. left. exists x, n. split; [apply U|]. split; [exact U|reflexivity].
    - assert (E1 : fget (del_files root cf (cleanup_meta f' root)) q = fget (cleanup_meta f' root) q).
      { apply (del_files_frame root Rs). intros x J E. apply I. apply in_map_iff. exists x. split; [symmetry; exact E|exact J]. }
      destruct (in_dec path_eq_dec q meta_comps) as [M|M].
      + right. right. right. split; [apply meta_where, M|auto].
      + unfold agree. rewrite E1, (Fc q M), (Fc' q M). destruct (S q) as [E|[[W E]|[(y & m & V & -> & _)|(Z & E & y & m & V & B)]]].
        * left. left. symmetry. exact E.
        * right. right. right. split; [exact W|auto].
        * right. left. exists y, m. split; [apply V|]. split; [exact V|reflexivity].
        * right. right. left. split; [exact Z|]. split; [exact E|]. exists y, m. split; [apply V|]. split; assumption.
  Qed.

  (** *** where a kill can leave the unpacking *)
  (** pkgdbh.cxx:1258-1316 (archive_read_extract with ARCHIVE_EXTRACT_UNLINK) in the middle of one entry: some of the directories above it made; the old file unlinked; or the entry there with any content, mode, owner *)
  Inductive within (f : fs) (x : str) (n : node) : fs -> Prop :=
  | w_parents u v : place x = u ++ v -> v <> [] -> within f x n (mk_parents f [] u)
  | w_unlinked : n_kind n <> KDir -> within f x n (fdel (place x) f)
  | w_part n' g : (n_kind n' = KDir <-> n_kind n = KDir) -> extract f (orig_name root x) n' = (true, g) -> within f x n g.
  (** no entry lies below one of the stray names that opening the database cleans *)
  Hypothesis NM : forall x n q, In (x, n) a -> where_meta q -> ~ below q (place x).
  Lemma unfinished_step f f1 g x n : room f -> unfinished f f1 -> unpacks x n -> tree g ->
    (forall q, q <> place x -> fget g q = fget f1 q \/ (below q (place x) /\ fget f1 q = None /\ fget g q = Some new_dir)) ->
    (fget g (place x) = fget f1 (place x) \/ (n_kind n = KDir -> dir_at g (place x)) /\ (n_kind n <> KDir -> ~ dir_at g (place x))) -> unfinished f g.
  Proof.
    intros Ro [T1 S] U Tg Q P. split; [exact Tg|].
    assert (Keep : forall q, fget g q = fget f1 q -> fget g q = fget f q \/ (where_meta q /\ fget g q = None) \/
      (exists x0 n0, unpacks x0 n0 /\ q = place x0 /\ (n_kind n0 = KDir -> dir_at g q) /\ (n_kind n0 <> KDir -> ~ dir_at g q)) \/
      (fget f q = None /\ fget g q = Some new_dir /\ exists x0 n0, unpacks x0 n0 /\ below q (place x0))).
    { intros q E. rewrite E. destruct (S q) as [A|[A|[(y & m & V & Eq & D1 & D2)|A]]].
      - left. exact A.
      - right. left. exact A.
      - right. right. left. exists y, m. split; [exact V|]. split; [exact Eq|]. split.
        + intro K. apply (dir_at_ext f1 g q); [symmetry; exact E|exact (D1 K)].
        + intros K D. apply (D2 K). apply (dir_at_ext g f1 q); [exact E|exact D].
      - right. right. right. exact A. }
    intro q. destruct (path_eq_dec q (place x)) as [->|N].
    - destruct P as [P|[P1 P2]]; [exact (Keep _ P)|]. right. right. left. exists x, n. split; [exact U|]. split; [reflexivity|]. split; assumption.
    - destruct (Q q N) as [E|(B & Z & G)]; [exact (Keep q E)|]. destruct (S q) as [A|[[A _]|[(y & m & V & Eq & _ & _)|(_ & A & _)]]].
      + right. right. right. split; [congruence|]. split; [exact G|]. exists x, n. split; assumption.
      + exfalso. exact (NM x n q (proj1 U) A B).
      + right. right. left. exists y, m. split; [exact V|]. split; [exact Eq|]. split.
        * intros _. exists new_dir. split; [exact G|reflexivity].
        * intros K _. rewrite Eq in B. exact (K (not_below_file y m x n (proj1 V) (proj1 U) B)).
      + congruence.
  Qed.
  Lemma unfinished_part f f1 g x n n' : room f -> unfinished f f1 -> unpacks x n -> (n_kind n' = KDir <-> n_kind n = KDir) ->
    extract f1 (orig_name root x) n' = (true, g) -> unfinished f g.
  Proof.
    intros Ro Un U Kk E. pose proof (room_unfinished f f1 Ro Un) as R1. pose proof (proj1 Un) as T1.
    pose proof (extract_spec f1 _ n' true g T1 E) as (_ & S1 & S2 & _ & S4 & S5 & S6). rewrite (comps_orig root x : comps (orig_name root x) = place x) in S1, S2, S4, S5, S6.
    apply (unfinished_step f f1 g x n Ro Un U (extract_tree _ _ _ _ _ T1 E)).
    - intros q N. destruct (below_cases q (place x)) as [B|B]; [|left; exact (S1 q N B)].
      destruct (R1 x n U) as (W & _). destruct (W q B) as [Z|Z]; [|left; exact (S2 q N Z)]. right. split; [exact B|]. split; [exact Z|].
      rewrite (extract_below f1 _ n' g q E); rewrite (comps_orig root x : comps (orig_name root x) = place x);
        [|intro Z2; rewrite Z2 in B; destruct B as [r [Hr Er]]; destruct q; cbn [app] in Er; [subst r; congruence|discriminate Er]|exact B].
      destruct (mk_parents_spec f1 [] (removelast (place x))) as [_ M]. destruct (M q) as [[D _]|[_ G]]; [|destruct D as [o [Go _]]; congruence|exact G].
      apply between_below. split; [|exact B]. intros ->. destruct (proj1 T1) as [o [Go _]]. congruence.
    - right. split.
      + intro K. destruct (S6 eq_refl (proj2 Kk K)) as (o & Go & Ko & _). exists o. split; assumption.
      + intros K [o [Go Ko]]. assert (K' : n_kind n' <> KDir) by (intro Z; exact (K (proj1 Kk Z))). rewrite (S5 eq_refl K') in Go. injection Go as <-. contradiction.
  Qed.
  Lemma parents_tree f u v : tree f -> (forall q, below q (u ++ v) -> fget f q = None \/ dir_at f q) -> v <> [] -> tree (mk_parents f [] u).
  Proof.
    intros T W Nv. destruct (mk_parents_spec f [] u) as [A B].
    assert (Bt : forall q, between [] u q <-> q <> [] /\ prefix_of q u).
    { intro q. unfold between, prefix_of. cbn [app]. split.
      - intros (p & r & N & E & ->). split; [exact N|exists r; exact E].
      - intros [N [r E]]. exists q, r. split; [exact N|]. split; [exact E|reflexivity]. }
    assert (D0 : dir_at (mk_parents f [] u) []) by (apply (dir_at_ext f _ []); [symmetry; apply A; rewrite Bt; tauto|apply T]).
    assert (Dn : forall q, between [] u q -> dir_at (mk_parents f [] u) q).
    { intros q Bq. destruct (B q Bq) as [[D E]|[_ E]]; [apply (dir_at_ext f _ q); [symmetry; exact E|exact D]|exists new_dir; split; [exact E|reflexivity]]. }
    split; [exact D0|]. intros p c G. destruct (between_dec [] u (p ++ [c])) as [Bp|Bp].
    - destruct p as [|y p]; [exact D0|]. apply Dn. apply Bt. apply Bt in Bp as [_ [r Er]]. split; [discriminate|]. exists (c :: r). rewrite Er, <- app_assoc. reflexivity.
    - rewrite (A _ Bp) in G. pose proof (proj2 T p c G) as D. destruct (between_dec [] u p) as [Bq|Bq]; [exact (Dn p Bq)|].
      apply (dir_at_ext f _ p); [symmetry; exact (A _ Bq)|exact D].
  Qed.
  Lemma unfinished_within f f1 g x n : room f -> unfinished f f1 -> unpacks x n -> within f1 x n g -> unfinished f g.
  Proof.
    intros Ro Un U Wi. pose proof (room_unfinished f f1 Ro Un) as R1. pose proof (proj1 Un) as T1. destruct (R1 x n U) as (W & Kd & Kf).
    inversion Wi as [u v E Nv Eg|Kn Eg|n' g' Kk E Eg]; subst.
    - assert (W' : forall q, below q (u ++ v) -> fget f1 q = None \/ dir_at f1 q) by (intros q B; apply W; rewrite E; exact B).
      assert (Sh : forall q, between [] u q -> below q (place x)).
      { intros q (p & r & N & E1 & ->). cbn [app]. rewrite E, E1. exists (r ++ v). split; [destruct r; [exact Nv|discriminate]|rewrite app_assoc; reflexivity]. }
      destruct (mk_parents_spec f1 [] u) as [A B].
      apply (unfinished_step f f1 _ x n Ro Un U (parents_tree f1 u v T1 W' Nv)).
      + intros q N. destruct (between_dec [] u q) as [Bq|Bq]; [|left; exact (A q Bq)]. destruct (B q Bq) as [[_ Z]|[Nd Z]]; [left; exact Z|].
        right. split; [exact (Sh q Bq)|]. split; [|exact Z]. destruct (W q (Sh q Bq)) as [Z2|Z2]; [exact Z2|contradiction].
      + left. apply A. intro Bq. exact (below_irrefl _ (Sh _ Bq)).
    - assert (Np : place x <> []) by (intro Z; apply (Kf Kn); rewrite Z; apply T1).
      apply (unfinished_step f f1 _ x n Ro Un U).
      + apply (tree_fdel f1 (place x) T1 Np). apply (tree_no_child_nondir f1 (place x) T1 (Kf Kn)).
      + intros q N. left. apply fget_fdel_other, N.
      + right. split; [intro K; contradiction|]. intros _ [o [Go _]]. rewrite fget_fdel_same in Go. discriminate Go.
    - exact (unfinished_part f f1 g x n n' Ro Un U Kk E).
  Qed.
  Lemma unfinished_install f t : tree f -> room f -> (forall e, In e t -> In e a) -> forall f1, unfinished f f1 -> unfinished f (install_archive root t [] non f1).
  Proof.
    intros T Ro. induction t as [|[x n] t IH]; intros I f1 Un; [exact Un|]. rewrite install_cons, entry_none. assert (Ia : In (x, n) a) by (apply I; left; reflexivity).
    apply IH; [intros e J; apply I; right; exact J|]. destruct (smem x non) eqn:S; [exact Un|].
    assert (U : unpacks x n) by (apply (unpacks_non x n Ia), S).
    destruct (extract_room f1 x n (orig_name root x) (proj1 Un) (room_unfinished f f1 Ro Un) U (comps_orig root x)) as (g & E & _). rewrite E. cbn [snd].
    apply (unfinished_part f f1 g x n n Ro Un U); [tauto|exact E].
  Qed.
  Lemma unfinished_cleanup f : tree f -> unfinished f (cleanup_meta f root).
  Proof.
    intro T. destruct (cleanup_spec f root T) as [Tc Fc]. split; [exact Tc|]. intro q.
    destruct (in_dec path_eq_dec q meta_comps) as [M|M]; [|left; exact (Fc q M)].
    destruct (cleanup_sub root f T q) as [E|E]; [left; exact E|right; left; split; [apply meta_where, M|exact E]].
  Qed.

  (** *** moving the meta files *)
  Definition three (f g : fs) : Prop := forall c, In c [L ".META"; L ".POSTR"; L ".PRER"] -> fget f (R ++ [c]) = fget g (R ++ [c]).
  Lemma comps_three c : In c [L ".META"; L ".POSTR"; L ".PRER"] -> comps (root ++ c) = R ++ [c].
  Proof. intros [<-|[<-|[<-|[]]]]; apply (comps_root_lit root Rs); lit. Qed.
  Lemma three_exists f g c : three f g -> In c [L ".META"; L ".POSTR"; L ".PRER"] -> exists_file f (root ++ c) = exists_file g (root ++ c).
  Proof. intros H I. unfold exists_file, lstat. rewrite (comps_three c I), (H c I). reflexivity. Qed.
  Lemma moves_same name xs : incl xs [L ".META"; L ".POSTR"; L ".PRER"] -> forall w w', w_db w = w_db w' -> three (w_fs w) (w_fs w') ->
    w_db (fold_left (fun w x => move_one root name x w) xs w) = w_db (fold_left (fun w x => move_one root name x w) xs w').
  Proof.
    induction xs as [|c xs IH]; intros I w w' D H; [exact D|]. cbn [fold_left].
    assert (Ic : In c [L ".META"; L ".POSTR"; L ".PRER"]) by (apply I; left; reflexivity).
    assert (Ix : incl xs [L ".META"; L ".POSTR"; L ".PRER"]) by (intros z Z; apply I; right; exact Z).
    unfold move_one at 2 4. rewrite (comps_three c Ic), (H c Ic). destruct (fget (w_fs w') (R ++ [c])) as [n|] eqn:G; [|apply IH; assumption].
    apply IH; [exact Ix| |].
    - cbn [w_db]. rewrite D. reflexivity.
    - cbn [w_fs]. intros z Z. rewrite !fget_fdel. rewrite (H z Z). reflexivity.
  Qed.
  Lemma move_same name f g d m w5 m5 : tree f -> tree g -> three f g -> move_meta root name (World f d, m) = Ok (w5, m5) ->
    exists w6, move_meta root name (World g d, m) = Ok (w6, m5) /\ w_db w6 = w_db w5.
  Proof.
    intros Tf Tg H E. unfold move_meta in E |- *. cbn [w_fs w_db] in E |- *.
    set (f0 := removeFile f root (L "/.MTREE")) in E. set (g0 := removeFile g root (L "/.MTREE")).
    assert (H0 : three f0 g0).
    { intros c I. assert (N : R ++ [c] <> [L ".MTREE"]).
      { intro Z. destruct R as [|r t]; [injection Z as ->|injection Z as _ Z; destruct t; discriminate Z].
        cbn [In] in I. decompose [or] I; try discriminate; contradiction. }
      unfold f0, g0. change (L "/.MTREE") with (slash :: L ".MTREE"). rewrite !removeFile_single; auto; lit. }
    clearbody f0 g0.
    assert (Im : In (L ".META") [L ".META"; L ".POSTR"; L ".PRER"]) by (left; reflexivity).
    assert (Io : In (L ".POSTR") [L ".META"; L ".POSTR"; L ".PRER"]) by (right; left; reflexivity).
    assert (Ir : In (L ".PRER") [L ".META"; L ".POSTR"; L ".PRER"]) by (right; right; left; reflexivity).
    rewrite (comps_three _ Im) in E |- *. rewrite <- (H0 _ Im). rewrite <- (three_exists f0 g0 _ H0 Io), <- (three_exists f0 g0 _ H0 Ir).
    destruct (fget f0 (R ++ [L ".META"])) as [n|]; [|discriminate]. destruct (is_dir n); [discriminate|].
    destruct (parse_set (n_data n)) as [ls|]; [|discriminate]. cbv zeta in E |- *.
    match type of E with context [fold_left _ ?l _] => set (xs := l) in E |- * end.
    assert (Ix : incl xs [L ".META"; L ".POSTR"; L ".PRER"]).
    { unfold xs. intros z [<-|Z]; [exact Im|]. apply in_app_iff in Z as [Z|Z].
      - destruct (exists_file f0 (root ++ L ".POSTR")); [destruct Z as [<-|[]]; exact Io|destruct Z].
      - destruct (exists_file f0 (root ++ L ".PRER")); [destruct Z as [<-|[]]; exact Ir|destruct Z]. }
    pose proof (moves_same name xs Ix (World f0 d) (World g0 d) eq_refl H0) as Db. clearbody xs.
    set (wf := fold_left (fun w x => move_one root name x w) xs (World f0 d)) in *.
    set (wg := fold_left (fun w x => move_one root name x w) xs (World g0 d)) in *. clearbody wf wg.
    destruct (m_dep m).
    - assert (E5 : w5 = World (w_fs wf) (put_file name (L "META") (text_of (sins (L "d1") ls)) (w_db wf)) /\ m5 = Mem (m_pkgs m) (m_alias m) false) by (inversion E; split; reflexivity).
      destruct E5 as [-> ->]. eexists. split; [reflexivity|]. cbn [w_db]. rewrite Db. reflexivity.
    - assert (E5 : w5 = wf /\ m5 = m) by (inversion E; split; reflexivity). destruct E5 as [-> ->]. exists wg. split; [reflexivity|]. symmetry. exact Db.
  Qed.

  (** *** taking conflicting files from nobody *)
  Lemma sdel_absent x s : ~ In x s -> sdel x s = s.
  Proof.
    induction s as [|y s IH]; intro N; [reflexivity|]. cbn [sdel filter] in *. unfold sdel in *. cbn [filter].
    destruct (seqb x y) eqn:E; [apply seqb_eq in E; subst; exfalso; apply N; left; reflexivity|]. cbn [negb]. f_equal. apply IH. intro Z. apply N. right. exact Z.
  Qed.
  Lemma sminus_apart t : forall s, (forall x, In x t -> ~ In x s) -> sminus s t = s.
  Proof.
    induction t as [|x t IH]; intros s N; [reflexivity|]. unfold sminus in *. cbn [fold_left]. rewrite sdel_absent by (apply N; left; reflexivity).
    apply IH. intros z Z. apply N. right. exact Z.
  Qed.
  Lemma strip_none cf l : (forall n r, In (n, r) l -> forall x, In x cf -> ~ In x (r_files r)) -> forall wm, fold_left (strip_one cf) l wm = wm.
  Proof.
    induction l as [|[n r] l IH]; intros N wm; [reflexivity|]. cbn [fold_left]. unfold strip_one at 2. cbn [snd].
    rewrite sminus_apart by (apply (N n r); left; reflexivity). rewrite Nat.eqb_refl. apply IH. intros n0 r0 I. apply (N n0 r0). right. exact I.
  Qed.
End Repeat.

Section Killed.
  Variables (junk : bool) (machine : str) (re : str -> str -> option bool) (sh : str -> fs -> fs * bool) (root : str).
  Hypothesis Rs : ends_slash root = true.
  Notation session := (session junk machine re sh root).
  Notation R := (comps root).
  (** what is listed is shipped, as something else than a directory unless it is spelled as one *)
  Definition listed (a : archive) : Prop := forall x, ships a x -> ~ (exists y, x = y ++ [slash]) -> exists n, In (x, n) a /\ n_kind n <> KDir.
  (** the package's own description and removal scripts are not directories *)
  Definition scripts_plain (a : archive) : Prop := forall x n c, In (x, n) a -> In c [L ".META"; L ".POSTR"; L ".PRER"] -> comps x = [c] -> n_kind n <> KDir.
  (** a file of the package, which the rules let through, is there *)
  Definition leftover (a : archive) rules (f : fs) (x : str) : Prop :=
    ships a x /\ verdict re INSTALL rules x true /\ ~ (exists y, x = y ++ [slash]) /\ fget f (R ++ comps x) <> None.
  Lemma own_three c : In c [L ".POSTR"; L ".PRER"] -> ~ where_meta (R ++ [c]).
  Proof.
    intros I (m & M & E). destruct R as [|r t]; [|injection E as _ E; destruct t; discriminate E]. injection E as ->.
    cbn [In] in I. cbn [In] in M. decompose [or] I; subst; decompose [or] M; try discriminate; contradiction.
  Qed.
  Lemma meta_entry a name : archive_name a name -> exists n, In (L ".META", n) a.
  Proof. intros (ls & b & c & (n & t & (u & v & -> & _) & _) & _). exists n. apply in_app_iff. right. left. reflexivity. Qed.
  Lemma shipped_no_meta a x v : ships a x -> x <> "."%char :: v.
  Proof. intros [ls [_ [_ H]]]. apply H. Qed.

  Lemma repeat_gen F a rules sd conf f f' d w1 : no_dot_name a -> tidy a -> plain_names a -> listed a -> scripts_plain a ->
    read_rules_file conf = inl rules -> tree f -> room re root a rules f -> unfinished re root a rules f f' ->
    session (Add (Opts false false false) sd conf a) (World f d) = (None, w1) ->
    exists cf, (forall x, In x cf <-> leftover a rules f' x) /\
      (cf <> [] -> F = false -> session (Add (Opts F false false) sd conf a) (World f' d) = (Some (Conflict cf), World (cleanup_meta f' root) d)) /\
      (cf = [] \/ F = true -> exists w2, session (Add (Opts F false false) sd conf a) (World f' d) = (None, w2) /\ w_db w2 = w_db w1 /\
        forall q, ~ where_own root q -> same_at (w_fs w1) (w_fs w2) q).
  Proof.
    intros ND Ti Pl Li Sp Hr T Ro Un E. pose proof Un as [T' _].
    apply session_add_none in E as (m & name & m' & Lo & E). cbn [w_fs w_db] in Lo, E.
    apply DbRun.add_run_ret in E as (info & rules' & ins & non & post & w1' & w2 & m2 & kl & w3 & m3 & w5 & m5 & Eo & Er & En & Ei & Ep & Ec & Eu & Em & Ew & _).
    rewrite Hr in Er. injection Er as <-. cbn [o_upgrade o_scripts o_force] in *.
    assert (w1' = World (cleanup_meta f root) d) as -> by (inversion Ep; reflexivity). clear Ep.
    destruct Ec as [(C0 & -> & ->)|(_ & Z & _)]; [|discriminate Z]. destruct Eu as [(_ & -> & -> & ->)|(Z & _)]; [|discriminate Z].
    cbn [w_fs w_db] in *. rewrite set_dep_pkgs in C0.
    pose proof (open_name _ _ _ _ _ _ Eo) as [An Sh]. pose proof (install_rules_spec _ _ _ _ _ _ Ei) as [Ai [Ni _]].
    assert (Non : forall x, In x non <-> ships a x /\ verdict re INSTALL rules x false) by (intro x; rewrite Ni, Sh; tauto).
    assert (Nn : nodot name) by (intros v ->; exact (ND v An)).
    assert (Unk : ~ known d name).
    { intro K. apply (name_exists_known junk d m name Lo) in K. unfold name_exists in K, En. rewrite set_dep_alias in En. rewrite En in K. discriminate K. }
    assert (Gn : mget name d = None).
    { destruct (mget name d) as [dir|] eqn:G; [|reflexivity]. exfalso. apply Unk. exists name. split; [exact Nn|]. split; [congruence|left; reflexivity]. }
    assert (Gp : mget name (m_pkgs m) = None).
    { destruct (mget name (m_pkgs m)) as [r|] eqn:G; [|reflexivity]. pose proof (load_spec _ _ _ Lo) as [_ [P _]]. apply P in G as [_ [dir [G _]]]. congruence. }
    assert (NL : forall x, ~ lists d name x) by (intros x (dir & c & G & _); congruence).
    set (cf := conflicts root name ins (cleanup_meta f' root) (m_pkgs m)).
    (* nothing of another package *)
    assert (Others : forall n r, In (n, r) (m_pkgs m) -> forall x, In x cf -> ~ In x (r_files r)).
    { intros n r I x Ix Ir. apply conflicts_In in Ix as (I1 & I2 & _ & _).
      assert (Nn' : n <> name) by (intros ->; apply (In_mget name r) in I; [congruence|apply ssorted_NoDup, (load_keys _ _ _ Lo)]).
      assert (Z : In x (conflicts root name ins (cleanup_meta f root) (m_pkgs m))).
      { apply conflicts_In. split; [exact I1|]. split; [exact I2|]. split; [left; exists n, r; split; [exact I|]; split; assumption|]. intros r' G. congruence. }
      rewrite C0 in Z. destruct Z. }
    destruct (cleanup_spec f root T) as [Tc Fc]. destruct (cleanup_spec f' root T') as [Tc' Fc'].
    assert (Shp : forall x, ships a x -> fget (cleanup_meta f' root) (R ++ comps x) = fget f' (R ++ comps x)).
    { intros x S. destruct (Pl x S) as [cs P]. apply (cleanup_keep root f' _ T'). rewrite (plain_comps _ _ P).
      apply (own_plain root x cs); [|exact P]. intros v Ex. exact (shipped_no_meta a x v S Ex). }
    assert (CF : forall x, In x cf <-> leftover a rules f' x).
    { intro x. unfold cf.
      rewrite (conflicts_spec junk machine re root Rs rules a info name m (World (cleanup_meta f' root) d) ins non post x Lo Eo ND Ei).
      unfold conflicting, leftover, present. cbn [w_fs w_db]. split.
      - intros (S & V & N & [(n & N1 & N2 & Ln)|P] & _); (split; [exact S|]; split; [exact V|]; split; [exact N|]).
        + exfalso. assert (Z : In x (conflicts root name ins (cleanup_meta f root) (m_pkgs m))).
          { apply (conflicts_spec junk machine re root Rs rules a info name m (World (cleanup_meta f root) d) ins non post x Lo Eo ND Ei).
            split; [exact S|]. split; [exact V|]. split; [exact N|]. split; [left; exists n; split; [exact N1|]; split; assumption|apply NL]. }
          rewrite C0 in Z. destruct Z.
        + rewrite <- (Shp x S). exact P.
      - intros (S & V & N & P). split; [exact S|]. split; [exact V|]. split; [exact N|]. split; [|apply NL]. right. rewrite (Shp x S). exact P. }
    assert (Cu : forall x, In x cf -> exists n, unpacks re a rules x n).
    { intros x I. apply CF in I as (S & V & N & _). destruct (Li x S N) as (n & In_ & _). exists n. split; [exact In_|]. intros [_ V2].
      pose proof (verdict_det re _ _ _ _ _ V V2) as Z; discriminate Z. }
    assert (ST : strip_refs root cf [] (World (cleanup_meta f' root) d, set_dep sd m) = (World (del_files root cf (cleanup_meta f' root)) d, set_dep sd m)).
    { unfold strip_refs. cbn [snd]. rewrite set_dep_pkgs, (strip_none cf (m_pkgs m) Others). reflexivity. }
    (* side by side *)
    pose proof (beside_start re root a rules Ti Rs f f' cf T Ro Un Cu) as B.
    destruct (beside_install re root a rules Ti non Non a _ _ _ B) as (K & _ & K2 & B2).
    set (g := install_archive root a [] non (cleanup_meta f root)) in *.
    set (h := install_archive root a [] non (del_files root cf (cleanup_meta f' root))) in *.
    destruct B2 as (Tg & Th & _ & _ & _ & D).
    assert (DD : forall q, agree re root a rules g h q \/ (where_meta q /\ ~ K q)).
    { intro q. destruct (D q) as [A|[(x & n & [] & _)|[(_ & _ & x & n & [] & _)|M]]]; [left; exact A|right; exact M]. }
    assert (H3 : three root g h).
    { intros c Ic. assert (ND3 : ~ dir_entry re root a rules (R ++ [c])).
      { intros (x & n & U & Kn & Eq). apply app_inv_head in Eq. exact (Sp x n c (proj1 U) Ic (eq_sym Eq) Kn). }
      destruct (DD (R ++ [c])) as [[A|[Z _]]|[M NK]]; [exact A|contradiction|]. exfalso.
      destruct Ic as [<-|Ic].
      - apply NK. destruct (meta_entry a name An) as [n I]. assert (Cm : comps (L ".META") = [L ".META"]) by reflexivity.
        pose proof (K2 (L ".META") n I) as Z. unfold place in Z. rewrite Cm in Z. apply Z. split; [exact I|]. intros [S _].
        exact (shipped_no_meta a (L ".META") (L "META") S eq_refl).
      - exact (own_three c Ic M). }
    destruct (move_same root Rs name g h d (set_dep sd m) w5 m5 Tg Th H3 Em) as (w6 & Em6 & Db6).
    exists cf. split; [exact CF|]. split.
    - intros Ne ->. unfold DbModel.session. cbn [w_db w_fs]. rewrite Lo. unfold add_run. rewrite Eo, Hr, En. cbn [o_upgrade o_scripts o_force andb negb].
      rewrite Ei, set_dep_pkgs. cbn [w_fs]. fold cf. destruct cf as [|c cs]; [congruence|]. reflexivity.
    - intro HF. exists (post_run sh root false (World (w_fs w6) (put_file name (L "files") (text_of ins) (w_db w6)))). split; [|split].
      + unfold DbModel.session. cbn [w_db w_fs]. rewrite Lo. unfold add_run. rewrite Eo, Hr, En. cbn [o_upgrade o_scripts o_force andb negb].
        rewrite Ei, set_dep_pkgs. cbn [w_fs]. fold cf.
        assert (Eh : h = install_archive root a [] non (del_files root cf (cleanup_meta f' root))) by reflexivity.
        destruct cf as [|c cs].
        * cbn [w_fs w_db]. change (del_files root [] (cleanup_meta f' root)) with (cleanup_meta f' root) in Eh. rewrite <- Eh, Em6. reflexivity.
        * destruct HF as [Z| ->]; [discriminate Z|]. rewrite ST. cbn [w_fs w_db]. rewrite <- Eh, Em6. reflexivity.
      + rewrite Ew, !post_run_db. cbn [add_files_refs fst w_db with_files r_files]. rewrite Db6. reflexivity.
      + intros q Nq. rewrite Ew. cbn [add_files_refs fst w_db w_fs with_files r_files].
        assert (Q1 : fget (w_fs (post_run sh root false (World (w_fs w5) (put_file name (L "files") (text_of ins) (w_db w5))))) q = fget g q)
          by (apply (final_fs sh root Rs name (World g d) (set_dep sd m) w5 m5 _ q Tg Em Nq)).
        assert (Q2 : fget (w_fs (post_run sh root false (World (w_fs w6) (put_file name (L "files") (text_of ins) (w_db w6))))) q = fget h q)
          by (apply (final_fs sh root Rs name (World h d) (set_dep sd m) w6 m5 _ q Th Em6 Nq)).
        unfold same_at. rewrite Q1, Q2. destruct (DD q) as [[A|[_ A]]|[M _]]; [left; exact A|right; exact A|].
        exfalso. apply Nq. left. exact M.
  Qed.

  (** *** the theorems *)
  (** no entry lies below one of the stray names that opening the database cleans *)
  Definition clear_names (a : archive) : Prop := forall x n q, In (x, n) a -> where_meta q -> ~ below q (R ++ comps x).
  (** the file systems a first installation of [a] into [f] goes through while it unpacks the archive (pkgadd.cxx:127-131; the database is not
      written meanwhile, and the process may be killed at any of them) *)
  Inductive killed_at (a : archive) (rules : list rule) (f : fs) : fs -> Prop :=
  | k_between before after non : (forall x, In x non <-> ships a x /\ verdict re INSTALL rules x false) -> a = before ++ after ->
      killed_at a rules f (install_archive root before [] non (cleanup_meta f root))
  | k_within before x n after non g : (forall x, In x non <-> ships a x /\ verdict re INSTALL rules x false) -> a = before ++ (x, n) :: after ->
      unpacks re a rules x n -> within root (install_archive root before [] non (cleanup_meta f root)) x n g -> killed_at a rules f g.
  (** wherever it is killed, it has left nothing but places of the package, new directories above them, and cleaned stray names *)
  Theorem C115_reached a rules f f' : tidy a -> clear_names a -> tree f -> room re root a rules f -> killed_at a rules f f' -> unfinished re root a rules f f'.
  Proof.
    intros Ti NM T Ro H. destruct H as [before after non Non E|before x n after non g Non E U Wi].
    - apply (unfinished_install machine re sh root a rules Ti non Non NM f before T Ro); [intros e I; rewrite E; apply in_app_iff; left; exact I|].
      apply unfinished_cleanup, T.
    - apply (unfinished_within machine re sh root a rules Ti NM f (install_archive root before [] non (cleanup_meta f root)) g x n Ro); [|exact U|exact Wi].
      apply (unfinished_install machine re sh root a rules Ti non Non NM f before T Ro); [intros e I; rewrite E; apply in_app_iff; left; exact I|].
      apply unfinished_cleanup, T.
  Qed.
  (** repeated with --force, the installation ends as if it had never been killed *)
  Theorem C115_force a rules sd conf f f' d w1 : no_dot_name a -> tidy a -> plain_names a -> listed a -> scripts_plain a ->
    read_rules_file conf = inl rules -> tree f -> room re root a rules f -> unfinished re root a rules f f' ->
    session (Add (Opts false false false) sd conf a) (World f d) = (None, w1) ->
    exists w2, session (Add (Opts true false false) sd conf a) (World f' d) = (None, w2) /\ w_db w2 = w_db w1 /\
      forall q, ~ where_own root q -> same_at (w_fs w1) (w_fs w2) q.
  Proof.
    intros ND Ti Pl Li Sp Hr T Ro Un E. destruct (repeat_gen true a rules sd conf f f' d w1 ND Ti Pl Li Sp Hr T Ro Un E) as (cf & _ & _ & H).
    apply H. right. reflexivity.
  Qed.
  (** repeated without, it is refused for exactly the files of the package that are there, and changes nothing but stray names;
      if there are none it ends as if it had never been killed *)
  Theorem C115_refused a rules sd conf f f' d w1 : no_dot_name a -> tidy a -> plain_names a -> listed a -> scripts_plain a ->
    read_rules_file conf = inl rules -> tree f -> room re root a rules f -> unfinished re root a rules f f' ->
    session (Add (Opts false false false) sd conf a) (World f d) = (None, w1) ->
    (exists x, leftover a rules f' x) ->
    exists cf w2, session (Add (Opts false false false) sd conf a) (World f' d) = (Some (Conflict cf), w2) /\
      (forall x, In x cf <-> leftover a rules f' x) /\ w_db w2 = d /\ forall q, ~ where_meta q -> fget (w_fs w2) q = fget f' q.
  Proof.
    intros ND Ti Pl Li Sp Hr T Ro Un E [x Lx]. destruct (repeat_gen false a rules sd conf f f' d w1 ND Ti Pl Li Sp Hr T Ro Un E) as (cf & CF & H & _).
    exists cf, (World (cleanup_meta f' root) d). split; [|split; [exact CF|split; [reflexivity|]]].
    - apply H; [|reflexivity]. intro Z. apply CF in Lx. rewrite Z in Lx. destruct Lx.
    - intros q N. cbn [w_fs]. apply (cleanup_spec f' root (proj1 Un)). intro I. exact (N (meta_where q I)).
  Qed.
  Theorem C115_again a rules sd conf f f' d w1 : no_dot_name a -> tidy a -> plain_names a -> listed a -> scripts_plain a ->
    read_rules_file conf = inl rules -> tree f -> room re root a rules f -> unfinished re root a rules f f' ->
    session (Add (Opts false false false) sd conf a) (World f d) = (None, w1) ->
    (forall x, ~ leftover a rules f' x) ->
    exists w2, session (Add (Opts false false false) sd conf a) (World f' d) = (None, w2) /\ w_db w2 = w_db w1 /\
      forall q, ~ where_own root q -> same_at (w_fs w1) (w_fs w2) q.
  Proof.
    intros ND Ti Pl Li Sp Hr T Ro Un E N. destruct (repeat_gen false a rules sd conf f f' d w1 ND Ti Pl Li Sp Hr T Ro Un E) as (cf & CF & _ & H).
    apply H. left. destruct cf as [|x cf]; [reflexivity|]. exfalso. apply (N x), CF. left. reflexivity.
  Qed.
End Killed.

(** *** a concrete case: foo is killed while usr/bin/tool is being written *)
Definition f_killed : fs := snd (extract (install_archive rt (firstn 4 foo) [] [] (cleanup_meta f_empty rt)) (orig_name rt tool) (reg (L "foo t"))).
Lemma foo_ships x : ships foo x <-> In x [L "usr/"; L "usr/bin/"; L "usr/bin/tool"; L "usr/foo.txt"].
Proof.
  erewrite ships_shipped by opened. assert (E : shipped foo = [L "usr/"; L "usr/bin/"; L "usr/bin/tool"; L "usr/foo.txt"]) by (vm_compute; reflexivity).
  rewrite E. tauto.
Qed.
Lemma foo_all x n : In (x, n) foo -> unpacks pfx foo [] x n.
Proof. intro I. split; [exact I|]. intros [_ V]. assert (V2 : verdict pfx INSTALL [] x true) by (apply verdict_default; intros r []). pose proof (verdict_det pfx _ _ _ _ _ V V2) as Z. discriminate Z. Qed.
Definition roomb (a : archive) (f : fs) : bool := forallb (fun e => wayb f (comps (fst e)) &&
  match fget f (comps (fst e)) with None => true | Some o => Bool.eqb (is_dir o) (is_dir (snd e)) end) a.
Lemma roomb_room a f : roomb a f = true -> room pfx rt a [] f.
Proof.
  intros H x n [I _]. unfold roomb in H. rewrite forallb_forall in H. specialize (H _ I). cbn [fst snd] in H. apply andb_true_iff in H as [A B].
  assert (P : place rt x = comps x) by reflexivity. rewrite P. split; [exact (wayb_way _ _ A)|]. split.
  - intro K. apply is_dir_kind in K. destruct (fget f (comps x)) as [o|] eqn:G; [right|left; reflexivity]. exists o. split; [exact G|].
    apply is_dir_kind. rewrite K in B. destruct (is_dir o); [reflexivity|discriminate B].
  - intros K [o [G D]]. rewrite G in B. apply is_dir_kind in D. apply is_dir_false in K. rewrite D, K in B. discriminate B.
Qed.
Definition w_force : world := snd (ses (Add forced false None foo) (World f_killed [])).
Theorem C115_case : no_dot_name foo /\ tidy foo /\ plain_names foo /\ listed foo /\ scripts_plain foo /\ clear_names rt foo /\
  read_rules_file None = inl [] /\ tree f_empty /\ room pfx rt foo [] f_empty /\ killed_at pfx rt foo [] f_empty f_killed /\
  ses (Add simple false None foo) w_empty = (None, w_foo) /\
  ses (Add simple false None foo) (World f_killed []) = (Some (Conflict [tool]), World (cleanup_meta f_killed rt) []) /\
  ses (Add forced false None foo) (World f_killed []) = (None, w_force) /\ fget (w_fs w_force) [L "usr"; L "bin"; L "tool"] = Some (reg (L "foo tool")).
Proof.
  split; [exact foo_no_dot|]. split; [apply tidyb_tidy; vm_compute; reflexivity|].
  split. { intros x S. apply foo_ships in S. apply (proj1 (foo_well_spelled x (proj2 (foo_lists x) S))). }
  split.
  { intros x S N. apply foo_ships in S. destruct S as [<-|[<-|[<-|[<-|[]]]]].
    - exfalso. apply N. exists (L "usr"). reflexivity.
    - exfalso. apply N. exists (L "usr/bin"). reflexivity.
    - exists (reg (L "foo tool")). split; [unfold foo, pkg; cbn [In app]; tauto|discriminate].
    - exists (reg (L "about foo")). split; [unfold foo, pkg; cbn [In app]; tauto|discriminate]. }
  split.
  { intros x n c I Ic E K. unfold foo, pkg in I. cbn [In app] in I, Ic.
    assert (C : n = dirn -> x = L "usr/" \/ x = L "usr/bin/").
    { intro En. decompose [or] I; try contradiction; match goal with H : (_, _) = (_, _) |- _ => injection H as Hx Hn end; subst; auto; exfalso; rewrite <- Hn in K; discriminate K. }
    assert (n = dirn) as En.
    { decompose [or] I; try contradiction; match goal with H : (_, _) = (_, _) |- _ => injection H as Hx Hn end; subst; try reflexivity; discriminate K. }
    destruct (C En) as [->| ->]; vm_compute in E; decompose [or] Ic; subst; try discriminate; contradiction. }
  split.
  { intros x n q I (m & M & ->) B. assert (C : comps x = [L ".META"] \/ comps x = [L ".MTREE"] \/ exists t, comps x = L "usr" :: t).
    { unfold foo, pkg in I. cbn [In app] in I. decompose [or] I; try contradiction; match goal with H : (_, _) = (_, _) |- _ => injection H as <- _ end.
      - left. reflexivity.
      - right. left. reflexivity.
      - right. right. exists []. reflexivity.
      - right. right. exists [L "bin"]. reflexivity.
      - right. right. exists [L "bin"; L "tool"]. reflexivity.
      - right. right. exists [L "foo.txt"]. reflexivity. }
    destruct B as [r [Nr Er]]. change (comps rt ++ comps x) with (comps x) in Er. destruct C as [C|[C|[t C]]]; rewrite C in Er; cbn [app] in Er.
    - destruct r; [congruence|discriminate Er].
    - destruct r; [congruence|discriminate Er].
    - injection Er as <- _. cbn [In] in M. decompose [or] M; try discriminate; contradiction. }
  split; [reflexivity|]. split; [apply treeb_tree; vm_compute; reflexivity|]. split; [apply roomb_room; vm_compute; reflexivity|].
  split.
  { apply (k_within pfx rt foo [] f_empty (firstn 4 foo) tool (reg (L "foo tool")) (skipn 5 foo) []).
    - intro x. split; [intros []|]. intros [S V]. assert (V2 : verdict pfx INSTALL [] x true) by (apply verdict_default; intros r []).
      pose proof (verdict_det pfx _ _ _ _ _ V V2) as Z. discriminate Z.
    - reflexivity.
    - apply foo_all. unfold foo, pkg, tool. cbn [In app]. tauto.
    - apply (w_part rt _ _ _ (reg (L "foo t"))); [split; discriminate|]. vm_compute. reflexivity. }
  split; [vm_compute; reflexivity|]. split; [vm_compute; reflexivity|]. split; vm_compute; reflexivity.
Qed.
(** *** an upgrade killed after it removed the old record cannot be repeated as an upgrade; installed anew it loses the protected file *)
Theorem C115_upgrade_refuted : exists m w_mid m_mid, load false (w_db w_foo) = Ok m /\
  remove_refs false (L "foo") (remove_files rt (L "foo") [tool] (w_foo, m)) = Some (w_mid, m_mid) /\
  fst (ses (Add upgr false (Some keep_conf) foo2) w_mid) = Some NotInstalled /\
  fst (ses (Add simple false (Some keep_conf) foo2) w_mid) = Some (Conflict [tool]) /\
  fst (ses (Add forced false (Some keep_conf) foo2) w_mid) = None /\
  fget (w_fs (snd (ses (Add forced false (Some keep_conf) foo2) w_mid))) [L "usr"; L "bin"; L "tool"] = Some (reg (L "foo tool 2")) /\
  fget (w_fs w_kept) [L "usr"; L "bin"; L "tool"] = Some (reg (L "foo tool")).
Proof.
  eexists. eexists. eexists. split; [vm_compute; reflexivity|]. split; [vm_compute; reflexivity|].
  split; [vm_compute; reflexivity|]. split; [vm_compute; reflexivity|]. split; [vm_compute; reflexivity|]. split; vm_compute; reflexivity.
Qed.
