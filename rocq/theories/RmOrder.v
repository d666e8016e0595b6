(** C119: removing two packages, in either order (pkgrm.cxx:59-87, pkgdbh.cxx:903-972, on the model of DbModel.v). *)
From Verif Require Import Base BaseProofs StrModel StrSpec StrProofs RulesModel RulesSpec RulesProofs FsModel FsSpec FsProofs FsOps FsExtract
  MetaModel MetaSpec MetaProofs DbModel DbSpec DbLoad DbOps DbRun DbInv EngineFs EngineRoot DbFacts DbProps DbExamples RemoveProps
  DisturbProps RmAgain RemoveExact.

(** *** specification *)
(** with a path a package also lists every directory it is in *)
Definition lists_parents (d : disk) (n : str) : Prop := forall x q, lists d n x -> q <> [] -> below q (comps x) -> exists y, lists d n y /\ comps y = q.
(** two packages write a path they both list in the same way *)
Definition same_spelling (d : disk) (a b : str) : Prop := forall x y, lists d a x -> lists d b y -> comps x = comps y -> x = y.
(** listed by one of the two, or both, and by no other package *)
Definition theirs (d : disk) (a b x : str) : Prop := (lists d a x \/ lists d b x) /\ forall n, nodot n -> n <> a -> n <> b -> ~ lists d n x.
(** no hidden files in the record *)
Definition none_hidden (d : disk) (n : str) : Prop := forall dir x, mget n d = Some dir -> In x (keys dir) -> nodot x.
(** something of the set of paths, with nothing else below it *)
Definition goes (root : str) (f : fs) (P : str -> Prop) (q : path) : Prop :=
  (exists x, P x /\ at_path root x q) /\ forall p, below q p -> fget f p <> None -> exists x, P x /\ at_path root x p.

Lemma lists_dec d n x : lists d n x \/ ~ lists d n x.
Proof.
  unfold lists. destruct (mget n d) as [dir|] eqn:G; [|right; intros (dir & c & A & _); discriminate A].
  destruct (mget (L "files") dir) as [c|] eqn:F; [|right; intros (dr & c & A & B & _); injection A as <-; congruence].
  destruct (in_dec str_eq_dec x (getlines c)) as [I|I]; [|right; intros (dr & c' & A & B & C & _); injection A as <-; rewrite F in B; injection B as <-; exact (I C)].
  destruct (str_eq_dec x []) as [->|N]; [right; intros (dr & c' & _ & _ & _ & C); exact (C eq_refl)|]. left. exists dir, c. auto.
Qed.
Lemma mdel_swap {A} (a b : str) (l : list (str * A)) : mdel a (mdel b l) = mdel b (mdel a l).
Proof.
  unfold mdel. induction l as [|[k v] l IH]; [reflexivity|]. cbn [filter fst].
  destruct (negb (seqb b k)) eqn:Eb, (negb (seqb a k)) eqn:Ea; cbn [filter fst]; rewrite ?Ea, ?Eb, IH; reflexivity.
Qed.
Lemma dropped_mdel d n : none_hidden d n -> mget n d <> None -> dropped n d = mdel n d.
Proof.
  intros H G. unfold dropped. destruct (mget n d) as [dir|] eqn:E; [|congruence].
  assert (F : filter (fun e => negb (nondot (fst e))) dir = []).
  { assert (K : forall x, In x (keys dir) -> nondot x = true) by (intros x I; apply nondot_spec, (H dir x E I)). clear -K. induction dir as [|[k v] dir IH]; [reflexivity|].
    cbn [filter fst]. rewrite (K k (or_introl eq_refl)). cbn [negb]. apply IH. intros x I. apply K. right. exact I. }
  rewrite F. reflexivity.
Qed.

Section Order.
  Variables (junk : bool) (machine : str) (re : str -> str -> option bool) (sh : str -> fs -> fs * bool) (root : str).
  Notation session := (session junk machine re sh root).
  Notation R := (comps root).
  Hypothesis Rs : ends_slash root = true.

  (** one removal *)
  Lemma one scripts conf name w w' : nodot name -> no_rm_scripts scripts (w_db w) name -> tree (w_fs w) -> no_leftover root (w_fs w) -> none_hidden (w_db w) name ->
    (forall y, lists (w_db w) name y -> well_spelled root (w_fs w) y) -> session (Remove scripts conf name) w = (None, w') ->
    tree (w_fs w') /\ no_leftover root (w_fs w') /\ w_db w' = mdel name (w_db w) /\
    (forall q, fget (w_fs w') q = fget (w_fs w) q \/ fget (w_fs w') q = None) /\
    (forall q, fget (w_fs w') q = None <-> fget (w_fs w) q = None \/ goes root (w_fs w) (lists_alone (w_db w) name) q) /\
    (exists m, load junk (w_db w) = Ok m) /\ mget name (w_db w) <> None /\ exists rules, read_rules_file conf = inl rules.
  Proof.
    intros Nd NS T NL Nh Ws E. pose proof (C06_directory_emptied junk machine re sh root Rs scripts conf name w w') as C06.
    destruct (rm_session_full junk machine re sh root scripts conf name w w' Nd NS E) as (l & Sl & Il & F & _ & _ & m & Lo & Nx & (rules & Rr) & El).
    assert (Cl : cleanup_meta (w_fs w) root = w_fs w) by (pose proof (leftover_clean root Rs w NL) as Z; apply (f_equal w_fs) in Z; exact Z). rewrite Cl in F.
    assert (G : mget name (w_db w) <> None).
    { pose proof E as E0. unfold DbModel.session in E0. cbn [w_db w_fs] in E0. rewrite Lo in E0. destruct (rm_run _ _ _ _ _ _ _ _) as [[] wx mx|e wx] eqn:Er in E0; [|discriminate E0].
      apply rm_run_mem in Er. exact (proj1 Er). }
    assert (D : w_db w' = mdel name (w_db w)).
    { destruct (mget name (w_db w)) as [dir|] eqn:Gd; [|congruence]. destruct w as [f d]. cbn [w_db w_fs] in *.
      rewrite (rm_done junk machine re sh root scripts conf name f d m rules dir Lo Nx Rr NS Gd) in E. apply pair_equal_spec in E as [_ E]. apply (f_equal w_db) in E. cbn [w_db] in E. rewrite <- E.
      apply dropped_mdel; [exact Nh|congruence]. }
    assert (T' : tree (w_fs w')) by (rewrite F; apply del_files_tree; assumption).
    assert (Sub : forall q, fget (w_fs w') q = fget (w_fs w) q \/ fget (w_fs w') q = None) by (intro q; rewrite F; apply del_files_sub; exact Rs).
    assert (Fr : forall q, fget (w_fs w') q = None -> fget (w_fs w) q <> None -> exists x, lists_alone (w_db w) name x /\ at_path root x q).
    { intros q H N. destruct (Exists_dec (fun x => R ++ comps x = q) l (fun x => list_eq_dec str_eq_dec (R ++ comps x) q)) as [X|X].
      - apply Exists_exists in X as (x & I & X). exists x. split; [apply Il, I|]. unfold at_path. symmetry. exact X.
      - exfalso. apply N. rewrite <- H, F. symmetry. apply del_files_frame; [exact Rs|]. intros x I Z. apply X, Exists_exists. exists x. split; [exact I|symmetry; exact Z]. }
    split; [exact T'|]. split; [rewrite F; apply leftover_del; assumption|]. split; [exact D|]. split; [exact Sub|]. split; [|split; [exists m; exact Lo|split; [exact G|exists rules; exact Rr]]].
    intro q. split.
    - intro H. destruct (fget (w_fs w) q) eqn:Gq; [|left; reflexivity]. right. split; [apply Fr; [exact H|congruence]|]. intros p B N. apply Fr; [|exact N].
      apply (tree_no_child_nondir (w_fs w') q T'); [|exact B]. intros (n0 & Z & _). congruence.
    - intros [H|[(x & Ax & Px) H]]; [destruct (Sub q) as [Z|Z]; [rewrite Z; exact H|exact Z]|]. unfold at_path in Px. subst q. apply (C06 x Nd NS T E Ws Ax). exact H.
  Qed.

  (** two removals: what is gone then does not depend on the order *)
  Lemma two scripts conf a b w w1 w2 : a <> b -> nodot a -> nodot b -> no_rm_scripts scripts (w_db w) a -> no_rm_scripts scripts (w_db w) b ->
    tree (w_fs w) -> no_leftover root (w_fs w) -> none_hidden (w_db w) a -> none_hidden (w_db w) b ->
    (forall n y, n = a \/ n = b -> lists (w_db w) n y -> well_spelled root (w_fs w) y) -> same_spelling (w_db w) a b -> lists_parents (w_db w) b ->
    session (Remove scripts conf a) w = (None, w1) -> session (Remove scripts conf b) w1 = (None, w2) ->
    w_db w2 = mdel b (mdel a (w_db w)) /\ (forall q, fget (w_fs w2) q = fget (w_fs w) q \/ fget (w_fs w2) q = None) /\
    forall q, fget (w_fs w2) q = None <-> fget (w_fs w) q = None \/ goes root (w_fs w) (theirs (w_db w) a b) q.
  Proof.
    intros Nab Na Nb Sa Sb T NL Ha Hb Ws Sp Pb E1 E2.
    destruct (one scripts conf a w w1 Na Sa T NL Ha (fun y H => Ws a y (or_introl eq_refl) H) E1) as (T1 & NL1 & D1 & Sub1 & X1 & _ & _ & _).
    assert (Gb : mget b (w_db w1) = mget b (w_db w)) by (rewrite D1, mget_mdel, (proj2 (seqb_neq b a)) by auto; reflexivity).
    assert (Ln : forall n x, lists (w_db w1) n x <-> n <> a /\ lists (w_db w) n x).
    { intros n x. unfold lists. rewrite D1, mget_mdel. destruct (seqb n a) eqn:Q.
      - apply seqb_eq in Q. split; [intros (dir & c & Z & _); discriminate Z|intros [Z _]; congruence].
      - apply seqb_neq in Q. tauto. }
    assert (Sb1 : no_rm_scripts scripts (w_db w1) b) by (destruct Sb as [Z|Z]; [left; exact Z|right; rewrite Gb; exact Z]).
    assert (Hb1 : none_hidden (w_db w1) b) by (unfold none_hidden; rewrite Gb; exact Hb).
    assert (Ws1 : forall y, lists (w_db w1) b y -> well_spelled root (w_fs w1) y).
    { intros y H. apply Ln in H as [_ H]. destruct (Ws b y (or_intror eq_refl) H) as [W1 W2]. split; [exact W1|]. intros z Ez. destruct (Sub1 (R ++ comps y)) as [Z|Z]; [|left; exact Z].
      unfold dir_at. rewrite Z. exact (W2 z Ez). }
    destruct (one scripts conf b w1 w2 Nb Sb1 T1 NL1 Hb1 Ws1 E2) as (T2 & _ & D2 & Sub2 & X2 & _ & _ & _).
    split; [rewrite D2, D1; reflexivity|]. split.
    { intro q. destruct (Sub2 q) as [Z|Z]; [rewrite Z; exact (Sub1 q)|right; exact Z]. }
    assert (LB : forall x, lists_alone (w_db w1) b x <-> lists (w_db w) b x /\ forall n, nodot n -> n <> a -> n <> b -> ~ lists (w_db w) n x).
    { intro x. unfold lists_alone. rewrite Ln. split.
      - intros [[_ A] B]. split; [exact A|]. intros n Nn N1 N2 H. apply (B n Nn N2). apply Ln. auto.
      - intros [A B]. split; [split; [congruence|exact A]|]. intros n Nn N2 H. apply Ln in H as [N1 H]. exact (B n Nn N1 N2 H). }
    assert (TH : forall x, theirs (w_db w) a b x <-> lists_alone (w_db w) a x \/ lists_alone (w_db w1) b x).
    { intro x. rewrite LB. unfold theirs, lists_alone. split.
      - intros [A B]. destruct (lists_dec (w_db w) b x) as [H|H]; [right; auto|]. left. destruct A as [A|A]; [|destruct (H A)]. split; [exact A|].
        intros n Nn N1. destruct (str_eq_dec n b) as [->|N2]; [exact H|exact (B n Nn N1 N2)].
      - intros [[A B]|[A B]]; [split; [left; exact A|]; intros n Nn N1 N2; exact (B n Nn N1)|split; [right; exact A|exact B]]. }
    (* below a path that only a lists there is nothing of b *)
    assert (K : forall q, (exists x, lists_alone (w_db w) a x /\ at_path root x q) -> forall p y, lists (w_db w) b y -> at_path root y p -> p = q \/ below q p -> False).
    { intros q (x & [Ax Al] & Px) p y By Py Q. unfold at_path in Px, Py. subst p q.
      assert (Z : exists z, lists (w_db w) b z /\ comps z = comps x).
      { destruct Q as [Q|(r & Nr & Q)]; [apply app_inv_head in Q; exists y; auto|]. rewrite <- app_assoc in Q. apply app_inv_head in Q. apply (Pb y (comps x) By).
        - destruct (Ws a x (or_introl eq_refl) Ax) as [(cs & P) _]. rewrite (plain_comps _ _ P). inversion P; assumption.
        - exists r. auto. }
      destruct Z as (z & Bz & Cz). assert (x = z) by (apply Sp; auto). subst z. exact (Al b Nb (not_eq_sym Nab) Bz). }
    assert (KA : forall q, (exists x, lists_alone (w_db w) a x /\ at_path root x q) -> (forall p, below q p -> fget (w_fs w) p <> None -> exists x, theirs (w_db w) a b x /\ at_path root x p) ->
      fget (w_fs w1) q = None).
    { intros q Q H. apply X1. right. split; [exact Q|]. intros p B N. destruct (H p B N) as (x & Tx & Px). apply TH in Tx as [Tx|Tx]; [exists x; auto|].
      exfalso. apply LB in Tx as [Tx _]. exact (K q Q p x Tx Px (or_intror B)). }
    intro q. rewrite X2. split.
    - intros [H|[(x & Bx & Px) H]].
      + apply X1 in H as [H|[(x & Ax & Px) H]]; [left; exact H|right]. split; [exists x; split; [apply TH; left; exact Ax|exact Px]|]. intros p B N. destruct (H p B N) as (y & Ay & Py). exists y. split; [apply TH; left; exact Ay|exact Py].
      + right. split; [exists x; split; [apply TH; right; exact Bx|exact Px]|]. intros p B N. destruct (fget (w_fs w1) p) eqn:Gp.
        * destruct (H p B ltac:(congruence)) as (y & By & Py). exists y. split; [apply TH; right; exact By|exact Py].
        * apply X1 in Gp as [Gp|[(y & Ay & Py) _]]; [congruence|]. exists y. split; [apply TH; left; exact Ay|exact Py].
    - intros [H|[(x & Tx & Px) H]]; [left; apply X1; left; exact H|]. apply TH in Tx as [Tx|Tx].
      + left. apply KA; [exists x; auto|exact H].
      + right. split; [exists x; auto|]. intros p B N. assert (Np : fget (w_fs w) p <> None) by (destruct (Sub1 p) as [Z|Z]; congruence).
        destruct (H p B Np) as (y & Ty & Py). apply TH in Ty as [Ty|Ty]; [|exists y; auto]. exfalso. apply N. apply KA; [exists y; auto|].
        intros r Br Nr. apply (H r); [|exact Nr]. destruct B as (s & Ns & ->), Br as (s' & Ns' & ->). exists (s ++ s'). split; [destruct s; [congruence|discriminate]|apply app_assoc_reverse].
  Qed.

  (** What two removals leave: of the paths only the two list everything, unless something else is below it. *)
  Theorem C119_gone scripts conf a b w w1 w2 q : a <> b -> nodot a -> nodot b -> no_rm_scripts scripts (w_db w) a -> no_rm_scripts scripts (w_db w) b ->
    tree (w_fs w) -> no_leftover root (w_fs w) -> none_hidden (w_db w) a -> none_hidden (w_db w) b ->
    (forall n y, n = a \/ n = b -> lists (w_db w) n y -> well_spelled root (w_fs w) y) -> same_spelling (w_db w) a b -> lists_parents (w_db w) b ->
    session (Remove scripts conf a) w = (None, w1) -> session (Remove scripts conf b) w1 = (None, w2) ->
    (goes root (w_fs w) (theirs (w_db w) a b) q -> fget (w_fs w2) q = None) /\
    (~ goes root (w_fs w) (theirs (w_db w) a b) q -> fget (w_fs w2) q = fget (w_fs w) q).
  Proof.
    intros Nab Na Nb Sa Sb T NL Ha Hb Ws Sp Pb E1 E2. destruct (two scripts conf a b w w1 w2 Nab Na Nb Sa Sb T NL Ha Hb Ws Sp Pb E1 E2) as (_ & Sub & X). split.
    - intro H. apply X. right. exact H.
    - intro H. destruct (Sub q) as [Z|Z]; [exact Z|]. apply X in Z as Y. destruct Y as [Y|Y]; [congruence|destruct (H Y)].
  Qed.
  (** The two removals succeed in the other order as well, with the same database and the same file system. *)
  Theorem C119_order scripts conf a b w w1 w2 : a <> b -> nodot a -> nodot b -> no_rm_scripts scripts (w_db w) a -> no_rm_scripts scripts (w_db w) b ->
    tree (w_fs w) -> no_leftover root (w_fs w) -> none_hidden (w_db w) a -> none_hidden (w_db w) b ->
    (forall n y, n = a \/ n = b -> lists (w_db w) n y -> well_spelled root (w_fs w) y) -> same_spelling (w_db w) a b ->
    lists_parents (w_db w) a -> lists_parents (w_db w) b ->
    session (Remove scripts conf a) w = (None, w1) -> session (Remove scripts conf b) w1 = (None, w2) ->
    exists v1 v2, session (Remove scripts conf b) w = (None, v1) /\ session (Remove scripts conf a) v1 = (None, v2) /\
      w_db v2 = w_db w2 /\ forall q, fget (w_fs v2) q = fget (w_fs w2) q.
  Proof.
    intros Nab Na Nb Sa Sb T NL Ha Hb Ws Sp Pa Pb E1 E2.
    destruct (one scripts conf a w w1 Na Sa T NL Ha (fun y H => Ws a y (or_introl eq_refl) H) E1) as (T1 & NL1 & D1 & Sub1 & _ & (m & Lo) & Ga & rules & Rr).
    assert (Gb1 : mget b (w_db w1) = mget b (w_db w)) by (rewrite D1, mget_mdel, (proj2 (seqb_neq b a)) by auto; reflexivity).
    assert (Gb : mget b (w_db w) <> None).
    { rewrite <- Gb1. unfold DbModel.session in E2. cbn [w_db w_fs] in E2. destruct (load junk (w_db w1)) as [m1| |]; [|discriminate E2|discriminate E2].
      destruct (rm_run _ _ _ _ _ _ _ _) as [[] wx mx|e wx] eqn:Er in E2; [|discriminate E2]. apply rm_run_mem in Er. exact (proj1 Er). }
    destruct (mget b (w_db w)) as [db|] eqn:Eb; [|congruence]. destruct (mget a (w_db w)) as [da|] eqn:Ea; [|congruence]. destruct w as [f d]. cbn [w_db w_fs] in *.
    assert (Nxb : name_exists m b = true) by (apply (name_exists_known junk d m b Lo); exists b; split; [exact Nb|]; split; [congruence|left; reflexivity]).
    pose proof (rm_done junk machine re sh root scripts conf b f d m rules db Lo Nxb Rr Sb Eb) as V1. rewrite (dropped_mdel d b Hb) in V1 by congruence.
    match type of V1 with _ = (None, World ?g _) => set (g1 := g) in V1 end.
    assert (Lo1 : exists m1, load junk (mdel b d) = Ok m1).
    { apply load_ok. intros n dr Nn Gn. rewrite mget_mdel in Gn. destruct (seqb n b); [discriminate Gn|]. destruct (load_record junk d m n Lo Nn) as [r Gr]; [congruence|].
      apply load_spec in Lo as [_ [P _]]. apply P in Gr as [_ [dr' [Ga' Lp]]]. exists r. congruence. }
    destruct Lo1 as [m1 Lo1]. assert (Ga1 : mget a (mdel b d) = Some da) by (rewrite mget_mdel, (proj2 (seqb_neq a b)) by auto; exact Ea).
    assert (Nxa : name_exists m1 a = true) by (apply (name_exists_known junk _ m1 a Lo1); exists a; split; [exact Na|]; split; [congruence|left; reflexivity]).
    assert (Sa1 : no_rm_scripts scripts (mdel b d) a) by (destruct Sa as [Z|Z]; [left; exact Z|right; rewrite Ga1; intros dir K; apply Z; congruence]).
    pose proof (rm_done junk machine re sh root scripts conf a g1 (mdel b d) m1 rules da Lo1 Nxa Rr Sa1 Ga1) as V2. eexists. eexists. split; [exact V1|]. split; [exact V2|].
    assert (Sp' : same_spelling d b a) by (intros x y H H' C; symmetry; apply Sp; auto).
    assert (Ws' : forall n y, n = b \/ n = a -> lists d n y -> well_spelled root f y) by (intros n y [->| ->]; apply Ws; auto).
    destruct (two scripts conf a b (World f d) w1 w2 Nab Na Nb Sa Sb T NL Ha Hb Ws Sp Pb E1 E2) as (Dw & Subw & Xw).
    destruct (two scripts conf b a (World f d) _ _ (not_eq_sym Nab) Nb Na Sb Sa T NL Hb Ha Ws' Sp' Pa V1 V2) as (Dv & Subv & Xv). cbn [w_db w_fs] in *.
    split; [rewrite Dv, Dw; apply mdel_swap|]. intro q.
    assert (Th : forall x, theirs d a b x <-> theirs d b a x) by (intro x; unfold theirs; split; intros [A B]; (split; [tauto|auto])).
    assert (Gs : goes root f (theirs d a b) q <-> goes root f (theirs d b a) q).
    { unfold goes. split; intros [(x & Hx & Px) H]; (split; [exists x; split; [apply Th, Hx|exact Px]|]); intros p B N; destruct (H p B N) as (y & Hy & Py); exists y; (split; [apply Th, Hy|exact Py]). }
    specialize (Xw q). specialize (Xv q). specialize (Subw q). specialize (Subv q).
    destruct (fget (w_fs w2) q) as [n|] eqn:Q2.
    - match goal with |- ?l = _ => destruct l as [n'|] eqn:Q1 end; [destruct Subw as [Z|Z]; [|discriminate Z]; destruct Subv as [Z'|Z']; [|discriminate Z']; congruence|].
      exfalso. assert (Z : Some n = None) by (apply Xw; rewrite Gs; apply Xv; reflexivity). discriminate Z.
    - apply Xv. rewrite <- Gs. apply Xw. reflexivity.
  Qed.
End Order.
