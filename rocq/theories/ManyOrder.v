(** C120: the order in which one command installs its packages (install.cxx:73-98, pkgadd.cxx:67-156, on the model of DbModel.v). *)
From Verif Require Import Base BaseProofs StrModel StrSpec StrProofs RulesModel RulesSpec RulesProofs FsModel FsSpec FsProofs FsOps MetaModel MetaSpec MetaProofs
  DbModel DbSpec DbLoad DbOps DbRun DbInv EngineFs EngineWay DbFacts DbProps DbExamples RemoveProps AddRun AddProps UpgradeProps RootProps ManyRun ManyMeta ManyFiles.
From Coq Require Import Permutation.

Fixpoint unlike (l : list (bool * archive)) : Prop :=
  match l with [] => True | p :: t => (forall q n, In q t -> archive_name (snd p) n -> ~ archive_name (snd q) n) /\ unlike t end.
Lemma unlike_distinct l : unlike l -> distinct l.
Proof.
  induction l as [|p t IH]; intros A u a v b w n E; [destruct u; discriminate E|]. destruct A as [A1 A2]. destruct u as [|u0 u].
  - injection E as -> ->. apply A1. apply in_or_app. right. left. reflexivity.
  - injection E as -> ->. apply (IH A2 u a v b w n eq_refl).
Qed.
Lemma distinct_unlike l : distinct l -> unlike l.
Proof.
  induction l as [|p t IH]; intro D; [exact I|]. split.
  - intros q n J. apply in_split in J as (v & w & ->). exact (D [] p v q w n eq_refl).
  - apply IH. intros u a v b w n ->. exact (D (p :: u) a v b w n eq_refl).
Qed.
Lemma unlike_perm l l' : Permutation l l' -> unlike l -> unlike l'.
Proof.
  intro P. induction P as [|p t t' P IH|p q t|l1 l2 l3 P1 IH1 P2 IH2]; [auto| | |auto].
  - intros [A B]. split; [|apply IH, B]. intros q n J. apply A. apply Permutation_in with (l := t'); [apply Permutation_sym, P|exact J].
  - intros [A [B C]]. split; [|split; [|exact C]].
    + intros r n [<-|J]; [intros H H'; exact (A p n (or_introl eq_refl) H' H)|exact (B r n J)].
    + intros r n J. exact (A r n (or_intror J)).
Qed.
Lemma distinct_perm l l' : Permutation l l' -> distinct l -> distinct l'.
Proof. intros P D. apply unlike_distinct, (unlike_perm l l' P), distinct_unlike, D. Qed.

Section Perm.
  Variables (machine : str) (re : str -> str -> option bool) (sh : str -> fs -> fs * bool) (root : str).
  Notation session := (session false machine re sh root).
  Hypothesis Rs : ends_slash root = true.
  Hypothesis R0 : comps root = [].
  Lemma tidy_cleaned w : tidy_world w -> tidy_world (World (cleanup_meta (w_fs w) root) (w_db w)).
  Proof.
    intros [T1 T2 T3 T4]. destruct (cleanup_spec (w_fs w) root T1) as [K1 K2]. constructor; [exact K1| |exact T3|exact T4]. intros c q Jc B. cbn [w_fs]. rewrite K2; [exact (T2 c q Jc B)|].
    destruct B as [y [Nx ->]]. cbn [app]. assert (L2 : forall y, In y meta_comps -> exists z, y = [z]) by (intros z Jy; cbn [meta_comps In] in Jy; repeat (destruct Jy as [<-|Jy]; [eexists; reflexivity|]); destruct Jy).
    intro Jq. destruct (L2 _ Jq) as [z Hz]. injection Hz as _ Hz. exact (Nx Hz).
  Qed.
  Lemma tidies_perm l l' : Permutation l l' -> tidies l -> tidies l'.
  Proof. intros P T sd a J. apply (T sd a). apply Permutation_in with (l := l'); [apply Permutation_sym, P|exact J]. Qed.
  (** one run, in terms that do not depend on the order *)
  Lemma many_run conf l w w1 : tidies l -> distinct l -> tidy_world w -> session (Many false false conf l []) w = (None, w1) ->
    exists m m1, load false (w_db w) = Ok m /\ run_all false machine re sh root false false conf l (World (cleanup_meta (w_fs w) root) (w_db w)) m = Ret tt w1 m1.
  Proof.
    intros T D W E. unfold DbModel.session in E. cbn [w_db w_fs] in E. destruct (load false (w_db w)) as [m| |] eqn:Lo; [|discriminate E|discriminate E].
    destruct (run_all false machine re sh root false false conf l _ m) as [[] wx mx|e wx] eqn:Ru; [|discriminate E]. cbn [drop_all finish] in E. injection E as ->. exists m, mx. split; [reflexivity|exact Ru].
  Qed.
  Lemma many_named conf l w w1 n : tidies l -> distinct l -> tidy_world w -> session (Many false false conf l []) w = (None, w1) ->
    (exists sd a, In (sd, a) l /\ archive_name a n) \/ forall sd a, In (sd, a) l -> ~ archive_name a n.
  Proof.
    intros T D W E. destruct (many_run conf l w w1 T D W E) as (m & m1 & Lo & Ru). pose proof (tidy_cleaned w W) as W0.
    assert (AG : agree (w_db w) m) by (apply (load_agree false); [apply W|exact Lo]).
    assert (Nm : forall sd a, In (sd, a) l -> exists k, archive_name a k).
    { intros sd a J. destruct (run_listed false machine re sh root false false conf l _ m w1 m1 sd a (tidies_named false machine root l T) D (w_inv _ W0) AG Ru J) as (k & _ & A & _). exists k. exact A. }
    clear - Nm. induction l as [|[sd a] t IH]; [right; intros sd a []|]. destruct (IH (fun sd' b J => Nm sd' b (or_intror J))) as [(sd' & b & J & A)|H]; [left; exists sd', b; split; [right; exact J|exact A]|].
    destruct (Nm sd a (or_introl eq_refl)) as [k Ak]. destruct (str_eq_dec n k) as [->|Nk]; [left; exists sd, a; split; [left; reflexivity|exact Ak]|].
    right. intros sd' b [Z|J]; [injection Z as <- <-; intro Z; exact (Nk (archive_name_unique _ _ _ Z Ak))|exact (H sd' b J)].
  Qed.
  (** The records: what META says of a package and which files it lists do not depend on the order. *)
  Theorem C120_records conf l l' w w1 w2 : Permutation l l' -> tidies l -> distinct l -> tidy_world w ->
    session (Many false false conf l []) w = (None, w1) -> session (Many false false conf l' []) w = (None, w2) ->
    forall n, dbfile (w_db w2) n (L "META") = dbfile (w_db w1) n (L "META") /\ forall x, lists (w_db w2) n x <-> lists (w_db w1) n x.
  Proof.
    intros P T D W E1 E2 n. pose proof (tidies_perm l l' P T) as T'. pose proof (distinct_perm l l' P D) as D'. pose proof (tidy_cleaned w W) as W0.
    destruct (many_run conf l w w1 T D W E1) as (m & m1 & Lo & R1). destruct (many_run conf l' w w2 T' D' W E2) as (m' & m2 & Lo' & R2). rewrite Lo in Lo'. injection Lo' as <-.
    assert (AG : agree (w_db w) m) by (apply (load_agree false); [apply W|exact Lo]).
    destruct (many_named conf l w w1 n T D W E1) as [(sd & a & J & An)|H].
    - assert (J' : In (sd, a) l') by (apply Permutation_in with (l := l); assumption). destruct (T sd a J) as [nd Ta]. split.
      + pose proof J as K. apply in_split in K as (u & v & ->). pose proof J' as K. apply in_split in K as (u' & v' & ->).
        destruct (run_meta false machine re sh root Rs R0 false conf u sd a v nd _ m w1 m1 T D Ta W0 Lo R1) as (n1 & ls & b & A1 & P1 & F1 & B1).
        destruct (run_meta false machine re sh root Rs R0 false conf u' sd a v' nd _ m w2 m2 T' D' Ta W0 Lo R2) as (n2 & ls2 & b2 & A2 & P2 & F2 & B2).
        rewrite (archive_name_unique _ _ _ A1 An) in *. rewrite (archive_name_unique _ _ _ A2 An) in *. rewrite P1 in P2. injection P2 as <-.
        assert (Eb : b2 = b). { assert (Q : b = true <-> b2 = true) by (rewrite B1, B2; split; (intros [Z|[[_ Z]|Z]]; [auto|discriminate Z|auto])). destruct b, b2; try reflexivity; exfalso; destruct Q as [Q1 Q2]; [specialize (Q1 eq_refl); discriminate Q1|specialize (Q2 eq_refl); discriminate Q2]. }
        rewrite F1, F2, Eb. reflexivity.
      + destruct (run_listed false machine re sh root false false conf l _ m w1 m1 sd a (tidies_named false machine root l T) D (w_inv _ W0) AG R1 J) as (n1 & r1 & A1 & _ & Q1 & X1 & Y1).
        destruct (run_listed false machine re sh root false false conf l' _ m w2 m2 sd a (tidies_named false machine root l' T') D' (w_inv _ W0) AG R2 J') as (n2 & r2 & A2 & _ & Q2 & X2 & Y2).
        rewrite (archive_name_unique _ _ _ A1 An) in *. rewrite (archive_name_unique _ _ _ A2 An) in *. rewrite Q1 in Q2. injection Q2 as <-. intro x. split.
        * intro H. destruct (X2 x H) as [S1 S2]. apply (Y1 eq_refl x S1 S2).
        * intro H. destruct (X1 x H) as [S1 S2]. apply (Y2 eq_refl x S1 S2).
    - assert (H' : forall sd a, In (sd, a) l' -> ~ archive_name a n) by (intros sd a J; apply (H sd a); apply Permutation_in with (l := l'); [apply Permutation_sym, P|exact J]).
      destruct (run_frame false machine re sh root false false conf l (tidies_named false machine root l T) _ m w1 m1 (w_inv _ W0) AG R1 n H) as [_ G1].
      destruct (run_frame false machine re sh root false false conf l' (tidies_named false machine root l' T') _ m w2 m2 (w_inv _ W0) AG R2 n H') as [_ G2].
      specialize (G1 eq_refl). specialize (G2 eq_refl). unfold dbfile, lists. rewrite G1, G2. split; [reflexivity|]. intro x. reflexivity.
  Qed.
  (** The files: a file that only one of the packages can have put there is the same in the end. *)
  Theorem C120_files conf l l' w w1 w2 sd a name x nd : Permutation l l' -> tidies l -> distinct l -> tidy_world w ->
    session (Many false false conf l []) w = (None, w1) -> session (Many false false conf l' []) w = (None, w2) ->
    In (sd, a) l -> archive_name a name -> In (x, nd) a -> n_kind nd <> KDir -> file_name x -> tidy a -> no_reject_area a -> (forall y, ships a y -> comps y = comps x -> y = x) ->
    lists (w_db w1) name x -> once (w_db w) x ->
    (forall sd' b k, In (sd', b) l -> archive_name b k -> k <> name -> avoids b x) ->
    (forall rules, known (w_db w) name -> read_rules_file conf = inl rules -> ~ verdict re UPGRADE rules x false) ->
    way_clear (w_fs w) (comps x) -> ~ dir_at (w_fs w) (comps x) ->
    fget (w_fs w2) (comps x) = fget (w_fs w1) (comps x) /\ fget (w_fs w1) (comps x) = Some nd.
  Proof.
    intros P T D W E1 E2 J An Jx Kn Fx Ti NR One Lx On Av Vd Wy Nd.
    assert (G : forall k wk, tidies k -> distinct k -> In (sd, a) k -> (forall sd' b n, In (sd', b) k -> archive_name b n -> n <> name -> avoids b x) ->
      session (Many false false conf k []) w = (None, wk) -> lists (w_db wk) name x -> fget (w_fs wk) (comps x) = Some nd).
    { clear P T D E1 E2 J Av Lx. intros k wk T D J Av E Lx. destruct (many_run conf k w wk T D W E) as (m & m1 & Lo & R1). pose proof (tidy_cleaned w W) as W0.
      assert (AG : agree (w_db w) m) by (apply (load_agree false); [apply W|exact Lo]).
      assert (Nm : forall sd' b, In (sd', b) k -> exists n, archive_name b n).
      { intros sd' b Jb. destruct (run_listed false machine re sh root false false conf k _ m wk m1 sd' b (tidies_named false machine root k T) D (w_inv _ W0) AG R1 Jb) as (n & _ & A & _). exists n. exact A. }
      apply in_split in J as (u & v & ->).
      assert (Au : forall sd' b, In (sd', b) u -> avoids b x).
      { intros sd' b Jb. assert (Jb' : In (sd', b) (u ++ (sd, a) :: v)) by (apply in_or_app; left; exact Jb). destruct (Nm _ _ Jb') as [n Ab]. apply (Av sd' b n Jb' Ab). intros ->.
        exact (distinct_before _ u (sd, a) v name D eq_refl An sd' b Jb Ab). }
      assert (Avs : forall sd' b, In (sd', b) v -> spares b x).
      { intros sd' b Jb. apply avoids_spares. assert (Jb' : In (sd', b) (u ++ (sd, a) :: v)) by (apply in_or_app; right; right; exact Jb). destruct (Nm _ _ Jb') as [n Ab]. apply (Av sd' b n Jb' Ab). intros ->.
        exact (distinct_after _ u (sd, a) v name D eq_refl An sd' b Jb Ab). }
      pose proof (run_content false machine re sh root Rs R0 false conf u sd a v x nd name w m wk m1 T D Fx Au Avs One W Lo R1 On Ti NR Jx Kn An Lx Vd) as X. rewrite R0 in X. exact (X Wy Nd). }
    pose proof (C120_records conf l l' w w1 w2 P T D W E1 E2 name) as [_ Ls].
    pose proof (G l w1 T D J Av E1 Lx) as F1. rewrite F1. split; [|reflexivity].
    apply (G l' w2 (tidies_perm l l' P T) (distinct_perm l l' P D)); [apply Permutation_in with (l := l); assumption| |exact E2|apply Ls, Lx].
    intros sd' b n Jb. apply (Av sd' b n). apply Permutation_in with (l := l'); [apply Permutation_sym, P|exact Jb].
  Qed.
End Perm.
