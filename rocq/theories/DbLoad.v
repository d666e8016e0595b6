(** Facts about loading the database. *)
From Verif Require Import Base BaseProofs StrModel StrSpec StrProofs RulesModel FsModel FsSpec FsProofs MetaModel MetaSpec MetaProofs DbModel.

Lemma set_of_keys_In {A} n (d : list (str * A)) : In n (set_of (keys d)) <-> exists x, mget n d = Some x.
Proof.
  rewrite set_of_In. destruct (mget n d) as [x|] eqn:E.
  - split; [eauto|]. intros _. apply mget_In in E. apply (in_map fst) in E. exact E.
  - apply mget_None in E. split; [intro; contradiction | intros [? ?]; discriminate].
Qed.
Lemma fold_alias (i : str) l : forall (m : list (str * str)) a, mget a (fold_left (fun m a => mset a i m) l m) = if smem a l then Some i else mget a m.
Proof.
  induction l as [|x l IH]; intros m a; cbn [fold_left smem]; [reflexivity|].
  rewrite IH, mget_mset. destruct (smem a l); [rewrite orb_true_r; reflexivity|]. rewrite orb_false_r. reflexivity.
Qed.
Lemma mget_add_alias al i r a : mget a (add_alias al i r) = if smem a (r_alias r) || seqb a i then Some i else mget a al.
Proof.
  unfold add_alias. rewrite fold_alias. destruct (smem a (r_alias r)); [reflexivity|]. rewrite mget_mset. reflexivity.
Qed.

(** installed packages named by the list [names] *)
Lemma load_loop_spec names d : forall m m', load_loop names d m = Ok m' -> (forall n, In n names -> mget n d <> None) ->
  m_dep m' = m_dep m /\
  (forall n, In n names -> exists dir r, mget n d = Some dir /\ load_pkg n dir = Ok r /\ mget n (m_pkgs m') = Some r) /\
  (forall n, ~ In n names -> mget n (m_pkgs m') = mget n (m_pkgs m)) /\
  (forall a i, mget a (m_alias m') = Some i -> mget a (m_alias m) = Some i \/
      (In i names /\ exists r, mget i (m_pkgs m') = Some r /\ (a = i \/ In a (r_alias r)))) /\
  (forall a, mget a (m_alias m) <> None -> mget a (m_alias m') <> None) /\
  (forall i r, In i names -> mget i (m_pkgs m') = Some r -> forall a, (a = i \/ In a (r_alias r)) -> mget a (m_alias m') <> None).
Proof.
  induction names as [|i t IH]; intros m m' E K; cbn in E.
  - inversion E; subst. split; [auto|]. split; [intros n []|]. split; [auto|]. split; [auto|]. split; [auto|]. intros ? ? [].
  - destruct (mget i d) as [dir|] eqn:G; [|exfalso; apply (K i); cbn; auto].
    apply rbind_ok in E as [r [Er E]]. set (m1 := Mem (mset i r (m_pkgs m)) (add_alias (m_alias m) i r) (m_dep m)) in E.
    destruct (IH m1 m' E) as [A1 [A2 [A3 [A4 [A5 A6]]]]]. { intros n I. apply K. cbn. auto. }
    assert (Pi : mget i (m_pkgs m') = Some r).
    { destruct (in_dec str_eq_dec i t) as [I|N].
      - destruct (A2 i I) as [dir' [r' [H1 [H2 H3]]]]. rewrite G in H1. inversion H1; subst. congruence.
      - rewrite (A3 i N). unfold m1. cbn. rewrite mget_mset, seqb_refl. reflexivity. }
    split; [exact A1|]. split; [|split; [|split; [|split]]].
    + intros n [<-|I]; [exists dir, r; auto|]. apply A2; auto.
    + intros n N. rewrite A3 by (intro; apply N; cbn; auto). unfold m1. cbn. rewrite mget_mset.
      destruct (seqb n i) eqn:B; auto. apply seqb_eq in B. subst. exfalso. apply N. cbn. auto.
    + intros a j H. destruct (A4 a j H) as [H1|[I [r' [H1 H2]]]].
      * unfold m1 in H1. cbn in H1. rewrite mget_add_alias in H1. destruct (smem a (r_alias r) || seqb a i) eqn:B; [|auto].
        inversion H1; subst j. right. split; [cbn; auto|]. exists r. split; auto.
        apply orb_true_iff in B as [B|B]; [right; apply smem_In; auto | left; apply seqb_eq; auto].
      * right. split; [cbn; auto|]. eauto.
    + intros a H. apply A5. unfold m1. cbn. rewrite mget_add_alias. destruct (smem a (r_alias r) || seqb a i); congruence.
    + intros j r' [<-|I] H a Ha.
      * rewrite Pi in H. inversion H; subst r'. apply A5. unfold m1. cbn. rewrite mget_add_alias.
        destruct Ha as [->|Ha]; [rewrite seqb_refl, orb_true_r | apply smem_In in Ha; rewrite Ha]; discriminate.
      * eapply A6; eauto.
Qed.
Lemma load_names (d : disk) n : In n (filter nondot (set_of (keys d))) <-> nondot n = true /\ mget n d <> None.
Proof.
  rewrite filter_In, set_of_keys_In. split; [intros [[x H] N]; split; [auto|congruence] | intros [N H]].
  destruct (mget n d) as [x|]; [eauto|congruence].
Qed.
Lemma load_spec junk (d : disk) m : load junk d = Ok m ->
  m_dep m = junk /\
  (forall n r, mget n (m_pkgs m) = Some r <-> nondot n = true /\ exists dir, mget n d = Some dir /\ load_pkg n dir = Ok r) /\
  (forall a i, mget a (m_alias m) = Some i -> exists r, mget i (m_pkgs m) = Some r /\ (a = i \/ In a (r_alias r))) /\
  (forall i r, mget i (m_pkgs m) = Some r -> forall a, (a = i \/ In a (r_alias r)) -> mget a (m_alias m) <> None).
Proof.
  intro E. apply load_loop_spec in E as [A1 [A2 [A3 [A4 [A5 A6]]]]].
  2:{ intros n I. apply load_names in I. tauto. }
  assert (P : forall n r, mget n (m_pkgs m) = Some r <-> nondot n = true /\ exists dir, mget n d = Some dir /\ load_pkg n dir = Ok r).
  { intros n r. destruct (in_dec str_eq_dec n (filter nondot (set_of (keys d)))) as [I|N].
    - destruct (A2 n I) as [dir [r' [H1 [H2 H3]]]]. apply load_names in I as [I1 I2]. split.
      + intro H. rewrite H in H3. inversion H3; subst. split; auto. eauto.
      + intros [_ [dir' [H4 H5]]]. congruence.
    - rewrite (A3 n N). cbn. split; [discriminate|]. intros [H1 [dir [H2 H3]]]. exfalso. apply N. apply load_names. split; auto. congruence. }
  split; [exact A1|]. split; [exact P|]. split.
  - intros a i H. destruct (A4 a i H) as [H1|[_ H1]]; [discriminate H1|exact H1].
  - intros i r H. apply A6; auto. apply load_names. apply P in H as [H1 [dir [H2 _]]]. split; auto. congruence.
Qed.
Lemma load_loop_ok names d : forall m, (forall n dir, In n names -> mget n d = Some dir -> exists r, load_pkg n dir = Ok r) ->
  exists m', load_loop names d m = Ok m'.
Proof.
  induction names as [|i t IH]; intros m H; cbn; [eauto|]. destruct (mget i d) as [dir|] eqn:G; [|eauto].
  destruct (H i dir (or_introl eq_refl) G) as [r ->]. cbn. apply IH. intros n dr I. apply H. cbn. auto.
Qed.
Lemma load_ok junk d : (forall n dir, nondot n = true -> mget n d = Some dir -> exists r, load_pkg n dir = Ok r) ->
  exists m, load junk d = Ok m.
Proof. intro H. apply load_loop_ok. intros n dir I G. apply load_names in I as [I _]. eauto. Qed.
(** one unreadable package makes the whole database unreadable *)
Lemma load_loop_throw names d : forall m n dir, In n names -> mget n d = Some dir -> load_pkg n dir = Throw ->
  (forall k dr, In k names -> mget k d = Some dr -> load_pkg k dr <> UB) -> (forall k, In k names -> mget k d <> None) ->
  load_loop names d m = Throw.
Proof.
  induction names as [|i t IH]; intros m n dir I G E U K; [destruct I|]. cbn.
  destruct (mget i d) as [dr|] eqn:Gi; [|exfalso; apply (K i); cbn; auto].
  destruct (load_pkg i dr) as [r| |] eqn:Ei; cbn; [|reflexivity|exfalso; apply (U i dr); cbn; auto].
  apply (IH _ n dir); auto.
  - destruct I as [->|I]; auto. congruence.
  - intros k dk Ik. apply U. cbn. auto.
  - intros k Ik. apply K. cbn. auto.
Qed.
Lemma load_throw junk d n dir : nondot n = true -> mget n d = Some dir -> load_pkg n dir = Throw ->
  (forall k dr, nondot k = true -> mget k d = Some dr -> load_pkg k dr <> UB) -> load junk d = Throw.
Proof.
  intros N G E U. unfold load. eapply load_loop_throw; eauto.
  - apply load_names. split; auto. congruence.
  - intros k dr I. apply load_names in I as [I _]. auto.
  - intros k I. apply load_names in I. tauto.
Qed.

(** one package *)
Lemma load_pkg_ok i dir r : load_pkg i dir = Ok r -> exists ls c r0,
  (match mget (L "META") dir with None => ls = [] | Some t => parse_set t = Some ls end) /\
  mget (L "files") dir = Some c /\ meta_lines i start_rec ls = Ok r0 /\ r = with_files (read_files c) r0.
Proof.
  unfold load_pkg. intro E. apply rbind_ok in E as [ls [E1 E]]. apply rbind_ok in E as [r0 [E2 E]].
  destruct (mget (L "files") dir) as [c|] eqn:F; [|discriminate]. inversion E; subst. exists ls, c, r0.
  split; [|auto]. destruct (mget (L "META") dir) as [t|]; [|inversion E1; auto].
  destruct (parse_set t) as [l|]; inversion E1; subst; auto.
Qed.
Lemma load_pkg_meta i dir ls c : good_lines ls -> mget (L "META") dir = Some (text_of ls) -> mget (L "files") dir = Some c ->
  load_pkg i dir = rbind (meta_lines i start_rec (set_of ls)) (fun r => Ok (with_files (read_files c) r)).
Proof.
  intros G M F. unfold load_pkg. rewrite M, F. unfold parse_set. rewrite parse_text by exact G. reflexivity.
Qed.
