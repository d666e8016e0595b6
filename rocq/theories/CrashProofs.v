(** Crash points. *)
From Verif Require Import Base BaseProofs StrModel StrSpec StrProofs RulesModel FsModel FsSpec FsProofs MetaModel MetaSpec MetaProofs DbModel DbLoad CrashModel CrashSpec.

Lemma mget_map {A B} (g : A -> B) (m : list (str * A)) k : mget k (map (fun e => (fst e, g (snd e))) m) = option_map g (mget k m).
Proof. induction m as [|[k' v] m IH]; [reflexivity|]. cbn. destruct (seqb k k'); auto. Qed.
Lemma mget_lift (d : disk) n : mget n (lift d) = option_map lift_dir (mget n d).
Proof. apply mget_map. Qed.
Lemma mget_lift_dir (d : dbdir) f : mget f (lift_dir d) = option_map (fun s => Cell s true) (mget f d).
Proof. exact (mget_map (fun s => Cell s true) d f). Qed.

(** *** loading depends on META and files only *)
Definition same_db (d d' : disk) : Prop := forall n,
  match mget n d, mget n d' with
  | None, None => True
  | Some a, Some b => mget (L "META") a = mget (L "META") b /\ mget (L "files") a = mget (L "files") b
  | _, _ => False
  end.
Lemma load_pkg_same i a b : mget (L "META") a = mget (L "META") b -> mget (L "files") a = mget (L "files") b -> load_pkg i a = load_pkg i b.
Proof. intros A B. unfold load_pkg. rewrite A, B. reflexivity. Qed.
Lemma same_keys d d' : same_db d d' -> set_of (keys d) = set_of (keys d').
Proof.
  intro S. apply ssorted_ext; [apply set_of_sorted|apply set_of_sorted|]. intro n. rewrite !set_of_keys_In. specialize (S n).
  destruct (mget n d), (mget n d'); try contradiction; split; intros [x X]; try discriminate; eauto.
Qed.
Lemma load_same junk d d' : same_db d d' -> load junk d = load junk d'.
Proof.
  intro S. unfold load. rewrite (same_keys d d' S). generalize (Mem [] [] junk). generalize (filter nondot (set_of (keys d'))).
  induction l as [|i t IH]; intro m; cbn; [reflexivity|]. pose proof (S i) as Si. destruct (mget i d) as [a|], (mget i d') as [b|]; try contradiction; auto.
  destruct Si as [A B]. rewrite (load_pkg_same i a b A B). destruct (load_pkg i b); cbn; auto.
Qed.
(** a package without file list makes the database unreadable *)
Lemma load_no_files junk (d : disk) n (dir : dbdir) : nondot n = true -> mget n d = Some dir -> mget (L "files") dir = None -> forall m, load junk d <> Ok m.
Proof.
  intros N G F m E. apply load_loop_spec in E as [_ [A _]]; [|intros k I; apply load_names in I; tauto].
  destruct (A n) as [dr [r [G' [Lp _]]]]; [apply load_names; split; [exact N|intro Z; rewrite G in Z; discriminate]|]. rewrite G in G'. inversion G'; subst dr.
  apply load_pkg_ok in Lp as [ls [c [r0 [_ [F' _]]]]]. congruence.
Qed.

(** *** rewriting a file list *)
(** view of the state: everything as in [d] except the temporary file and the list of [name] *)
Definition view (name : str) (d : disk) (p : pdisk) : Prop :=
  (forall n, n <> name -> mget n p = option_map lift_dir (mget n d)) /\
  (forall dir, mget name d = Some dir -> exists pd, mget name p = Some pd /\ forall f, f <> tmp_name -> f <> L "files" -> mget f pd = option_map (fun s => Cell s true) (mget f dir)).
Definition list_is (name : str) (p : pdisk) (c : option cell) : Prop := exists pd, mget name p = Some pd /\ mget (L "files") pd = c.
Definition tmp_is (name : str) (p : pdisk) (c : option cell) : Prop := exists pd, mget name p = Some pd /\ mget tmp_name pd = c.
Lemma tmp_files : tmp_name <> L "files". Proof. discriminate. Qed.

Lemma set_tmp name d p c pd l : view name d p -> mget name p = Some pd -> mget (L "files") pd = l ->
  let p' := mset name (mset tmp_name c pd) p in view name d p' /\ list_is name p' l /\ tmp_is name p' (Some c).
Proof.
  intros [V1 V2] G F. cbv zeta. split; [|split].
  - split.
    + intros n N. rewrite mget_mset, (proj2 (seqb_neq n name)) by auto. apply V1, N.
    + intros dir D. destruct (V2 dir D) as [pd' [G' H]]. rewrite G in G'. inversion G'; subst pd'. eexists. split; [rewrite mget_mset, seqb_refl; reflexivity|].
      intros f N1 N2. rewrite mget_mset, (proj2 (seqb_neq f tmp_name)) by auto. apply H; auto.
  - eexists. split; [rewrite mget_mset, seqb_refl; reflexivity|]. rewrite mget_mset. exact F.
  - eexists. split; [rewrite mget_mset, seqb_refl; reflexivity|]. rewrite mget_mset, seqb_refl. reflexivity.
Qed.
Lemma firstn_calls name chunks : forall b a, map (CWrite name tmp_name) chunks ++ [CFsync name tmp_name; CRename name tmp_name (L "files")] = b ++ a ->
  (exists c1 c2, chunks = c1 ++ c2 /\ b = map (CWrite name tmp_name) c1) \/
  b = map (CWrite name tmp_name) chunks ++ [CFsync name tmp_name] \/
  b = map (CWrite name tmp_name) chunks ++ [CFsync name tmp_name; CRename name tmp_name (L "files")].
Proof.
  induction chunks as [|c chunks IH]; intros b a E; cbn [map app] in E.
  - destruct b as [|x b]; [left; exists [], []; auto|]. cbn [app] in E. inversion E as [[E1 E2]]. subst x.
    destruct b as [|x b]; [right; left; reflexivity|]. cbn [app] in E2. inversion E2 as [[E3 E4]]. subst x. destruct b; [|discriminate]. right. right. reflexivity.
  - destruct b as [|x b]; [left; exists [], (c :: chunks); auto|]. cbn [app] in E. inversion E as [[E1 E2]]. subst x.
    destruct (IH b a E2) as [[c1 [c2 [-> ->]]]|[->| ->]]; [left; exists (c :: c1), c2; auto|right; left; reflexivity|right; right; reflexivity].
Qed.
Lemma writes name d l : forall chunks p c, view name d p -> list_is name p l -> tmp_is name p (Some c) ->
  let p' := execs p (map (CWrite name tmp_name) chunks) in
  view name d p' /\ list_is name p' l /\ exists c', tmp_is name p' (Some c') /\ cur c' = cur c ++ concat chunks.
Proof.
  induction chunks as [|s chunks IH]; intros p c V Li T; cbv zeta; cbn [map concat].
  - split; [exact V|]. split; [exact Li|]. exists c. split; [exact T|]. rewrite app_nil_r. reflexivity.
  - unfold execs in *. cbn [fold_left]. destruct T as [pd [G T]]. destruct Li as [pd' [G' F]]. rewrite G in G'. inversion G'; subst pd'.
    assert (E : exec p (CWrite name tmp_name s) = mset name (mset tmp_name (Cell (cur c ++ s) false) pd) p).
    { cbn [exec]. unfold pget. rewrite G, T. reflexivity. }
    rewrite E. destruct (set_tmp name d p (Cell (cur c ++ s) false) pd l V G F) as [V' [L' T']].
    destruct (IH _ _ V' L' T') as [A [B [c' [C D]]]]. split; [exact A|]. split; [exact B|]. exists c'. split; [exact C|]. rewrite D. cbn [cur]. rewrite app_assoc. reflexivity.
Qed.
Lemma execs_app p a b : execs p (a ++ b) = execs (execs p a) b. Proof. apply fold_left_app. Qed.

(** the state after any number of calls: the list is the old one, or the new one, safe on disk *)
Lemma list_points name d chunks dir before after : mget name d = Some dir -> list_calls name chunks = before ++ after ->
  let p := execs (lift d) before in
  view name d p /\
  (list_is name p (option_map (fun s => Cell s true) (mget (L "files") dir)) /\ after <> [] \/ list_is name p (Some (Cell (concat chunks) true)) /\ after = []).
Proof.
  intros G E. cbv zeta. set (old := option_map (fun s => Cell s true) (mget (L "files") dir)).
  assert (V0 : view name d (lift d)).
  { split; [intros n _; apply mget_lift|]. intros dr D. exists (lift_dir dr). rewrite mget_lift, D. split; [reflexivity|]. intros f _ _. apply mget_lift_dir. }
  assert (L0 : list_is name (lift d) old) by (exists (lift_dir dir); rewrite mget_lift, G; split; [reflexivity|apply mget_lift_dir]).
  destruct before as [|x before]; [split; [exact V0|]; left; split; [exact L0|]; cbn [app] in E; rewrite <- E; discriminate|].
  unfold list_calls in E. cbn [app] in E. inversion E as [[E1 E2]]. subst x. clear E.
  assert (X0 : exec (lift d) (CMkdir name) = lift d) by (cbn [exec]; rewrite mget_lift, G; reflexivity).
  unfold execs. cbn [fold_left]. rewrite X0.
  destruct before as [|x before]; [split; [exact V0|]; left; split; [exact L0|]; cbn [app] in E2; rewrite <- E2; discriminate|].
  cbn [app] in E2. inversion E2 as [[E1 E3]]. subst x. clear E2. cbn [fold_left].
  assert (X1 : exec (lift d) (CCreat name tmp_name) = mset name (mset tmp_name (Cell [] false) (lift_dir dir)) (lift d)).
  { cbn [exec]. unfold pget. rewrite mget_lift, G. reflexivity. }
  rewrite X1. assert (G0 : mget name (lift d) = Some (lift_dir dir)) by (rewrite mget_lift, G; reflexivity).
  destruct (set_tmp name d (lift d) (Cell [] false) (lift_dir dir) old V0 G0 (mget_lift_dir _ _)) as [V1 [L1 T1]].
  set (p1 := mset name (mset tmp_name (Cell [] false) (lift_dir dir)) (lift d)) in *. clearbody p1.
  change (fold_left exec before p1) with (execs p1 before).
  pose proof E3 as E4. apply firstn_calls in E4 as [[c1 [c2 [-> ->]]]|[->| ->]].
  - destruct (writes name d old c1 p1 _ V1 L1 T1) as [A [B _]]. split; [exact A|]. left. split; [exact B|].
    rewrite map_app, <- app_assoc in E3. apply app_inv_head in E3. rewrite <- E3. destruct c2; discriminate.
  - rewrite execs_app. destruct (writes name d old chunks p1 _ V1 L1 T1) as [A [B [c' [C D]]]]. set (p2 := execs p1 _) in *. clearbody p2.
    destruct C as [pd [Gp Tp]]. destruct B as [pd' [Gp' Fp]]. rewrite Gp in Gp'. inversion Gp'; subst pd'.
    unfold execs. cbn [fold_left exec]. unfold pget. rewrite Gp, Tp.
    destruct (set_tmp name d p2 (Cell (cur c') true) pd old A Gp Fp) as [V2 [L2 _]]. split; [exact V2|]. left. split; [exact L2|].
    rewrite <- app_assoc in E3. apply app_inv_head in E3. cbn [app] in E3. inversion E3. discriminate.
  - rewrite execs_app. destruct (writes name d old chunks p1 _ V1 L1 T1) as [A [B [c' [C D]]]]. set (p2 := execs p1 _) in *. clearbody p2.
    destruct C as [pd [Gp Tp]]. destruct B as [pd' [Gp' Fp]]. rewrite Gp in Gp'. inversion Gp'; subst pd'.
    unfold execs. cbn [fold_left]. assert (X2 : exec p2 (CFsync name tmp_name) = mset name (mset tmp_name (Cell (cur c') true) pd) p2).
    { cbn [exec]. unfold pget. rewrite Gp, Tp. reflexivity. }
    rewrite X2. destruct (set_tmp name d p2 (Cell (cur c') true) pd old A Gp Fp) as [V2 [L2 T2]].
    set (p3 := mset name (mset tmp_name (Cell (cur c') true) pd) p2) in *. clearbody p3. destruct T2 as [pe [Ge Te]].
    cbn [exec]. unfold pget. rewrite Ge, Te. cbn [cur app] in D. split.
    + destruct V2 as [W1 W2]. split.
      * intros n N. rewrite mget_mset, (proj2 (seqb_neq n name)) by auto. apply W1, N.
      * intros dr D0. destruct (W2 dr D0) as [pf [Gf H]]. rewrite Ge in Gf. inversion Gf; subst pf. eexists. split; [rewrite mget_mset, seqb_refl; reflexivity|].
        intros f N1 N2. rewrite mget_mset, (proj2 (seqb_neq f (L "files"))) by auto. rewrite mget_mdel, (proj2 (seqb_neq f tmp_name)) by auto. apply H; auto.
    + right. split; [eexists; split; [rewrite mget_mset, seqb_refl; reflexivity|]; rewrite mget_mset, seqb_refl, <- D; reflexivity|].
      rewrite <- (app_nil_r (_ ++ _)) in E3 at 1. apply app_inv_head in E3. auto.
Qed.
Lemma image_file power p d n f c : image power p d -> (exists pd, mget n p = Some pd /\ mget f pd = Some (Cell c true)) -> file_in d n f = Some c.
Proof.
  intros I [pd [G F]]. specialize (I n). rewrite G in I. unfold file_in. destruct (mget n d) as [dd|]; [|contradiction]. specialize (I f). rewrite F in I.
  destruct (mget f dd) as [s|]; [|contradiction]. cbn in I. destruct I as [->|[_ I]]; [reflexivity|discriminate].
Qed.
Lemma image_no_file power p d n f : image power p d -> (exists pd, mget n p = Some pd /\ mget f pd = None) -> exists dir, mget n d = Some dir /\ mget f dir = None.
Proof.
  intros I [pd [G F]]. specialize (I n). rewrite G in I. destruct (mget n d) as [dd|]; [|contradiction]. exists dd. split; auto. specialize (I f). rewrite F in I.
  destruct (mget f dd); [contradiction|reflexivity].
Qed.
Lemma image_none power p d n : image power p d -> mget n p = None -> mget n d = None.
Proof. intros I G. specialize (I n). rewrite G in I. destruct (mget n d); [contradiction|reflexivity]. Qed.
Lemma image_lift power p d d0 n : image power p d -> mget n p = option_map lift_dir (mget n d0) -> forall f, file_in d n f = file_in d0 n f.
Proof.
  intros I G f. unfold file_in at 2. destruct (mget n d0) as [dir|]; cbn [option_map] in G.
  - destruct (mget f dir) as [s|] eqn:F.
    + apply (image_file power p d n f s I). exists (lift_dir dir). split; auto. rewrite mget_lift_dir, F. reflexivity.
    + destruct (image_no_file power p d n f I) as [dd [Gd Fd]]; [exists (lift_dir dir); split; auto; rewrite mget_lift_dir, F; reflexivity|]. unfold file_in. rewrite Gd. exact Fd.
  - unfold file_in. rewrite (image_none _ _ _ _ I G). reflexivity.
Qed.
