(** C13, exactly: after which interruptions the database can be loaded *)
From Verif Require Import Base BaseProofs StrModel StrSpec StrProofs RulesModel FsModel FsSpec FsProofs MetaModel MetaSpec MetaProofs DbModel DbLoad CrashModel CrashSpec CrashProofs DbExamples CrashProps.

(** an upgrade: the old record goes (pkgadd.cxx:120-121, pkgdbh.cxx:903-932), then the new one is written (pkgadd.cxx:130-133) *)
Definition upgrade_calls (name : str) (d : disk) (moved : list (str * str)) (rew : option (list str)) (chunks : list str) : list call :=
  remove_calls name d ++ install_calls name moved rew chunks.

Lemma mdel_mset {A} n (x : A) (p : list (str * A)) : mdel n (mset n x p) = mdel n p.
Proof.
  unfold mdel. induction p as [|[k v] p IH]; cbn [mset].
  - cbn [filter fst]. rewrite seqb_refl. reflexivity.
  - destruct (sltb n k) eqn:E1; [cbn [filter fst]; rewrite seqb_refl; reflexivity|]. destruct (sltb k n) eqn:E2.
    + cbn [filter fst]. rewrite IH. reflexivity.
    + apply sltb_false_cases in E1. destruct E1 as [<-|E1]; [|congruence]. cbn [filter fst]. rewrite !seqb_refl. reflexivity.
Qed.
Lemma lift_mdel n (d : disk) : lift (mdel n d) = mdel n (lift d).
Proof.
  unfold lift, mdel. induction d as [|[k v] d IH]; [reflexivity|]. cbn [filter map fst snd]. destruct (seqb n k); cbn [negb]; [exact IH|]. cbn [map fst snd]. rewrite IH. reflexivity.
Qed.
Lemma unlinks_mdel name (l : list str) : forall p : pdisk, mdel name (execs p (map (CUnlink name) l)) = mdel name p.
Proof. induction l as [|x l IH]; intro p; [reflexivity|]. cbn [map]. unfold execs. cbn [fold_left exec]. unfold execs in IH. rewrite IH. apply mdel_mset. Qed.
Lemma mget_nothing {A} (m : list (str * A)) : (forall f, mget f m = None) -> m = [].
Proof. destruct m as [|[k v] m]; [reflexivity|]. intro H. specialize (H k). cbn [mget] in H. rewrite seqb_refl in H. discriminate H. Qed.
(** a completed removal leaves exactly the other records *)
Lemma removed name (d : disk) (dir : dbdir) : mget name d = Some dir -> (forall f, In f (keys dir) -> nondot f = true) ->
  execs (lift d) (remove_calls name d) = lift (mdel name d).
Proof.
  intros G N. unfold remove_calls. rewrite G, execs_app. set (l := filter nondot (set_of (keys dir))).
  destruct (unlinks name l (lift d) (lift_dir dir)) as (pd & A & _ & C); [rewrite mget_lift, G; reflexivity|].
  assert (E : pd = []).
  { apply mget_nothing. intro f. rewrite C. destruct (smem f l) eqn:S; [reflexivity|]. rewrite mget_lift_dir. destruct (mget f dir) as [s|] eqn:F; [|reflexivity]. exfalso.
    assert (I : In f l). { unfold l. apply filter_In. assert (K : In f (keys dir)) by (apply mget_In in F; apply in_map_iff; exists (f, s); auto). split; [apply set_of_In; exact K|apply N; exact K]. }
    apply smem_In in I. congruence. }
  subst pd. unfold execs at 1. cbn [fold_left exec]. rewrite A, unlinks_mdel, <- lift_mdel. reflexivity.
Qed.
Lemma load_each junk (d : disk) m : load junk d = Ok m -> forall n dr, nondot n = true -> mget n d = Some dr -> exists r, load_pkg n dr = Ok r.
Proof.
  intros Ld n dr Nn Gn. apply load_loop_spec in Ld as [_ [Q _]]; [|intros k Ik; apply load_names in Ik; tauto].
  destruct (Q n) as [dr' [r [H1 [H2 _]]]]; [apply load_names; split; [exact Nn|rewrite Gn; discriminate]|]. rewrite Gn in H1. inversion H1; subst. eauto.
Qed.
Lemma load_mdel junk name (d : disk) m : load junk d = Ok m -> exists m', load junk (mdel name d) = Ok m'.
Proof.
  intro H. apply load_ok. intros n dr Nn Gn. rewrite mget_mdel in Gn. destruct (seqb n name); [discriminate Gn|]. exact (load_each junk d m H n dr Nn Gn).
Qed.
Lemma image_load power junk (d d' : disk) : image power (lift d) d' -> load junk d' = load junk d.
Proof. intro I. symmetry. apply load_same. apply (image_same power). exact I. Qed.

(** ** Removal: killed or powered off, the database loads afterwards exactly if the list was not yet deleted or the directory already is *)
Theorem C13_remove_exact power junk name (d d' : disk) dir m0 before after : nondot name = true -> mget name d = Some dir ->
  (forall f, In f (keys dir) -> nondot f = true) -> load junk d = Ok m0 ->
  remove_calls name d = before ++ after -> image power (execs (lift d) before) d' ->
  ((exists m, load junk d' = Ok m) <-> after = [] \/ ~ files_unlinked name before).
Proof.
  intros N G D Ld E I. split.
  - intros (m & H). destruct after as [|c after]; [left; reflexivity|]. right. intro U. apply (C13_remove_window_refuted power junk name d d' dir before (c :: after) N G E) with (m := m); auto. discriminate.
  - intros [->|U].
    + rewrite app_nil_r in E. subst before. rewrite (removed name d dir G D) in I. rewrite (image_load power junk _ _ I). exact (load_mdel junk name d m0 Ld).
    + destruct after as [|c after].
      * rewrite app_nil_r in E. subst before. rewrite (removed name d dir G D) in I. rewrite (image_load power junk _ _ I). exact (load_mdel junk name d m0 Ld).
      * apply (C13_remove_before_list_partial power junk name d d' dir m0 before (c :: after)); auto. discriminate.
Qed.
(** ** Install of a new package, the process killed: exactly if nothing was done yet, or everything *)
Theorem C13_install_exact junk name moved rew chunks (d d' : disk) m0 r before after : nondot name = true -> mget name d = None ->
  Forall (fun e => script_or_meta (fst e)) moved -> load junk d = Ok m0 ->
  load_pkg name ((L "files", concat chunks) :: match final_meta moved rew with Some t => [(L "META", t)] | None => [] end) = Ok r ->
  install_calls name moved rew chunks = before ++ after -> image false (execs (lift d) before) d' ->
  ((exists m, load junk d' = Ok m) <-> before = [] \/ after = []).
Proof.
  intros N G M Ld R E I. split.
  - intros (m & H). destruct before as [|b before]; [left; reflexivity|]. destruct after as [|a after]; [right; reflexivity|]. exfalso.
    apply (C13_install_window_refuted false junk name moved rew chunks d d' N G M) with (m := m); [|exact H]. exists (b :: before), (a :: after). split; [discriminate|]. split; [discriminate|]. split; [exact E|exact I].
  - intros [->| ->].
    + cbn in I. rewrite (image_load false junk _ _ I). eauto.
    + rewrite app_nil_r in E. subst before. exact (C13_install_complete_partial junk name moved rew chunks d d' m0 r Ld G M R I).
Qed.
(** ** Upgrade, the process killed: exactly if the old list is still there, or between the two halves (the package is then in no
    record at all), or when it is finished *)
Lemma app_split {A} (a b x y : list A) : a ++ b = x ++ y -> (exists z, a = x ++ z /\ y = z ++ b) \/ (exists z, x = a ++ z /\ b = z ++ y).
Proof.
  revert x. induction a as [|c a IH]; intros x E; [right; exists x; auto|]. destruct x as [|c' x]; [left; exists (c :: a); auto|].
  cbn [app] in E. injection E as <- E. destruct (IH x E) as [(z & -> & ->)|(z & -> & ->)]; [left|right]; exists z; auto.
Qed.
Theorem C13_upgrade_exact junk name moved rew chunks (d d' : disk) dir m0 r before after : nondot name = true -> mget name d = Some dir ->
  (forall f, In f (keys dir) -> nondot f = true) -> Forall (fun e => script_or_meta (fst e)) moved -> load junk d = Ok m0 ->
  load_pkg name ((L "files", concat chunks) :: match final_meta moved rew with Some t => [(L "META", t)] | None => [] end) = Ok r ->
  upgrade_calls name d moved rew chunks = before ++ after -> image false (execs (lift d) before) d' ->
  ((exists m, load junk d' = Ok m) <-> ~ files_unlinked name before \/ before = remove_calls name d \/ after = []).
Proof.
  intros N G D M Ld R E I. unfold upgrade_calls in E.
  assert (FU : files_unlinked name (remove_calls name d)).
  { unfold files_unlinked, remove_calls. rewrite G. apply in_or_app. left. apply in_map. apply filter_In. split; [|reflexivity]. apply set_of_In.
    destruct (load_each junk d m0 Ld name dir N G) as (r0 & Hr). apply load_pkg_ok in Hr as [ls [c [r1 [_ [F _]]]]]. apply mget_In in F. apply in_map_iff. exists (L "files", c). auto. }
  assert (IN : install_calls name moved rew chunks <> []) by (unfold install_calls, meta_calls; discriminate).
  destruct (app_split _ _ _ _ E) as [(z & E1 & E2)|(z & E1 & E2)].
  - pose proof (C13_remove_exact false junk name d d' dir m0 before z N G D Ld E1 I) as X. rewrite X. split.
    + intros [->|U]; [right; left; rewrite app_nil_r in E1; symmetry; exact E1|left; exact U].
    + intros [U|[B|A]]; [right; exact U| |].
      * left. apply (app_inv_head before). rewrite app_nil_r, <- E1. symmetry. exact B.
      * rewrite A in E2. symmetry in E2. apply app_eq_nil in E2. destruct E2 as [_ E2]. contradiction.
  - subst before. rewrite execs_app, (removed name d dir G D) in I. destruct (load_mdel junk name d m0 Ld) as (m1 & L1).
    assert (G1 : mget name (mdel name d) = None) by (rewrite mget_mdel, seqb_refl; reflexivity).
    pose proof (C13_install_exact junk name moved rew chunks (mdel name d) d' m1 r z after N G1 M L1 R E2 I) as X. rewrite X. split.
    + intros [->| ->]; [right; left; apply app_nil_r|right; right; reflexivity].
    + intros [U|[B|A]]; [|left|right; exact A].
      * exfalso. apply U. unfold files_unlinked in *. apply in_or_app. left. exact FU.
      * apply (app_inv_head (remove_calls name d)). rewrite app_nil_r. exact B.
Qed.
(** ** When it loads, it is the old database, the new one, or the old one without the package *)
Theorem C13_what_is_left power junk name (d d' : disk) dir m0 before after : nondot name = true -> mget name d = Some dir ->
  (forall f, In f (keys dir) -> nondot f = true) -> load junk d = Ok m0 -> remove_calls name d = before ++ after -> image power (execs (lift d) before) d' ->
  (forall n f, n <> name -> file_in d' n f = file_in d n f) /\ (after = [] -> load junk d' = load junk (mdel name d)).
Proof.
  intros N G D Ld E I. split.
  - intros n f Nn. destruct after as [|c after].
    + rewrite app_nil_r in E. subst before. rewrite (removed name d dir G D) in I.
      rewrite (image_lift power _ d' (mdel name d) n I) by (rewrite mget_lift; reflexivity). unfold file_in. rewrite mget_mdel, (proj2 (seqb_neq n name) Nn). reflexivity.
    + unfold remove_calls in E. apply prefix_map in E as [l1 [l2 [_ ->]]]; [|discriminate].
      destruct (unlinks name l1 (lift d) (lift_dir dir)) as [pd [A [B C]]]; [rewrite mget_lift, G; reflexivity|].
      apply (image_lift power _ d' d n I). rewrite (B n Nn). apply mget_lift.
  - intros ->. rewrite app_nil_r in E. subst before. rewrite (removed name d dir G D) in I. apply (image_load power). exact I.
Qed.
(** the hypotheses are met by the database with foo installed, and its upgrade *)
Example C13_exact_witness : nondot (L "foo") = true /\ (exists dir, mget (L "foo") (w_db w_foo) = Some dir /\ forall f, In f (keys dir) -> nondot f = true) /\ (exists m, load false (w_db w_foo) = Ok m) /\
  exists r, load_pkg (L "foo") ((L "files", L "usr/" ++ [nl]) :: match final_meta [(L "META", L "Nfoo")] None with Some t => [(L "META", t)] | None => [] end) = Ok r.
Proof.
  split; [reflexivity|]. split; [|split].
  - destruct (mget (L "foo") (w_db w_foo)) as [dir|] eqn:G; [|vm_compute in G; discriminate G]. exists dir. split; [reflexivity|].
    assert (K : forallb nondot (keys dir) = true) by (assert (X : option_map (fun x => forallb nondot (keys x)) (mget (L "foo") (w_db w_foo)) = Some true) by (vm_compute; reflexivity); rewrite G in X; cbn [option_map] in X; congruence).
    rewrite forallb_forall in K. exact K.
  - eexists. vm_compute. reflexivity.
  - eexists. vm_compute. reflexivity.
Qed.
