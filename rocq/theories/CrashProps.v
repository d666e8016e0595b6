(** C12 and C13: what an interruption leaves of the database. *)
From Verif Require Import Base BaseProofs StrModel StrSpec StrProofs RulesModel FsModel FsSpec FsProofs MetaModel MetaSpec MetaProofs DbModel DbLoad CrashModel CrashSpec CrashProofs DbExamples.

(** ** C12 *)
(** whatever the interruption, everything except the temporary file and the list itself is as before, the list is the old one or
    (only when all calls were made) the new one *)
Lemma list_interrupted power name chunks (d d' : disk) old : file_in d name (L "files") = Some old ->
  interrupted power (list_calls name chunks) d d' ->
  (file_in d' name (L "files") = Some old \/ file_in d' name (L "files") = Some (concat chunks)) /\
  (forall n, mget n d = None <-> mget n d' = None) /\
  (forall n f, n <> name \/ (f <> tmp_name /\ f <> L "files") -> file_in d' n f = file_in d n f).
Proof.
  intros O [before [after [E I]]]. unfold file_in in O. destruct (mget name d) as [dir|] eqn:G; [|discriminate].
  destruct (list_points name d chunks dir before after G E) as [[V1 V2] P]. set (p := execs (lift d) before) in *. clearbody p.
  destruct (V2 dir G) as [pd [Gp Hp]]. split; [|split].
  - rewrite O in P. cbn [option_map] in P. destruct P as [[Li _]|[Li _]]; [left|right]; eapply image_file; eauto.
  - intro n. destruct (str_eq_dec n name) as [->|N].
    + rewrite G. specialize (I name). rewrite Gp in I. destruct (mget name d'); [split; discriminate|contradiction].
    + specialize (I n). rewrite (V1 n N) in I. destruct (mget n d), (mget n d'); cbn in I; try contradiction; split; congruence.
  - intros n f H. destruct (str_eq_dec n name) as [->|N].
    + destruct H as [H|[H1 H2]]; [contradiction|]. unfold file_in at 2. rewrite G. specialize (Hp f H1 H2). destruct (mget f dir) as [s|] eqn:F; cbn [option_map] in Hp.
      * eapply image_file; eauto.
      * destruct (image_no_file power p d' name f I) as [dd [Gd Fd]]; [eauto|]. unfold file_in. rewrite Gd. exact Fd.
    + apply (image_lift power p); auto.
Qed.
Theorem C12_old_or_new power name chunks (d d' : disk) old : file_in d name (L "files") = Some old ->
  interrupted power (list_calls name chunks) d d' ->
  file_in d' name (L "files") = Some old \/ file_in d' name (L "files") = Some (concat chunks).
Proof. intros O I. apply (list_interrupted power name chunks d d' old O I). Qed.
Theorem C12_rest_untouched power name chunks (d d' : disk) old : file_in d name (L "files") = Some old ->
  interrupted power (list_calls name chunks) d d' ->
  (forall n, mget n d = None <-> mget n d' = None) /\
  forall n f, n <> name \/ (f <> tmp_name /\ f <> L "files") -> file_in d' n f = file_in d n f.
Proof. intros O I. apply (list_interrupted power name chunks d d' old O I). Qed.
(** the names read afterwards are exactly the old ones, or exactly the new ones *)
Theorem C12_names_read power name chunks (d d' : disk) old (new : list str) : file_in d name (L "files") = Some old ->
  concat chunks = concat (map (fun x => x ++ [nl]) new) -> ssorted new -> Forall (fun x => x <> [] /\ ~ In nl x) new ->
  interrupted power (list_calls name chunks) d d' ->
  exists c, file_in d' name (L "files") = Some c /\ (read_files c = read_files old \/ read_files c = new).
Proof.
  intros O C S F I. destruct (C12_old_or_new power name chunks d d' old O I) as [H|H]; rewrite H; eexists; split; try reflexivity; [left; reflexivity|].
  right. rewrite C. apply read_files_text; auto.
Qed.
(** the whole database reads as before, or as after a completed rewriting *)
Theorem C12_database power junk name chunks (d d' : disk) old : file_in d name (L "files") = Some old ->
  interrupted power (list_calls name chunks) d d' ->
  load junk d' = load junk d \/ load junk d' = load junk (put_file name (L "files") (concat chunks) d).
Proof.
  intros O I. destruct (list_interrupted power name chunks d d' old O I) as [P [K R]].
  assert (X : forall c, file_in d' name (L "files") = Some c -> load junk d' = load junk (put_file name (L "files") c d)).
  { intros c Hc. apply load_same. intro n. specialize (K n). unfold put_file. rewrite mget_mset.
    destruct (mget n d') as [b|] eqn:Gb.
    - destruct (mget n d) as [a|] eqn:Ga; [|destruct K as [K _]; specialize (K eq_refl); discriminate].
      assert (Fb : forall f, mget f b = file_in d' n f) by (intro f; unfold file_in; rewrite Gb; reflexivity).
      assert (Fa : forall f, mget f a = file_in d n f) by (intro f; unfold file_in; rewrite Ga; reflexivity).
      destruct (seqb n name) eqn:Nn.
      + apply seqb_eq in Nn. subst n. rewrite Ga, !Fb, !mget_mset. split; [|rewrite Hc; reflexivity].
        rewrite R by (right; split; discriminate). rewrite <- Fa. reflexivity.
      + apply seqb_neq in Nn. rewrite !Fb, !Fa. split; apply R; left; exact Nn.
    - destruct (seqb n name) eqn:Nn.
      + apply seqb_eq in Nn. subst n. unfold file_in in Hc. rewrite Gb in Hc. discriminate.
      + destruct (mget n d) as [a|]; [|exact Logic.I]. destruct K as [_ K]. specialize (K eq_refl). discriminate. }
  destruct P as [H|H]; [left|right; apply X; exact H]. rewrite (X old H). apply load_same. intro n. unfold put_file. rewrite mget_mset.
  destruct (seqb n name) eqn:Nn; [|destruct (mget n d); auto]. apply seqb_eq in Nn. subst n. unfold file_in in O.
  destruct (mget name d) as [a|]; [|discriminate]. rewrite !mget_mset. split; [reflexivity|]. rewrite seqb_refl, O. reflexivity.
Qed.
(** a completed rewriting is durable: even if the machine stops afterwards the new list is read *)
Theorem C12_durable power name chunks (d d' : disk) old : file_in d name (L "files") = Some old ->
  image power (execs (lift d) (list_calls name chunks)) d' -> file_in d' name (L "files") = Some (concat chunks).
Proof.
  intros O I. unfold file_in in O. destruct (mget name d) as [dir|] eqn:G; [|discriminate].
  destruct (list_points name d chunks dir (list_calls name chunks) [] G) as [_ P]; [rewrite app_nil_r; reflexivity|].
  destruct P as [[_ N]|[Li _]]; [congruence|]. eapply image_file; eauto.
Qed.
Example C12_witness : file_in (w_db w_foo) (L "foo") (L "files") <> None /\
  interrupted true (list_calls (L "foo") [L "usr/"; [nl]]) (w_db w_foo) (put_file (L "foo") tmp_name (L "garbage") (w_db w_foo)).
Proof.
  split; [vm_compute; discriminate|]. exists (firstn 3 (list_calls (L "foo") [L "usr/"; [nl]])), (skipn 3 (list_calls (L "foo") [L "usr/"; [nl]])).
  split; [symmetry; apply firstn_skipn|].
  intro n. assert (K : keys (w_db w_foo) = [L "foo"]) by (vm_compute; reflexivity).
  destruct (str_eq_dec n (L "foo")) as [->|N].
  - assert (A : exists dir, mget (L "foo") (w_db w_foo) = Some dir) by (vm_compute; eauto). destruct A as [dir A].
    unfold execs, put_file. cbn [list_calls app map firstn fold_left exec]. unfold pget. rewrite !mget_lift, A. cbn [option_map].
    rewrite !mget_mset, !seqb_refl. rewrite !mget_mset, !seqb_refl. cbn [list_calls app map firstn fold_left exec]. rewrite !mget_mset, !seqb_refl.
    intro f. rewrite !mget_mset. destruct (seqb f tmp_name); [right; split; reflexivity|]. rewrite ?mget_lift, A. cbn [option_map]. rewrite mget_lift_dir. destruct (mget f dir); cbn; auto.
  - assert (Z : mget n (w_db w_foo) = None) by (apply mget_None; fold (keys (w_db w_foo)); rewrite K; intros [H|[]]; congruence).
    unfold execs, put_file. cbn [list_calls app map firstn fold_left exec]. unfold pget. rewrite !mget_lift.
    assert (A : exists dir, mget (L "foo") (w_db w_foo) = Some dir) by (vm_compute; eauto). destruct A as [dir A]. rewrite A. cbn [option_map].
    rewrite !mget_mset, !seqb_refl. rewrite !mget_mset, !seqb_refl. rewrite !mget_mset, !(proj2 (seqb_neq n (L "foo")) N), mget_lift, Z. cbn. exact Logic.I.
Qed.

(** ** C13 *)
Definition script_or_meta (f : str) : Prop := In f [L "META"; L "POSTR"; L "PRER"].
(** calls that touch only the package [name] and never its list *)
Definition aside (name : str) (c : call) : Prop :=
  match c with
  | CMkdir n => n = name
  | CCreat n f | CWrite n f _ | CFsync n f | CMoveIn n f _ => n = name /\ f <> L "files"
  | _ => False
  end.
Lemma aside_keeps name c p : aside name c -> list_is name p None -> list_is name (exec p c) None.
Proof.
  intros A [pd [G F]]. destruct c; cbn [aside] in A; try contradiction; cbn [exec]; unfold pget;
    repeat match goal with H : _ /\ _ |- _ => destruct H as [-> ?] end; subst; rewrite ?G.
  - exists pd. auto.
  - eexists. split; [rewrite mget_mset, seqb_refl; reflexivity|]. rewrite mget_mset, (proj2 (seqb_neq (L "files") f)) by auto. exact F.
  - destruct (mget f pd); [|exists pd; auto]. eexists. split; [rewrite mget_mset, seqb_refl; reflexivity|]. rewrite mget_mset, (proj2 (seqb_neq (L "files") f)) by auto. exact F.
  - destruct (mget f pd); [|exists pd; auto]. eexists. split; [rewrite mget_mset, seqb_refl; reflexivity|]. rewrite mget_mset, (proj2 (seqb_neq (L "files") f)) by auto. exact F.
  - eexists. split; [rewrite mget_mset, seqb_refl; reflexivity|]. rewrite mget_mset, (proj2 (seqb_neq (L "files") f)) by auto. exact F.
Qed.
Lemma asides_keep name cs : forall p, Forall (aside name) cs -> list_is name p None -> list_is name (execs p cs) None.
Proof.
  induction cs as [|c cs IH]; intros p A P; [exact P|]. inversion A; subst. unfold execs. cbn [fold_left]. apply IH; auto. apply aside_keeps; auto.
Qed.
Lemma meta_aside name moved rew : Forall (fun e => script_or_meta (fst e)) moved -> Forall (aside name) (meta_calls name moved rew).
Proof.
  intro M. unfold meta_calls. constructor; [reflexivity|]. apply Forall_app. split.
  - apply Forall_map. eapply Forall_impl; [|exact M]. intros [f s] H. cbn [fst] in H. cbn. split; [reflexivity|]. intros ->. destruct H as [H|[H|[H|[]]]]; discriminate.
  - destruct rew as [chunks|]; [|constructor]. constructor; [split; [reflexivity|discriminate]|]. apply Forall_map. apply Forall_forall. intros s _. split; [reflexivity|discriminate].
Qed.
Definition install_body (name : str) moved rew chunks : list call :=
  meta_calls name moved rew ++ [CMkdir name; CCreat name tmp_name] ++ map (CWrite name tmp_name) chunks ++ [CFsync name tmp_name].
Lemma install_split name moved rew chunks : install_calls name moved rew chunks = install_body name moved rew chunks ++ [CRename name tmp_name (L "files")].
Proof. unfold install_calls, list_calls, install_body. rewrite <- !app_assoc. reflexivity. Qed.
Lemma install_body_aside name moved rew chunks : Forall (fun e => script_or_meta (fst e)) moved -> Forall (aside name) (install_body name moved rew chunks).
Proof.
  intro M. unfold install_body. apply Forall_app. split; [apply meta_aside; exact M|]. constructor; [reflexivity|]. constructor; [split; [reflexivity|discriminate]|].
  apply Forall_app. split; [|constructor; [split; [reflexivity|discriminate]|constructor]]. apply Forall_map, Forall_forall. intros s _. split; [reflexivity|discriminate].
Qed.
Lemma last_split {A} (l b a : list A) x : l ++ [x] = b ++ a -> a <> [] -> exists a', l = b ++ a'.
Proof.
  intros E N. destruct (exists_last N) as [a' [y ->]]. rewrite app_assoc in E. apply app_inj_tail in E as [E _]. exists a'. exact E.
Qed.
(** REFUTED. However the install of a new package is interrupted (process killed or machine stopped), from the creation of its
    directory until its file list is in place, the whole database cannot be loaded. An upgrade first removes the package's directory, so it
    has the same window. *)
Theorem C13_install_window_refuted power junk name moved rew chunks (d d' : disk) :
  nondot name = true -> mget name d = None -> Forall (fun e => script_or_meta (fst e)) moved ->
  interrupted_inside power (install_calls name moved rew chunks) d d' -> forall m, load junk d' <> Ok m.
Proof.
  intros N G M [before [after [Nb [Na [E I]]]]]. rewrite install_split in E. destruct (last_split _ _ _ _ E Na) as [a' E'].
  pose proof (install_body_aside name moved rew chunks M) as B. rewrite E' in B. apply Forall_app in B as [B _].
  destruct before as [|c before]; [congruence|]. unfold install_body, meta_calls in E'. cbn [app] in E'. inversion E'; subst c.
  assert (P : list_is name (execs (lift d) (CMkdir name :: before)) None).
  { unfold execs. cbn [fold_left exec]. rewrite mget_lift, G. cbn [option_map]. inversion B; subst. apply asides_keep; auto.
    eexists. rewrite mget_mset, seqb_refl. auto. }
  destruct (image_no_file power _ d' name (L "files") I P) as [dir [Gd Fd]]. exact (load_no_files junk d' name dir N Gd Fd).
Qed.
(** the interruptions outside the window: before the first call the database is the old one *)
Lemma image_same power (d d' : disk) : image power (lift d) d' -> same_db d d'.
Proof.
  intros I n. pose proof (I n) as In_. rewrite mget_lift in In_. pose proof (image_lift power (lift d) d' d n I (mget_lift d n)) as H. unfold file_in in H.
  destruct (mget n d) as [a|], (mget n d') as [b|]; cbn in In_; try contradiction; auto.
Qed.

(** removal: the state after deleting the files [l] *)
Lemma unlinks name (l : list str) : forall (p : pdisk) (pd : pdir), mget name p = Some pd -> exists pd' : pdir, mget name (execs p (map (CUnlink name) l)) = Some pd' /\
  (forall n, n <> name -> mget n (execs p (map (CUnlink name) l)) = mget n p) /\
  forall f, mget f pd' = if smem f l then None else mget f pd.
Proof.
  induction l as [|x l IH]; intros p pd G; [exists pd; cbn; auto|]. cbn [map]. unfold execs. cbn [fold_left exec]. unfold pget. rewrite G.
  destruct (IH (mset name (mdel x pd) p) (mdel x pd)) as [pd' [A [B C]]]; [rewrite mget_mset, seqb_refl; reflexivity|].
  exists pd'. split; [exact A|]. split.
  - intros n Nn. unfold execs in B. rewrite (B n Nn), mget_mset, (proj2 (seqb_neq n name)) by auto. reflexivity.
  - intro f. rewrite C, mget_mdel. cbn [smem]. destruct (seqb f x); cbn; [destruct (smem f l); reflexivity|reflexivity].
Qed.
Lemma prefix_map {A B} (g : A -> B) l x : forall b a, map g l ++ [x] = b ++ a -> a <> [] -> exists l1 l2, l = l1 ++ l2 /\ b = map g l1.
Proof.
  induction l as [|y l IH]; intros b a E N.
  - cbn in E. destruct b as [|z b]; [exists [], []; auto|]. cbn in E. inversion E. destruct b; [|discriminate]. cbn in *. congruence.
  - destruct b as [|z b]; [exists [], (y :: l); auto|]. cbn in E. inversion E. destruct (IH b a H1 N) as [l1 [l2 [-> ->]]]. exists (y :: l1), l2. auto.
Qed.
Definition files_unlinked (name : str) (before : list call) : Prop := In (CUnlink name (L "files")) before.
(** REFUTED. A removal interrupted after the file list was deleted and before the directory is gone leaves a database that cannot be loaded *)
Theorem C13_remove_window_refuted power junk name (d d' : disk) dir before after : nondot name = true -> mget name d = Some dir ->
  remove_calls name d = before ++ after -> after <> [] -> files_unlinked name before ->
  image power (execs (lift d) before) d' -> forall m, load junk d' <> Ok m.
Proof.
  intros N G E Na U I. unfold remove_calls in E. apply prefix_map in E as [l1 [l2 [_ ->]]]; [|exact Na].
  destruct (unlinks name l1 (lift d) (lift_dir dir)) as [pd [A [_ C]]]; [rewrite mget_lift, G; reflexivity|].
  destruct (image_no_file power _ d' name (L "files") I) as [dd [Gd Fd]].
  { exists pd. split; [exact A|]. rewrite C. unfold files_unlinked in U. apply in_map_iff in U as [f [Uf If]]. assert (Ef : f = L "files") by congruence. rewrite Ef in If.
    apply smem_In in If. rewrite If. reflexivity. }
  exact (load_no_files junk d' name dd N Gd Fd).
Qed.
(** ... but interrupted at any earlier point, it leaves a database that loads *)
Theorem C13_remove_before_list_partial power junk name (d d' : disk) dir m0 before after : mget name d = Some dir -> load junk d = Ok m0 ->
  remove_calls name d = before ++ after -> after <> [] -> ~ files_unlinked name before ->
  image power (execs (lift d) before) d' -> exists m, load junk d' = Ok m.
Proof.
  intros G Ld E Na U I. unfold remove_calls in E. apply prefix_map in E as [l1 [l2 [_ ->]]]; [|exact Na].
  destruct (unlinks name l1 (lift d) (lift_dir dir)) as [pd [A [B C]]]; [rewrite mget_lift, G; reflexivity|].
  assert (NF : smem (L "files") l1 = false).
  { destruct (smem (L "files") l1) eqn:S; [|reflexivity]. exfalso. apply U. apply in_map. apply smem_In. exact S. }
  apply load_spec in Ld as Sp. destruct Sp as [_ [P _]].
  assert (K : forall n dr, nondot n = true -> mget n d = Some dr -> exists r, load_pkg n dr = Ok r).
  { intros n dr Nn Gn. apply load_loop_spec in Ld as [_ [Q _]]; [|intros k Ik; apply load_names in Ik; tauto].
    destruct (Q n) as [dr' [r [H1 [H2 _]]]]; [apply load_names; split; [exact Nn|rewrite Gn; discriminate]|]. rewrite Gn in H1. inversion H1; subst. eauto. }
  apply load_ok. intros n dr Nn Gn. destruct (str_eq_dec n name) as [->|Nm].
  - destruct (K name dir Nn G) as [r Hr]. apply load_pkg_ok in Hr as [ls [c [r0 [M [F [R _]]]]]].
    assert (F' : file_in d' name (L "files") = Some c).
    { eapply image_file; [exact I|]. exists pd. split; [exact A|]. rewrite C, NF, mget_lift_dir, F. reflexivity. }
    unfold file_in in F'. rewrite Gn in F'. unfold load_pkg. rewrite F'.
    destruct (smem (L "META") l1) eqn:SM.
    + destruct (image_no_file power _ d' name (L "META") I) as [dd [Gd Fd]]; [exists pd; split; [exact A|]; rewrite C, SM; reflexivity|].
      rewrite Gn in Gd. inversion Gd; subst dd. rewrite Fd. cbn. eauto.
    + destruct (mget (L "META") dir) as [t|] eqn:Mt.
      * assert (M' : file_in d' name (L "META") = Some t) by (eapply image_file; [exact I|]; exists pd; split; [exact A|]; rewrite C, SM, mget_lift_dir, Mt; reflexivity).
        unfold file_in in M'. rewrite Gn in M'. rewrite M', M. cbn. rewrite R. cbn. eauto.
      * destruct (image_no_file power _ d' name (L "META") I) as [dd [Gd Fd]]; [exists pd; split; [exact A|]; rewrite C, SM, mget_lift_dir, Mt; reflexivity|].
        rewrite Gn in Gd. inversion Gd; subst dd. rewrite Fd. cbn. eauto.
  - pose proof (I n) as In_. rewrite (B n Nm), mget_lift, Gn in In_. destruct (mget n d) as [a|] eqn:Ga; [|contradiction].
    destruct (K n a Nn Ga) as [r Hr]. exists r. rewrite <- Hr. symmetry.
    assert (H : forall f, file_in d' n f = file_in d n f) by (apply (image_lift power (execs (lift d) (map (CUnlink name) l1))); [exact I|rewrite (B n Nm); apply mget_lift]).
    unfold file_in in H. rewrite Gn, Ga in H. apply load_pkg_same; symmetry; apply H.
Qed.

(** ** the calls, completed, are the operations of DbModel *)
Definition pfile (p : pdisk) (n f : str) : option str := match mget n p with Some pd => option_map cur (mget f pd) | None => None end.
Lemma image_pfile p (d : disk) : image false p d -> forall n f, file_in d n f = pfile p n f.
Proof.
  intros I n f. specialize (I n). unfold file_in, pfile. destruct (mget n p) as [pd|], (mget n d) as [dd|]; try contradiction; [|reflexivity].
  specialize (I f). destruct (mget f pd) as [c|], (mget f dd) as [s|]; try contradiction; [|reflexivity]. destruct I as [->|[I _]]; [reflexivity|discriminate].
Qed.
Lemma pfile_lift (d : disk) n f : pfile (lift d) n f = file_in d n f.
Proof. unfold pfile, file_in. rewrite mget_lift. destruct (mget n d) as [a|]; [|reflexivity]. cbn [option_map]. rewrite mget_lift_dir. destruct (mget f a); reflexivity. Qed.
Lemma pfile_set (p : pdisk) n f c n' f' : pfile (mset n (mset f c (pget p n)) p) n' f' = if seqb n' n && seqb f' f then Some (cur c) else pfile p n' f'.
Proof.
  unfold pfile, pget. rewrite mget_mset. destruct (seqb n' n) eqn:N; [|reflexivity]. apply seqb_eq in N. subst n'. cbn [andb]. rewrite mget_mset.
  destruct (seqb f' f); [reflexivity|]. destruct (mget n p); reflexivity.
Qed.
Lemma pfile_mkdir p n n' f' : pfile (exec p (CMkdir n)) n' f' = pfile p n' f'.
Proof.
  cbn [exec]. destruct (mget n p) as [pd|] eqn:G; [reflexivity|]. unfold pfile. rewrite mget_mset. destruct (seqb n' n) eqn:N; [|reflexivity].
  apply seqb_eq in N. subst n'. rewrite G. reflexivity.
Qed.
Lemma pfile_creat p n f n' f' : pfile (exec p (CCreat n f)) n' f' = if seqb n' n && seqb f' f then Some [] else pfile p n' f'.
Proof. cbn [exec]. rewrite pfile_set. reflexivity. Qed.
Lemma pfile_movein p n f s n' f' : pfile (exec p (CMoveIn n f s)) n' f' = if seqb n' n && seqb f' f then Some s else pfile p n' f'.
Proof. cbn [exec]. rewrite pfile_set. reflexivity. Qed.
Lemma pfile_write p n f s n' f' : pfile (exec p (CWrite n f s)) n' f' =
  if seqb n' n && seqb f' f then option_map (fun c => c ++ s) (pfile p n' f') else pfile p n' f'.
Proof.
  cbn [exec]. destruct (mget f (pget p n)) as [c|] eqn:F.
  - rewrite pfile_set. destruct (seqb n' n && seqb f' f) eqn:B; [|reflexivity]. apply andb_prop in B as [B1 B2]. apply seqb_eq in B1, B2. subst.
    unfold pfile, pget in *. destruct (mget n p); [|discriminate F]. rewrite F. reflexivity.
  - destruct (seqb n' n && seqb f' f) eqn:B; [|reflexivity]. apply andb_prop in B as [B1 B2]. apply seqb_eq in B1, B2. subst.
    unfold pfile, pget in *. destruct (mget n p); [|reflexivity]. rewrite F. reflexivity.
Qed.
Lemma pfile_writes n f chunks n' f' : forall p, pfile (execs p (map (CWrite n f) chunks)) n' f' =
  if seqb n' n && seqb f' f then option_map (fun c => c ++ concat chunks) (pfile p n' f') else pfile p n' f'.
Proof.
  induction chunks as [|s t IH]; intro p; unfold execs in *; cbn [map fold_left concat].
  - destruct (seqb n' n && seqb f' f); [|reflexivity]. destruct (pfile p n' f'); cbn; rewrite ?app_nil_r; reflexivity.
  - rewrite IH, pfile_write. destruct (seqb n' n && seqb f' f); [|reflexivity]. destruct (pfile p n' f'); cbn; rewrite ?app_assoc; reflexivity.
Qed.
Lemma pfile_fsync p n f n' f' : pfile (exec p (CFsync n f)) n' f' = pfile p n' f'.
Proof.
  cbn [exec]. destruct (mget f (pget p n)) as [c|] eqn:F; [|reflexivity]. rewrite pfile_set. destruct (seqb n' n && seqb f' f) eqn:B; [|reflexivity].
  apply andb_prop in B as [B1 B2]. apply seqb_eq in B1, B2. subst. unfold pfile, pget in *. destruct (mget n p); [|discriminate F]. rewrite F. reflexivity.
Qed.
Lemma pfile_rename p n f g n' f' s : f <> g -> pfile p n f = Some s ->
  pfile (exec p (CRename n f g)) n' f' = if seqb n' n then (if seqb f' g then Some s else if seqb f' f then None else pfile p n' f') else pfile p n' f'.
Proof.
  intros D F. cbn [exec]. unfold pfile in F. unfold pget. destruct (mget n p) as [pd|] eqn:G; [|discriminate]. destruct (mget f pd) as [c|] eqn:Fc; [|discriminate].
  unfold pfile. rewrite mget_mset. destruct (seqb n' n) eqn:N; [|reflexivity]. apply seqb_eq in N. subst n'. rewrite G, mget_mset.
  destruct (seqb f' g); [cbn in F; rewrite <- F; reflexivity|]. rewrite mget_mdel. destruct (seqb f' f); reflexivity.
Qed.
Lemma pfile_movein_all n moved n' f' : forall p, pfile (execs p (map (fun e => CMoveIn n (fst e) (snd e)) moved)) n' f' =
  if seqb n' n then (match mget f' (rev moved) with Some s => Some s | None => pfile p n' f' end) else pfile p n' f'.
Proof.
  induction moved as [|[f s] t IH]; intro p; unfold execs in *; cbn [map fold_left rev fst snd].
  - destruct (seqb n' n); reflexivity.
  - rewrite IH, pfile_movein. destruct (seqb n' n); [|reflexivity]. cbn [andb].
    assert (X : forall m : list (str * str), mget f' (m ++ [(f, s)]) = match mget f' m with Some x => Some x | None => if seqb f' f then Some s else None end).
    { induction m as [|[k v] m IHm]; [reflexivity|]. cbn [app mget]. destruct (seqb f' k); [reflexivity|]. apply IHm. }
    rewrite X. destruct (mget f' (rev t)); [reflexivity|]. destruct (seqb f' f); reflexivity.
Qed.
(** META as it is at the end of the calls *)
Definition final_meta (moved : list (str * str)) (rew : option (list str)) : option str :=
  match rew with Some chunks => Some (concat chunks) | None => mget (L "META") (rev moved) end.
Lemma install_done name moved rew chunks (d d' : disk) : image false (execs (lift d) (install_calls name moved rew chunks)) d' ->
  Forall (fun e => script_or_meta (fst e)) moved -> mget name d = None ->
  file_in d' name (L "files") = Some (concat chunks) /\ file_in d' name (L "META") = final_meta moved rew /\
  forall n f, n <> name -> file_in d' n f = file_in d n f.
Proof.
  intros I M G. pose proof (image_pfile _ _ I) as F. unfold install_calls in F. set (p1 := execs (lift d) (meta_calls name moved rew)).
  assert (P1 : forall n f, pfile p1 n f = if seqb n name then (if seqb f (L "META") then final_meta moved rew else mget f (rev moved)) else file_in d n f).
  { intros n f. unfold p1, meta_calls. change (CMkdir name :: ?l) with ([CMkdir name] ++ l). rewrite !execs_app.
    assert (Q : forall n f, pfile (execs (execs (lift d) [CMkdir name]) (map (fun e => CMoveIn name (fst e) (snd e)) moved)) n f =
                if seqb n name then mget f (rev moved) else file_in d n f).
    { intros n0 f0. rewrite pfile_movein_all. unfold execs. cbn [fold_left]. rewrite pfile_mkdir, pfile_lift. destruct (seqb n0 name) eqn:N; [|reflexivity].
      apply seqb_eq in N. subst n0. unfold file_in. rewrite G. destruct (mget f0 (rev moved)); reflexivity. }
    set (p0 := execs (execs (lift d) [CMkdir name]) _) in *. clearbody p0. destruct rew as [cs|]; cbn [final_meta].
    - change (CCreat name (L "META") :: map (CWrite name (L "META")) cs) with ([CCreat name (L "META")] ++ map (CWrite name (L "META")) cs).
      rewrite execs_app, pfile_writes. unfold execs. cbn [fold_left]. rewrite pfile_creat, Q. destruct (seqb n name); cbn [andb]; [|reflexivity].
      destruct (seqb f (L "META")) eqn:E; [reflexivity|reflexivity].
    - unfold execs. cbn [fold_left]. rewrite Q. destruct (seqb n name); [|reflexivity]. destruct (seqb f (L "META")) eqn:E; [|reflexivity]. apply seqb_eq in E. rewrite E. reflexivity. }
  assert (P2 : forall n f, file_in d' n f = if seqb n name then (if seqb f (L "files") then Some (concat chunks) else if seqb f tmp_name then None else pfile p1 n f) else pfile p1 n f).
  { intros n f. rewrite F, execs_app. fold p1. unfold list_calls. rewrite execs_app. change [CFsync name tmp_name; CRename name tmp_name (L "files")] with ([CFsync name tmp_name] ++ [CRename name tmp_name (L "files")]).
    rewrite !execs_app.
    set (p3 := execs (execs p1 [CMkdir name; CCreat name tmp_name]) (map (CWrite name tmp_name) chunks)).
    assert (P3 : forall n f, pfile p3 n f = if seqb n name && seqb f tmp_name then Some (concat chunks) else pfile p1 n f).
    { intros n0 f0. unfold p3. rewrite pfile_writes. unfold execs. cbn [fold_left]. rewrite pfile_creat, pfile_mkdir. destruct (seqb n0 name && seqb f0 tmp_name); reflexivity. }
    clearbody p3. change (execs (execs p3 [CFsync name tmp_name]) [CRename name tmp_name (L "files")]) with (exec (exec p3 (CFsync name tmp_name)) (CRename name tmp_name (L "files"))).
    rewrite (pfile_rename _ name tmp_name (L "files") n f (concat chunks)); [|exact tmp_files|].
    - rewrite pfile_fsync, P3. destruct (seqb n name); [|reflexivity]. cbn [andb]. destruct (seqb f (L "files")); [reflexivity|]. destruct (seqb f tmp_name); reflexivity.
    - rewrite pfile_fsync, P3, !seqb_refl. reflexivity. }
  split; [|split].
  - rewrite P2, !seqb_refl. reflexivity.
  - rewrite P2, seqb_refl. change (seqb (L "META") (L "files")) with false. change (seqb (L "META") tmp_name) with false. rewrite P1, !seqb_refl. reflexivity.
  - intros n f N. rewrite P2, P1, (proj2 (seqb_neq n name) N). reflexivity.
Qed.
(** a completed install leaves a database that loads, when the process is killed afterwards (but see the next theorem) *)
Theorem C13_install_complete_partial junk name moved rew chunks (d d' : disk) m0 r : load junk d = Ok m0 -> mget name d = None ->
  Forall (fun e => script_or_meta (fst e)) moved ->
  load_pkg name ((L "files", concat chunks) :: match final_meta moved rew with Some t => [(L "META", t)] | None => [] end) = Ok r ->
  image false (execs (lift d) (install_calls name moved rew chunks)) d' -> exists m, load junk d' = Ok m.
Proof.
  intros Ld G M R I. destruct (install_done name moved rew chunks d d' I M G) as [F1 [F2 F3]].
  apply load_ok. intros n dr Nn Gn. destruct (str_eq_dec n name) as [->|Nm].
  - exists r. rewrite <- R. unfold file_in in F1, F2. rewrite Gn in F1, F2. apply load_pkg_same; [rewrite F2|rewrite F1; reflexivity].
    destruct (final_meta moved rew); reflexivity.
  - pose proof (image_pfile _ _ I n (L "files")) as Q. specialize (F3 n).
    apply load_loop_spec in Ld as [_ [K _]]; [|intros k Ik; apply load_names in Ik; tauto].
    assert (E : exists a, mget n d = Some a).
    { destruct (mget n d) as [a|] eqn:Ga; [eauto|]. exfalso.
      assert (X : forall cs p, (forall c, In c cs -> exists k, k = name /\ match c with CMkdir x | CCreat x _ | CWrite x _ _ | CFsync x _ | CRename x _ _ | CMoveIn x _ _ => x = k | _ => False end) -> mget n p = None -> mget n (execs p cs) = None).
      { clear -Nm. induction cs as [|c cs IH]; intros p H P; [exact P|]. unfold execs. cbn [fold_left]. apply IH; [intros c0 I0; apply H; right; exact I0|].
        destruct (H c (or_introl eq_refl)) as [k [-> Hc]]. destruct c; try contradiction; subst; cbn [exec];
          repeat match goal with |- context [match ?x with _ => _ end] => lazymatch x with mget _ _ => destruct x end end; rewrite ?mget_mset, ?(proj2 (seqb_neq n name) Nm); exact P. }
      specialize (I n). rewrite X, Gn in I; [exact I| |rewrite mget_lift, Ga; reflexivity].
      intros c Ic. exists name. split; [reflexivity|]. rewrite install_split in Ic. apply in_app_iff in Ic as [Ic|[<-|[]]]; [|reflexivity].
      pose proof (install_body_aside name moved rew chunks M) as B. rewrite Forall_forall in B. specialize (B c Ic). destruct c; cbn [aside] in B; try contradiction; try tauto. }
    destruct E as [a Ga]. destruct (K n) as [dr' [r' [H1 [H2 _]]]]; [apply load_names; split; [exact Nn|rewrite Ga; discriminate]|].
    rewrite Ga in H1. inversion H1; subst dr'. exists r'. rewrite <- H2. unfold file_in in F3. rewrite Gn, Ga in F3. apply load_pkg_same; apply F3; exact Nm.
Qed.
(** REFUTED. META is never synced: if the machine stops after a completed install, the database may be unreadable *)
Theorem C13_meta_not_synced_refuted : exists (d' : disk),
  image true (execs (lift []) (install_calls (L "foo") [(L "META", L "Nfoo")] None [L "usr/"; [nl]])) d' /\ forall junk m, load junk d' <> Ok m.
Proof.
  exists [(L "foo", [(L "META", L "Rxx"); (L "files", L "usr/" ++ [nl])])]. split.
  - replace (execs _ _) with [(L "foo", [(L "META", Cell (L "Nfoo") false); (L "files", Cell (L "usr/" ++ [nl]) true)])] by (vm_compute; reflexivity).
    intro n. cbn [mget]. destruct (seqb n (L "foo")); [|exact Logic.I]. intro f. cbn [mget]. destruct (seqb f (L "META")); [right; auto|].
    destruct (seqb f (L "files")); [left; reflexivity|exact Logic.I].
  - intros junk m. assert (X : load junk [(L "foo", [(L "META", L "Rxx"); (L "files", L "usr/" ++ [nl])])] = Throw) by (destruct junk; vm_compute; reflexivity). rewrite X. discriminate.
Qed.
Example C13_window_witness : exists d' : disk, interrupted_inside false (install_calls (L "foo") [(L "META", L "Nfoo")] None [L "usr/"; [nl]]) [] d'.
Proof.
  exists [(L "foo", [])], [CMkdir (L "foo")], (skipn 1 (install_calls (L "foo") [(L "META", L "Nfoo")] None [L "usr/"; [nl]])).
  split; [discriminate|]. split; [vm_compute; discriminate|]. split; [reflexivity|]. intro n. unfold execs. cbn [fold_left exec lift map mget mset].
  destruct (seqb n (L "foo")); [intro f; exact Logic.I|exact Logic.I].
Qed.
