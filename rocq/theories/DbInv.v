(** The database invariant: every package directory is well formed, and no file is listed twice. *)
From Verif Require Import Base BaseProofs StrModel StrSpec StrProofs RulesModel RulesSpec RulesProofs FsModel FsSpec FsProofs FsOps FsExtract
  MetaModel MetaSpec MetaProofs DbModel DbLoad DbOps DbRun DbSpec.

Definition files_ok (F : list str) : Prop := ssorted F /\ Forall (fun x => x <> [] /\ ~ In nl x) F.
Definition dir_ok (dir : dbdir) : Prop :=
  Forall (fun e => nondot (fst e) = true) dir /\ exists F, mget (L "files") dir = Some (text_of F) /\ files_ok F.
Definition db_ok (d : disk) : Prop := forall n dir, mget n d = Some dir -> nondot n = true /\ dir_ok dir.
Definition no_share (d : disk) : Prop := forall n1 n2 x, n1 <> n2 -> lists d n1 x -> lists d n2 x -> ends_slash x = true.

Lemma nondot_spec n : nondot n = true <-> forall v, n <> "."%char :: v.
Proof.
  unfold nondot. rewrite negb_true_iff. split.
  - intros H v ->. discriminate.
  - intro H. destruct (has_tag "." n) eqn:E; auto. apply has_tag_In in E as [v ->]. exfalso. apply (H v). reflexivity.
Qed.
Lemma lists_text (d : disk) n (dir : dbdir) F x : mget n d = Some dir -> mget (L "files") dir = Some (text_of F) -> files_ok F -> (lists d n x <-> In x F).
Proof.
  intros G H [_ Fo]. assert (GL : getlines (text_of F) = F ++ [[]]).
  { apply getlines_text. eapply Forall_impl; [|exact Fo]. cbn. tauto. }
  split.
  - intros [dr [c [A [B [C D]]]]]. rewrite G in A. inversion A; subst dr. rewrite H in B. inversion B; subst c. rewrite GL in C.
    apply in_app_iff in C as [C|[C|[]]]; auto. congruence.
  - intro I. exists dir, (text_of F). split; auto. split; auto. split; [rewrite GL; apply in_app_iff; auto|].
    rewrite Forall_forall in Fo. apply Fo in I. tauto.
Qed.
Lemma lists_ext (d d' : disk) n x : mget n d = mget n d' -> lists d n x <-> lists d' n x.
Proof. intro E. unfold lists. rewrite E. tauto. Qed.

(** memory and disk agree on the file lists *)
Definition agree (d : disk) (m : mem) : Prop := ssorted (keys (m_pkgs m)) /\
  forall n, match mget n (m_pkgs m) with
            | Some r => files_ok (r_files r) /\ exists dir, mget n d = Some dir /\ mget (L "files") dir = Some (text_of (r_files r))
            | None => mget n d = None
            end.
Lemma load_loop_keys names d : forall m m', load_loop names d m = Ok m' -> ssorted (keys (m_pkgs m)) -> ssorted (keys (m_pkgs m')).
Proof.
  induction names as [|i t IH]; intros m m' E S; cbn in E; [inversion E; subst; auto|].
  destruct (mget i d) as [dir|]; [|inversion E; subst; auto]. apply rbind_ok in E as [r [_ E]].
  apply (IH _ _ E). cbn. apply mset_keys_sorted, S.
Qed.
Lemma load_keys junk d m : load junk d = Ok m -> ssorted (keys (m_pkgs m)).
Proof. intro E. eapply load_loop_keys; eauto. constructor. Qed.
Lemma load_complete junk (d : disk) m n : load junk d = Ok m -> nondot n = true -> mget n d <> None -> mget n (m_pkgs m) <> None.
Proof.
  intros E N G. apply load_loop_spec in E as [_ [A2 _]].
  - destruct (A2 n) as [dir [r [_ [_ H]]]]; [apply load_names; auto|congruence].
  - intros k I. apply load_names in I. tauto.
Qed.
Lemma load_agree junk d m : db_ok d -> load junk d = Ok m -> agree d m.
Proof.
  intros OK E. split; [eapply load_keys; eauto|]. intro n.
  pose proof (load_complete junk d m n E) as LC. apply load_spec in E as [_ [P _]].
  destruct (mget n (m_pkgs m)) as [r|] eqn:G.
  - apply P in G as [N [dir [G1 G2]]]. destruct (OK n dir G1) as [_ [_ [F [GF FO]]]].
    apply load_pkg_ok in G2 as [ls [c [r0 [_ [G3 [_ ->]]]]]]. rewrite GF in G3. inversion G3; subst c. cbn [with_files r_files].
    unfold read_files. destruct FO as [FO1 FO2]. rewrite read_files_text by auto. split; [split; auto|]. exists dir. auto.
  - destruct (mget n d) as [dir|] eqn:G1; auto. destruct (OK n dir G1) as [N _]. exfalso. apply LC; auto. discriminate.
Qed.

(** *** the invariant under the primitive updates *)
Lemma db_ok_mdel (d : disk) name : db_ok d -> db_ok (mdel name d).
Proof. intros OK n dir G. rewrite mget_mdel in G. destruct (seqb n name); [discriminate|]. apply OK, G. Qed.
Lemma lists_mdel (d : disk) name n x : lists (mdel name d) n x <-> lists d n x /\ n <> name.
Proof.
  unfold lists. rewrite mget_mdel. destruct (seqb n name) eqn:E.
  - apply seqb_eq in E. split; [intros [? [? [H _]]]; discriminate | intros [_ H]; contradiction].
  - apply seqb_neq in E. tauto.
Qed.
Lemma no_share_sub (d d' : disk) : (forall n x, lists d' n x -> lists d n x) -> no_share d -> no_share d'.
Proof. intros S NS n1 n2 x N L1 L2. apply (NS n1 n2 x N); auto. Qed.
Lemma remove_refs_disk junk name (w : world) m w' m' : db_ok (w_db w) -> remove_refs junk name (w, m) = Some (w', m') ->
  mget name (w_db w) <> None /\ w_db w' = mdel name (w_db w) /\ w_fs w' = w_fs w.
Proof.
  intros OK E. unfold remove_refs in E. destruct (mget name (w_db w)) as [dir|] eqn:G; [|discriminate].
  destruct (OK name dir G) as [_ [D _]].
  assert (Z : filter (fun e : str * str => negb (nondot (fst e))) dir = []).
  { apply filter_all_false. eapply Forall_impl; [|exact D]. cbn. intros a ->. reflexivity. }
  rewrite Z in E. inversion E; subst. cbn. split; [discriminate|auto].
Qed.

Lemma strip_disk files (w : world) m n : agree (w_db w) m -> db_ok (w_db w) ->
  let d2 := w_db (fst (fold_left (strip_one files) (m_pkgs m) (w, m))) in
  match mget n (w_db w) with
  | None => mget n d2 = None
  | Some dir => exists F, mget (L "files") dir = Some (text_of F) /\ files_ok F /\ files_ok (sminus F files) /\
                exists dir2, mget n d2 = Some dir2 /\ mget (L "files") dir2 = Some (text_of (sminus F files)) /\
                 (forall k, k <> L "files" -> mget k dir2 = mget k dir) /\ Forall (fun e => nondot (fst e) = true) dir2
  end.
Proof.
  intros [ND AG] OK d2. specialize (AG n). unfold d2. rewrite strip_fold_disk by (apply ssorted_NoDup, ND). cbn [fst].
  destruct (mget n (m_pkgs m)) as [r|].
  - destruct AG as [FO [dir [G H]]]. rewrite G. exists (r_files r). split; [exact H|]. split; [exact FO|].
    assert (FO2 : files_ok (sminus (r_files r) files)).
    { destruct FO as [A B]. split; [apply sminus_sorted, A|]. apply Forall_forall. intros x I. rewrite Forall_forall in B.
      apply B. apply sminus_In in I. tauto. }
    split; [exact FO2|]. destruct (OK n dir G) as [_ [D _]].
    destruct (length (sminus (r_files r) files) =? length (r_files r)) eqn:E.
    + apply Nat.eqb_eq, sminus_same in E. exists dir. rewrite E. split; auto.
    + eexists. split; [reflexivity|]. split; [rewrite mget_mset, seqb_refl; reflexivity|]. split.
      * intros k N. rewrite mget_mset. apply seqb_neq in N. rewrite N. reflexivity.
      * apply Forall_forall. intros [k v] I. cbn. assert (K : In k (keys (mset (L "files") (text_of (sminus (r_files r) files)) dir))) by (apply (in_map fst) in I; exact I).
        rewrite mset_keys in K. apply sins_In in K as [->|K]; [reflexivity|]. rewrite Forall_forall in D.
        apply in_map_iff in K as [[k' v'] [<- K]]. apply (D _ K).
  - rewrite AG. reflexivity.
Qed.
Lemma strip_ok files (w : world) m : agree (w_db w) m -> db_ok (w_db w) ->
  db_ok (w_db (fst (fold_left (strip_one files) (m_pkgs m) (w, m)))).
Proof.
  intros AG OK n dir2 G. pose proof (strip_disk files w m n AG OK) as H. cbv zeta in H.
  destruct (mget n (w_db w)) as [dir|] eqn:G0; [|congruence].
  destruct H as [F [_ [_ [FO [dr [G2 [GF [_ D]]]]]]]]. rewrite G2 in G. inversion G; subst dr.
  split; [apply (OK n dir G0)|]. split; [exact D|]. exists (sminus F files). auto.
Qed.
Lemma strip_lists files (w : world) m n x : agree (w_db w) m -> db_ok (w_db w) ->
  lists (w_db (fst (fold_left (strip_one files) (m_pkgs m) (w, m)))) n x <-> lists (w_db w) n x /\ ~ In x files.
Proof.
  intros AG OK. pose proof (strip_disk files w m n AG OK) as H. cbv zeta in H.
  destruct (mget n (w_db w)) as [dir|] eqn:G0.
  - destruct H as [F [HF [FO [FO2 [dr [G2 [GF _]]]]]]]. rewrite (lists_text _ n dir F x G0 HF FO), (lists_text _ n dr _ x G2 GF FO2).
    apply sminus_In.
  - unfold lists. rewrite H, G0. split; [intros [? [? [Z _]]]; discriminate | intros [[? [? [Z _]]] _]; discriminate].
Qed.

(** the file list of an archive *)
Lemma member_lines_lines a nm ls : member_lines a nm = Ok ls -> Forall (fun x => x <> [] /\ ~ In nl x) ls.
Proof.
  unfold member_lines. destruct (member a nm) as [n|]; [|intro E; inversion E; constructor].
  destruct (n_data n) as [|c t]; [discriminate|]. intro E. inversion E; subst. clear E.
  pose proof (tokens_props _ _ _ (split_char_tokens (cstr (removelast (c :: t))) nl)) as P.
  eapply Forall_impl; [|exact P]. intros x [A B]. split; auto. intro I. rewrite Forall_forall in B. apply (B nl I). reflexivity.
Qed.
Lemma open_archive_parts junk machine root a name info : open_archive junk machine root a = Ok (name, info) ->
  exists meta mtree, member_lines a (L ".META") = Ok meta /\ member_lines a (L ".MTREE") = Ok mtree /\
    first_tag "N" meta = Some name /\ name <> [] /\ r_files info = set_of (filter nondot mtree).
Proof.
  unfold open_archive. intro E. apply rbind_ok in E as [mtree [E1 E]]. apply rbind_ok in E as [meta [E2 E]].
  exists meta, mtree. split; auto. split; auto.
  destruct meta as [|m0 meta]; [discriminate|]. destruct mtree as [|t0 mtree]; [discriminate|].
  destruct (first_tag "N" (m0 :: meta)) as [nm|]; [|discriminate].
  destruct (_ && _ && _); [discriminate|]. apply rbind_ok in E as [rel [_ E]]. destruct nm as [|c nm]; [discriminate|].
  apply rbind_ok in E as [deps [_ E]]. inversion E; subst. split; auto. split; [discriminate|]. reflexivity.
Qed.
Lemma archive_files_ok junk machine root a name info : open_archive junk machine root a = Ok (name, info) -> files_ok (r_files info).
Proof.
  intro E. apply open_archive_parts in E as [meta [mtree [_ [E [_ [_ ->]]]]]]. apply member_lines_lines in E.
  split; [apply set_of_sorted|]. apply Forall_forall. intros x I. apply set_of_In, filter_In in I as [I _].
  rewrite Forall_forall in E. auto.
Qed.
Lemma ins_files_ok re rules files ins non post : apply_install_rules re rules files = Some (ins, non, post) -> files_ok files -> files_ok ins.
Proof.
  intros E [S F]. apply install_rules_spec in E as [A [_ C]]. split; [apply (C S)|].
  apply Forall_forall. intros x I. apply A in I as [I _]. rewrite Forall_forall in F. auto.
Qed.

(** *** moving the meta files *)
Definition entries_ok (d : disk) (name : str) : Prop := forall dir, mget name d = Some dir -> Forall (fun e => nondot (fst e) = true) dir.
Lemma put_entries name file c (d : disk) : nondot file = true -> entries_ok d name -> entries_ok (put_file name file c d) name.
Proof.
  intros N E dir G. unfold put_file in G. rewrite mget_mset, seqb_refl in G. inversion G; subst. clear G.
  apply Forall_forall. intros [k v] I.
  match type of I with In _ (mset ?a ?b ?c) => assert (K : In k (keys (mset a b c))) by (apply (in_map fst) in I; exact I) end.
  rewrite mset_keys in K. apply sins_In in K as [->|K]; auto.
  unfold entries_ok in E. destruct (mget name d) as [dr|]; [|destruct K]. specialize (E dr eq_refl). rewrite Forall_forall in E.
  apply in_map_iff in K as [[k' v'] [<- K]]. apply (E _ K).
Qed.
Lemma move_one_entries root name x w : nondot (skipn 1 x) = true -> entries_ok (w_db w) name -> entries_ok (w_db (move_one root name x w)) name.
Proof.
  intros N E. unfold move_one. destruct (fget (w_fs w) (comps (root ++ x))); auto. cbn. apply put_entries; auto.
Qed.
Lemma move_fold_entries root name xs : Forall (fun x => nondot (skipn 1 x) = true) xs -> forall w, entries_ok (w_db w) name ->
  entries_ok (w_db (fold_left (fun w x => move_one root name x w) xs w)) name.
Proof.
  induction 1 as [|x xs Hx _ IH]; intros w E; cbn; auto. apply IH, move_one_entries; auto.
Qed.
Lemma move_meta_entries root name w m w' m' : move_meta root name (w, m) = Ok (w', m') -> entries_ok (w_db w) name -> entries_ok (w_db w') name.
Proof.
  unfold move_meta. intros E N. destruct (fget _ (comps (root ++ L ".META"))) as [nd|]; [|discriminate].
  destruct (is_dir nd); [discriminate|]. destruct (parse_set (n_data nd)) as [ls|]; [|discriminate].
  cbv zeta in E. match type of E with context [fold_left ?g ?l ?w0] => set (wf := fold_left g l w0) in E end.
  assert (H : entries_ok (w_db wf) name).
  { unfold wf. apply move_fold_entries; auto. constructor; [reflexivity|]. apply Forall_app. split.
    - match goal with |- Forall _ (if ?b then _ else _) => destruct b end; [constructor; [reflexivity|constructor]|constructor].
    - match goal with |- Forall _ (if ?b then _ else _) => destruct b end; [constructor; [reflexivity|constructor]|constructor]. }
  clearbody wf. destruct (m_dep m); inversion E; subst; auto. cbn [w_db]. apply put_entries; auto.
Qed.

Definition inv (d : disk) : Prop := db_ok d /\ no_share d.
Definition world_of {A} (r : out A) : world := match r with Ret _ w _ => w | Stop _ w => w end.
Definition mem_of {A} (r : out A) : option mem := match r with Ret _ _ m => Some m | Stop _ _ => None end.
(** an outcome is fine: the invariant holds, and if the process goes on, its memory agrees with the disk *)
Definition fine {A} (r : out A) : Prop := inv (w_db (world_of r)) /\ (forall m, mem_of r = Some m -> agree (w_db (world_of r)) m).

Section AddInv.
  Variables (junk : bool) (machine : str) (re : str -> str -> option bool) (sh : str -> fs -> fs * bool) (root : str).

  (** the database after a successful add of [name] with file list [ins] *)
  Lemma final_lists name ins w5 (d3 : disk) (dir : dbdir) n x : (forall k, k <> name -> mget k (w_db w5) = mget k d3) -> files_ok ins ->
    lists (put_file name (L "files") (text_of ins) (w_db w5)) n x <->
    (n = name /\ In x ins) \/ (n <> name /\ lists d3 n x).
  Proof.
    intros O FO. destruct (str_eq_dec n name) as [->|N].
    - unfold put_file. erewrite lists_text; [|rewrite mget_mset, seqb_refl; reflexivity|rewrite mget_mset, seqb_refl; reflexivity|exact FO].
      split; [auto|]. intros [[_ H]|[H _]]; [auto|congruence].
    - assert (E : mget n (put_file name (L "files") (text_of ins) (w_db w5)) = mget n d3).
      { unfold put_file. rewrite mget_mset, (proj2 (seqb_neq n name)) by auto. auto. }
      rewrite (lists_ext _ _ n x E). split; [auto|]. intros [[H _]|[_ H]]; [congruence|auto].
  Qed.
  Lemma final_ok name ins w5 (d3 : disk) : (forall k, k <> name -> mget k (w_db w5) = mget k d3) -> files_ok ins -> nondot name = true ->
    entries_ok (w_db w5) name -> db_ok d3 -> db_ok (put_file name (L "files") (text_of ins) (w_db w5)).
  Proof.
    intros O FO N EO OK n dir G. destruct (str_eq_dec n name) as [->|Nn].
    - split; auto. split.
      + apply (put_entries name (L "files") (text_of ins) (w_db w5) eq_refl EO dir G).
      + exists ins. split; auto. unfold put_file in G. rewrite mget_mset, seqb_refl in G. inversion G; subst.
        rewrite mget_mset, seqb_refl. reflexivity.
    - unfold put_file in G. rewrite mget_mset, (proj2 (seqb_neq n name)) in G by auto. rewrite O in G by auto. apply OK, G.
  Qed.

  Lemma fine_stop {A} e w : inv (w_db w) -> @fine A (Stop e w).
  Proof. intro I. split; [exact I|]. discriminate. Qed.

  (** the memory *)
  Lemma strip_sorted files (l : list (str * rec)) : forall wm, ssorted (keys (m_pkgs (snd wm))) ->
    ssorted (keys (m_pkgs (snd (fold_left (strip_one files) l wm)))).
  Proof.
    induction l as [|p l IH]; intros wm S; cbn; auto. apply IH. unfold strip_one. destruct (_ =? _); auto.
    destruct wm as [w m]. cbn. apply mset_keys_sorted, S.
  Qed.
  Lemma strip_agree files (w : world) m : agree (w_db w) m -> db_ok (w_db w) ->
    agree (w_db (fst (fold_left (strip_one files) (m_pkgs m) (w, m)))) (snd (fold_left (strip_one files) (m_pkgs m) (w, m))).
  Proof.
    intros AG OK. split; [apply strip_sorted; apply AG|]. intro n. destruct AG as [ND AG]. pose proof (AG n) as An.
    pose proof (strip_disk files w m n (conj ND AG) OK) as SD. cbv zeta in SD.
    rewrite strip_fold_mem by (apply ssorted_NoDup, ND). cbn [snd].
    destruct (mget n (m_pkgs m)) as [r|] eqn:Gn.
    - destruct An as [Fr [dir [Gd Gf]]]. rewrite Gd in SD. destruct SD as [F [H1 [H2 [H3 [dir2 [H4 [H5 _]]]]]]].
      assert (EF : F = r_files r).
      { rewrite Gf in H1. inversion H1 as [H6]. destruct H2 as [S2 A2], Fr as [S1 A1].
        assert (X : getlines (text_of (r_files r)) = getlines (text_of F)) by congruence.
        rewrite !getlines_text in X by (eapply Forall_impl; [|eassumption]; cbn; tauto). apply app_inv_tail in X. auto. }
      subst F. destruct (length (sminus (r_files r) files) =? length (r_files r)) eqn:E.
      + apply Nat.eqb_eq, sminus_same in E. rewrite E in *. split; auto. exists dir2. auto.
      + cbn [strip_rec with_files r_files]. split; auto. exists dir2. auto.
    - rewrite An in SD. exact SD.
  Qed.
  Lemma remove_agree name keep (w : world) m w' m' : db_ok (w_db w) -> agree (w_db w) m ->
    remove_refs junk name (remove_files root name keep (w, m)) = Some (w', m') ->
    forall n, n <> name -> match mget n (m_pkgs m') with
            | Some r => files_ok (r_files r) /\ exists dir, mget n (w_db w') = Some dir /\ mget (L "files") dir = Some (text_of (r_files r))
            | None => mget n (w_db w') = None
            end.
  Proof.
    intros OK [_ AG] R n N. unfold remove_files in R. set (f1 := del_files root _ _) in R.
    pose proof (remove_refs_disk junk name (World f1 (w_db w)) (Mem (mdel name (m_pkgs m)) (mdel name (m_alias m)) (m_dep m)) w' m' OK R) as [_ [D _]].
    cbn [w_db] in D. rewrite D, mget_mdel, (proj2 (seqb_neq n name)) by auto.
    assert (P : mget n (m_pkgs m') = mget n (m_pkgs m)).
    { unfold remove_refs in R. cbn [w_db m_pkgs] in R. destruct (mget name (w_db w)); [|discriminate]. inversion R; subst. cbn [m_pkgs].
      rewrite mget_mdel, seqb_refl, mget_mset, mget_mdel, (proj2 (seqb_neq n name)) by auto. reflexivity. }
    rewrite P. apply AG.
  Qed.
  Lemma remove_sorted name keep (w : world) m w' m' : ssorted (keys (m_pkgs m)) ->
    remove_refs junk name (remove_files root name keep (w, m)) = Some (w', m') -> ssorted (keys (m_pkgs m')).
  Proof.
    intros S R. unfold remove_files, remove_refs in R. cbn [w_db m_pkgs] in R. destruct (mget name (w_db w)); [|discriminate].
    inversion R; subst. cbn [m_pkgs]. rewrite mget_mdel, seqb_refl. apply mset_keys_sorted, mdel_keys_sorted, S.
  Qed.
  Lemma move_meta_mem name w m w' m' : move_meta root name (w, m) = Ok (w', m') -> m_pkgs m' = m_pkgs m /\ m_alias m' = m_alias m.
  Proof.
    unfold move_meta. intros E. destruct (fget _ (comps (root ++ L ".META"))) as [nd|]; [|discriminate].
    destruct (is_dir nd); [discriminate|]. destruct (parse_set (n_data nd)) as [ls|]; [|discriminate].
    cbv zeta in E. match type of E with context [fold_left ?g ?l ?w0] => set (wf := fold_left g l w0) in E end. clearbody wf.
    destruct (m_dep m); inversion E; subst; auto.
  Qed.
  Lemma mark_auto_other name m n : n <> name -> mget n (m_pkgs (mark_auto junk name m)) = mget n (m_pkgs m).
  Proof.
    intro N. unfold mark_auto. destruct (mget name (m_pkgs m)) as [r|].
    - destruct (r_auto r); reflexivity.
    - cbn. rewrite mget_mset, (proj2 (seqb_neq n name)) by auto. reflexivity.
  Qed.
  Lemma mark_auto_sorted name m : ssorted (keys (m_pkgs m)) -> ssorted (keys (m_pkgs (mark_auto junk name m))).
  Proof.
    intro S. unfold mark_auto. destruct (mget name (m_pkgs m)) as [r|]; [destruct (r_auto r); auto|]. cbn. apply mset_keys_sorted, S.
  Qed.
  (** removal when the memory may hold a name the disk does not have *)
  Definition agree_but (name : str) (d : disk) (m : mem) : Prop := ssorted (keys (m_pkgs m)) /\
    forall n, n <> name -> match mget n (m_pkgs m) with
            | Some r => files_ok (r_files r) /\ exists dir, mget n d = Some dir /\ mget (L "files") dir = Some (text_of (r_files r))
            | None => mget n d = None
            end.
  Lemma remove_agree_but name keep (w : world) m w' m' : db_ok (w_db w) -> agree_but name (w_db w) m ->
    remove_refs junk name (remove_files root name keep (w, m)) = Some (w', m') -> agree_but name (w_db w') m' /\ w_db w' = mdel name (w_db w).
  Proof.
    intros OK [S AG] R. split; [split; [eapply remove_sorted; eauto|]|].
    - intros n N. unfold remove_files in R. set (f1 := del_files root _ _) in R.
      pose proof (remove_refs_disk junk name (World f1 (w_db w)) (Mem (mdel name (m_pkgs m)) (mdel name (m_alias m)) (m_dep m)) w' m' OK R) as [_ [D _]].
      cbn [w_db] in D. rewrite D, mget_mdel, (proj2 (seqb_neq n name)) by auto.
      assert (P : mget n (m_pkgs m') = mget n (m_pkgs m)).
      { unfold remove_refs in R. cbn [w_db m_pkgs] in R. destruct (mget name (w_db w)); [|discriminate]. inversion R; subst. cbn [m_pkgs].
        rewrite mget_mdel, seqb_refl, mget_mset, mget_mdel, (proj2 (seqb_neq n name)) by auto. reflexivity. }
      rewrite P. apply AG, N.
    - unfold remove_files in R. apply remove_refs_disk in R as [_ [D _]]; auto.
  Qed.

  (** no outcome of an add breaks the invariant *)
  Lemma add_fine o conf a w m : inv (w_db w) -> agree (w_db w) m -> named junk machine root a ->
    fine (add_run junk machine re sh root o conf a w m).
  Proof.
    intros IV AG NM. destruct IV as [OK NS]. assert (IV : inv (w_db w)) by (split; auto). unfold add_run.
    destruct (open_archive junk machine root a) as [[name info]| |] eqn:Eo; [|apply fine_stop, IV|apply fine_stop, IV].
    specialize (NM name info Eo).
    destruct (read_rules_file conf) as [rules|] eqn:Err; [|apply fine_stop, IV].
    destruct (name_exists m name && negb (o_upgrade o)) eqn:B1; [apply fine_stop, IV|].
    destruct (negb (name_exists m name) && o_upgrade o) eqn:B2; [apply fine_stop, IV|].
    destruct (apply_install_rules re rules (r_files info)) as [[[ins non] post]|] eqn:Ei; [|apply fine_stop, IV].
    assert (FO : files_ok ins) by (eapply ins_files_ok; eauto; eapply archive_files_ok; eauto).
    assert (P1 : forall w1, (if o_scripts o then pre_run sh root a w else inr w) = inr w1 \/ (if o_scripts o then pre_run sh root a w else inr w) = inl w1 -> w_db w1 = w_db w).
    { intros w1 H. destruct (o_scripts o); [eapply pre_run_db; eauto|]. destruct H as [H|H]; inversion H; auto. }
    destruct (if o_scripts o then pre_run sh root a w else inr w) as [w1|w1] eqn:Ep.
    { apply fine_stop. rewrite (P1 w1) by auto. exact IV. }
    assert (D1 : w_db w1 = w_db w) by (apply P1; auto). clear P1.
    set (cf := conflicts root name ins (w_fs w1) (m_pkgs m)) in *.
    (* phase 2 *)
    assert (P2 : forall w2 m2, (match cf with
           | [] => inr (w1, m)
           | _ => if o_force o then
                    match (if o_upgrade o then get_keep_list re rules cf else Some []) with
                    | None => inl BadRules
                    | Some kl => inr (strip_refs root cf kl (w1, m))
                    end
                  else inl (Conflict cf)
           end) = inr (w2, m2) -> db_ok (w_db w2) /\ (forall n x, lists (w_db w2) n x <-> lists (w_db w) n x /\ ~ In x cf) /\
             agree (w_db w2) m2).
    { intros w2 m2 E. assert (AG1 : agree (w_db w1) m) by (rewrite D1; exact AG).
      assert (OK1 : db_ok (w_db w1)) by (rewrite D1; exact OK).
      assert (Z : cf = [] -> w2 = w1 /\ m2 = m).
      { intro Z. rewrite Z in E. inversion E; auto. }
      destruct cf as [|c cf'] eqn:Ecf.
      - destruct (Z eq_refl) as [-> ->]. split; auto. split; [|auto]. intros n x. rewrite D1. cbn. tauto.
      - destruct (o_force o); [|discriminate].
        destruct (if o_upgrade o then get_keep_list re rules (c :: cf') else Some []) as [kl0|]; [|discriminate].
        inversion E as [E1]. apply strip_refs_parts in E1 as [_ [E1 E2]]. rewrite E1. split.
        + apply strip_ok; auto.
        + split; [intros n x; rewrite strip_lists by auto; rewrite D1; reflexivity|]. rewrite E2. apply strip_agree; auto. }
    match goal with |- context [match ?x with _ => _ end] =>
      match type of x with (stop + world * mem)%type => destruct x as [e|[w2 m2]] eqn:Ec end end.
    { apply fine_stop. rewrite D1. exact IV. }
    destruct (P2 w2 m2 eq_refl) as [OK2 [L2 AG2]]. clear P2 Ec.
    assert (NS2 : no_share (w_db w2)) by (eapply no_share_sub; [|exact NS]; intros n x H; apply L2 in H; tauto).
    (* phase 3 *)
    assert (P3 : forall w3 m3 kl, (if o_upgrade o
        then match get_keep_list re rules ins with
             | Some kl => match remove_refs junk name (remove_files root name kl (w2, mark_auto junk name m2)) with
                          | Some wm' => inr (wm', kl)
                          | None => inl (Exception, fst (remove_files root name kl (w2, mark_auto junk name m2)))
                          end
             | None => inl (BadRules, w2)
             end
        else inr (w2, m2, [])) = inr (w3, m3, kl) -> db_ok (w_db w3) /\ (forall n x, lists (w_db w3) n x -> lists (w_db w2) n x) /\
          agree_but name (w_db w3) m3).
    { intros w3 m3 kl E. destruct (o_upgrade o) eqn:U.
      - destruct (get_keep_list re rules ins) as [k|]; [|discriminate].
        destruct (remove_refs junk name (remove_files root name k (w2, mark_auto junk name m2))) as [[wx mx]|] eqn:R; [|discriminate].
        inversion E; subst. apply remove_agree_but in R as [R1 R2]; auto.
        + rewrite R2 in *. split; [apply db_ok_mdel; auto|]. split; [intros n x H; apply lists_mdel in H; tauto|]. exact R1.
        + destruct AG2 as [S2 A2]. split; [apply mark_auto_sorted, S2|]. intros n N. rewrite mark_auto_other by auto. apply A2.
      - inversion E; subst. split; auto. split; auto. destruct AG2 as [S2 A2]. split; [exact S2|]. intros n _. apply A2. }
    match goal with |- context [match ?x with _ => _ end] =>
      match type of x with (stop * world + world * mem * list str)%type => destruct x as [[e w3]|[[w3 m3] kl]] eqn:Eu end end.
    { assert (D3 : w_db w3 = w_db w2).
      { destruct (o_upgrade o); [|discriminate]. destruct (get_keep_list re rules ins) as [k|]; [|inversion Eu; auto].
        destruct (remove_refs _ _ _) as [wm|]; inversion Eu; subst. reflexivity. }
      apply fine_stop. rewrite D3. split; assumption. }
    destruct (P3 w3 m3 kl eq_refl) as [OK3 [L3 AG3]]. clear P3 Eu.
    assert (NS3 : no_share (w_db w3)) by (eapply no_share_sub; eauto).
    destruct (move_meta root name (World (install_archive root a kl non (w_fs w3)) (w_db w3), m3)) as [[w5 m5]| |] eqn:Em;
      [|apply fine_stop; split; assumption|apply fine_stop; split; assumption].
    assert (O5 : forall k, k <> name -> mget k (w_db w5) = mget k (w_db w3)).
    { intros k Nk. apply (move_meta_db root name _ _ _ _ k Em Nk). }
    assert (E5 : entries_ok (w_db w5) name).
    { eapply move_meta_entries; [exact Em|]. intros dir G. cbn in G. apply (OK3 name dir G). }
    destruct (move_meta_mem _ _ _ _ _ Em) as [M5 _].
    unfold add_files_refs. split; cbn [world_of mem_of]; rewrite post_run_db; cbn [w_db with_files r_files].
    - split.
      + apply (final_ok name ins w5 (w_db w3)); auto. apply nondot_spec, NM.
      + assert (K : forall n x, n <> name -> In x ins -> lists (w_db w3) n x -> ends_slash x = true).
        { intros n x Nn I H. destruct (ends_slash x) eqn:ES; auto. exfalso. apply L3, L2 in H as [H1 H2]. apply H2.
          unfold cf. apply conflicts_In. split; auto. split; auto. destruct AG as [ND AG].
          pose proof (AG n) as An. destruct (mget n (m_pkgs m)) as [r|] eqn:Gn.
          2:{ destruct H1 as [? [? [Z _]]]. congruence. }
          destruct An as [Fr [dir [Gd Gf]]]. assert (Ir : In x (r_files r)) by (apply (lists_text _ n dir _ x Gd Gf Fr), H1).
          split; [left; exists n, r; split; [apply mget_In, Gn|auto]|].
          intros r' Gr Ix. pose proof (AG name) as A0. rewrite Gr in A0. destruct A0 as [Fr' [dir' [Gd' Gf']]].
          assert (LN : lists (w_db w) name x) by (apply (lists_text _ name dir' _ x Gd' Gf' Fr'), Ix).
          specialize (NS n name x Nn H1 LN). congruence. }
        intros n1 n2 x N12 H1 H2.
        apply (final_lists name ins w5 (w_db w3) [] n1 x O5 FO) in H1. apply (final_lists name ins w5 (w_db w3) [] n2 x O5 FO) in H2.
        destruct H1 as [[-> I1]|[N1 H1]], H2 as [[-> I2]|[N2 H2]].
        * congruence.
        * apply (K n2); auto.
        * apply (K n1); auto.
        * apply (NS3 n1 n2); auto.
    - intros m' E. inversion E; subst m'. clear E. destruct AG3 as [S3 A3]. split.
      + cbn [m_pkgs]. apply mset_keys_sorted. rewrite M5. exact S3.
      + intro n. cbn [m_pkgs]. unfold put_file. rewrite !mget_mset. destruct (seqb n name) eqn:B.
        * cbn [r_files with_files]. split; auto. eexists. split; [reflexivity|]. rewrite mget_mset, seqb_refl. reflexivity.
        * apply seqb_neq in B. rewrite M5, O5 by auto. apply A3, B.
  Qed.

  Lemma rm_inv scripts conf name w m : inv (w_db w) -> inv (w_db (world_of (rm_run junk sh root scripts conf name w m))).
  Proof.
    intros I. unfold rm_run. destruct (read_rules_file conf); [|exact I]. destruct (negb (name_exists m name)); [exact I|].
    match goal with |- context [match ?x with _ => _ end] =>
      match type of x with (world + world)%type => set (s1 := x) end end.
    assert (D1 : forall w1, s1 = inr w1 \/ s1 = inl w1 -> w_db w1 = w_db w).
    { intros w1. unfold s1. destruct scripts; [|intros [H|H]; inversion H; auto].
      destruct (match mget name (w_db w) with Some d => mget (L "PRER") d | None => None end) as [s|]; [|intros [H|H]; inversion H; auto].
      destruct (sh s (w_fs w)) as [g [|]]; intros [H|H]; inversion H; auto. }
    destruct s1 as [w1|w1]; [cbn; rewrite (D1 w1); auto|]. specialize (D1 w1 (or_introl eq_refl)).
    cbn [remove_files].
    match goal with |- context [remove_refs junk name (?x, ?y)] => set (w3 := x); set (m2 := y) end.
    assert (D3 : w_db w3 = w_db w).
    { unfold w3. destruct scripts; auto. destruct (match mget name (w_db w) with Some d => mget (L "POSTR") d | None => None end); auto. }
    destruct (remove_refs junk name (w3, m2)) as [[w4 m4]|] eqn:R; [|cbn; rewrite D3; auto].
    apply remove_refs_disk in R as [_ [R _]]; [|rewrite D3; apply I]. cbn. rewrite R, D3. destruct I as [I1 I2]. split.
    - apply db_ok_mdel, I1.
    - eapply no_share_sub; [|exact I2]. intros n x H. apply lists_mdel in H. tauto.
  Qed.

  Lemma run_all_fine force scripts conf l : Forall (fun p => named junk machine root (snd p)) l ->
    forall w m, inv (w_db w) -> agree (w_db w) m -> fine (run_all junk machine re sh root force scripts conf l w m).
  Proof.
    induction l as [|[sd a] l IH]; intros NM w m I AG; cbn [run_all].
    - split; [exact I|]. intros m' E. inversion E; subst. exact AG.
    - inversion NM as [|? ? N1 N2]; subst. cbn in N1.
      match goal with |- context [add_run junk machine re sh root ?o conf a w ?m1] =>
        pose proof (add_fine o conf a w m1 I) as H end.
      assert (AG1 : agree (w_db w) (set_dep sd m)) by (destruct sd; exact AG). specialize (H AG1 N1).
      destruct (add_run _ _ _ _ _ _ _ _ _ _) as [nm w' m'|e w']; destruct H as [H1 H2]; cbn in H1, H2.
      + apply IH; auto.
      + apply fine_stop, H1.
  Qed.
  Lemma drop_all_inv names : forall w m, inv (w_db w) -> inv (w_db (world_of (drop_all junk root names w m))).
  Proof.
    induction names as [|n t IH]; intros w m I; cbn [drop_all]; [exact I|].
    destruct (remove_refs junk n (World (cleanup_meta (w_fs w) root) (w_db w), m)) as [[w1 m1]|] eqn:R; [|exact I].
    apply remove_refs_disk in R as [_ [R _]]; [|apply I]. cbn [remove_files]. apply IH. cbn [w_db] in *. rewrite R.
    destruct I as [I1 I2]. split; [apply db_ok_mdel, I1|]. eapply no_share_sub; [|exact I2]. intros k x H. apply lists_mdel in H. tauto.
  Qed.
  Definition op_named (x : op) : Prop :=
    match x with Add _ _ _ a => named junk machine root a | Many _ _ _ l _ => Forall (fun p => named junk machine root (snd p)) l | Remove _ _ _ => True end.
  Lemma session_inv x w : op_named x -> inv (w_db w) -> inv (w_db (snd (session junk machine re sh root x w))).
  Proof.
    intros NM I. unfold session. destruct (load junk _) as [m| |] eqn:El; [|exact I|exact I]. cbn [w_db] in El.
    assert (AG : agree (w_db w) m) by (eapply load_agree; eauto; apply I).
    assert (F : forall A (r : out A), snd (finish r) = world_of r) by (intros A []; reflexivity).
    destruct x as [o sd conf a|force scripts conf l obs|s conf name].
    - rewrite F. apply add_fine; auto. destruct sd; exact AG.
    - pose proof (run_all_fine force scripts conf l NM (World (cleanup_meta (w_fs w) root) (w_db w)) m I AG) as H.
      destruct (run_all _ _ _ _ _ _ _ _ _ _ _) as [u w1 m1|e w1]; destruct H as [H1 _]; cbn in H1 |- *; auto.
      rewrite F. apply drop_all_inv, H1.
    - rewrite F. apply rm_inv. exact I.
  Qed.
  Lemma history_inv xs : forall w, Forall op_named xs -> inv (w_db w) -> inv (w_db (history junk machine re sh root xs w)).
  Proof.
    induction xs as [|x xs IH]; intros w F I; [exact I|]. inversion F as [|? ? F1 F2]; subst. unfold history. cbn [fold_left].
    apply IH; auto. apply session_inv; auto.
  Qed.
  Lemma inv_empty : inv [].
  Proof. split; [intros n dir G; discriminate | intros n1 n2 x N [? [? [G _]]]; discriminate]. Qed.
End AddInv.
