(** What the engine does to a file system depends only on what is found at each path (DbModel.v, FsModel.v). *)
From Verif Require Import Base BaseProofs StrModel StrSpec StrProofs RulesModel FsModel FsSpec FsProofs FsOps MetaModel DbModel.

Definition feq (f g : fs) : Prop := forall q, fget f q = fget g q.
Lemma feq_refl f : feq f f. Proof. intro q. reflexivity. Qed.
Lemma feq_sym f g : feq f g -> feq g f. Proof. intros H q. symmetry. apply H. Qed.
Lemma feq_trans f g h : feq f g -> feq g h -> feq f h. Proof. intros A B q. rewrite A. apply B. Qed.
Lemma feq_del p f g : feq f g -> feq (fdel p f) (fdel p g).
Proof. intros H q. rewrite !fget_fdel. rewrite (H q). reflexivity. Qed.
Lemma feq_set p n f g : feq f g -> feq (fset p n f) (fset p n g).
Proof.
  intros H q. destruct (path_eq_dec q p) as [->|N]; [rewrite !fget_fset_same; reflexivity|]. rewrite !(fget_fset_other _ _ _ _ N). apply H.
Qed.
Lemma has_child_le f g p : feq f g -> has_child f p = true -> has_child g p = true.
Proof.
  intros H C. unfold has_child in *. apply existsb_exists in C as ([q n] & I & B). cbn [fst] in B.
  assert (N : fget g q <> None) by (rewrite <- (H q); apply fget_In; exists n; exact I).
  apply fget_In in N as [n' I']. apply existsb_exists. exists (q, n'). split; [exact I'|exact B].
Qed.
Lemma has_child_feq f g p : feq f g -> has_child f p = has_child g p.
Proof.
  intro H. destruct (has_child f p) eqn:A, (has_child g p) eqn:B; try reflexivity.
  - rewrite (has_child_le f g p H A) in B. discriminate B.
  - rewrite (has_child_le g f p (feq_sym f g H) B) in A. discriminate A.
Qed.
Lemma lstat_feq f g p : feq f g -> lstat f p = lstat g p.
Proof. intro H. unfold lstat. rewrite (H (comps p)). reflexivity. Qed.
Lemma exists_feq f g p : feq f g -> exists_file f p = exists_file g p.
Proof. intro H. unfold exists_file. rewrite (lstat_feq f g p H). reflexivity. Qed.
Lemma rm_feq f g p : feq f g -> fst (rm f p) = fst (rm g p) /\ feq (snd (rm f p)) (snd (rm g p)).
Proof.
  intro H. unfold rm. rewrite (lstat_feq f g p H), (has_child_feq f g (comps p) H). destruct (lstat g p) as [n|]; [|split; [reflexivity|exact H]].
  destruct (is_dir n); [|split; [reflexivity|apply feq_del, H]].
  destruct (_ || _ || _); [split; [reflexivity|exact H]|split; [reflexivity|apply feq_del, H]].
Qed.
Lemma remove_file_feq k : forall f g base p, feq f g ->
  match remove_file k f base p, remove_file k g base p with Some f', Some g' => feq f' g' | None, None => True | _, _ => False end.
Proof.
  induction k as [|k IH]; intros f g base p H; [exact Logic.I|]. cbn [remove_file]. destruct (seqb p base); [exact H|].
  destruct (rm_feq f g p H) as [A B]. destruct (rm f p) as [b f'], (rm g p) as [b' g']. cbn [fst snd] in A, B. subst b'.
  destruct b; [apply IH, B|exact B].
Qed.
Lemma removeFile_feq f g base p : feq f g -> feq (removeFile f base p) (removeFile g base p).
Proof.
  intro H. unfold removeFile. pose proof (remove_file_feq (length p + 2) f g base p H) as R.
  destruct (remove_file _ f base p), (remove_file _ g base p); try contradiction; assumption.
Qed.
Lemma cleanup_feq f g base : feq f g -> feq (cleanup_meta f base) (cleanup_meta g base).
Proof.
  unfold cleanup_meta. generalize meta_files. intro l. revert f g. induction l as [|m l IH]; intros f g H; [exact H|]. cbn [fold_left].
  apply IH. rewrite (exists_feq f g _ H). destruct (exists_file g (base ++ m)); [apply removeFile_feq, H|exact H].
Qed.
Lemma mk_parents_feq todo : forall f g dn, feq f g -> feq (mk_parents f dn todo) (mk_parents g dn todo).
Proof.
  induction todo as [|c t IH]; intros f g dn H; [exact H|]. cbn [mk_parents]. cbv zeta. apply IH. rewrite (H (dn ++ [c])).
  destruct (fget g (dn ++ [c])) as [n|]; [destruct (is_dir n); [exact H|]|]; apply feq_set, H.
Qed.
Lemma blocked_feq todo : forall f g dn, feq f g -> blocked f dn todo = blocked g dn todo.
Proof.
  induction todo as [|c t IH]; intros f g dn H; [reflexivity|]. cbn [blocked]. destruct t as [|c2 t]; [reflexivity|]. cbv zeta. rewrite (H (dn ++ [c])).
  rewrite (IH f g (dn ++ [c]) H). reflexivity.
Qed.
Lemma extract_feq f g name n : feq f g -> fst (extract f name n) = fst (extract g name n) /\ feq (snd (extract f name n)) (snd (extract g name n)).
Proof.
  intro H. unfold extract. destruct (comps name) as [|c cs].
  - rewrite (H []). destruct (is_dir n); [|split; [reflexivity|exact H]]. destruct (fget g []); [split; [reflexivity|apply feq_set, H]|split; [reflexivity|exact H]].
  - set (p := c :: cs). pose proof (mk_parents_feq (removelast p) f g [] H) as M. cbv zeta. destruct (is_dir n).
    + rewrite (M p). destruct (fget (mk_parents g [] (removelast p)) p) as [o|]; [destruct (is_dir o)|]; split; try reflexivity; apply feq_set, M.
    + rewrite (blocked_feq p f g [] H). destruct (blocked g [] p); [split; [reflexivity|exact H]|]. rewrite (H p), (has_child_feq f g p H).
      destruct (fget g p) as [o|]; [destruct (is_dir o && has_child g p); [split; [reflexivity|exact H]|]|]; split; try reflexivity; apply feq_set, M.
Qed.
Lemma perms_feq f g p q : feq f g -> perms_equal f p q = perms_equal g p q.
Proof. intro H. unfold perms_equal. rewrite (lstat_feq f g p H), (lstat_feq f g q H). reflexivity. Qed.
Lemma empty_feq f g p : feq f g -> file_empty f p = file_empty g p.
Proof. intro H. unfold file_empty. rewrite (lstat_feq f g p H). reflexivity. Qed.
Lemma files_feq f g p q : feq f g -> files_equal f p q = files_equal g p q.
Proof. intro H. unfold files_equal. rewrite (lstat_feq f g p H), (lstat_feq f g q H). reflexivity. Qed.

Section Ext.
  Variable root : str.
  Lemma del_one_feq f g x : feq f g -> feq (del_one root f x) (del_one root g x).
  Proof. intro H. unfold del_one. rewrite (exists_feq f g _ H). destruct (exists_file g (root ++ x)); [apply rm_feq, H|exact H]. Qed.
  Lemma del_files_feq xs : forall f g, feq f g -> feq (del_files root xs f) (del_files root xs g).
  Proof. unfold del_files. induction (rev xs) as [|x l IH]; intros f g H; [exact H|]. cbn [fold_left]. apply IH, del_one_feq, H. Qed.
  Lemma entry_feq keep non f g e : feq f g -> feq (install_entry root keep non f e) (install_entry root keep non g e).
  Proof.
    intro H. unfold install_entry. destruct e as [x n]. destruct (smem x non); [exact H|]. cbv zeta. rewrite (exists_feq f g _ H).
    set (real := if exists_file g (orig_name root x) && smem x keep then rejected_name root x else orig_name root x). clearbody real.
    destruct (extract_feq f g real n H) as [A B]. destruct (extract f real n) as [b f'], (extract g real n) as [b' g']. cbn [fst snd] in A, B. subst b'.
    destruct b; [|exact B]. destruct (seqb real (orig_name root x)); [exact B|].
    rewrite (perms_feq f' g' real (orig_name root x) B), (empty_feq f' g' real B), (files_feq f' g' real (orig_name root x) B).
    match goal with |- feq (if ?c then _ else _) _ => destruct c end; [apply removeFile_feq, B|exact B].
  Qed.
  Lemma archive_feq keep non a : forall f g, feq f g -> feq (install_archive root a keep non f) (install_archive root a keep non g).
  Proof. unfold install_archive. induction a as [|e a IH]; intros f g H; [exact H|]. cbn [fold_left]. apply IH, entry_feq, H. Qed.
  Lemma conflicts_feq f g name files pkgs : feq f g -> conflicts root name files f pkgs = conflicts root name files g pkgs.
  Proof.
    intro H. unfold conflicts. cbv zeta. generalize (conflicts_db name files pkgs). intro c0.
    assert (E : fold_left (fun acc x => if exists_file f (root ++ x) && negb (smem x acc) then sins x acc else acc) files c0 =
                fold_left (fun acc x => if exists_file g (root ++ x) && negb (smem x acc) then sins x acc else acc) files c0).
    { revert c0. induction files as [|x l IH]; intro c0; [reflexivity|]. cbn [fold_left]. rewrite (exists_feq f g _ H). apply IH. }
    rewrite E. reflexivity.
  Qed.
  Definition weq (v w : world) : Prop := feq (w_fs v) (w_fs w) /\ w_db v = w_db w.
  Lemma move_one_feq name x v w : weq v w -> weq (move_one root name x v) (move_one root name x w).
  Proof.
    intros [A B]. unfold move_one. rewrite (A (comps (root ++ x))). destruct (fget (w_fs w) (comps (root ++ x))) as [n|]; [|split; assumption].
    split; cbn [w_fs w_db]; [apply feq_del, A|rewrite B; reflexivity].
  Qed.
  Lemma moves_feq name xs : forall v w, weq v w ->
    weq (fold_left (fun w x => move_one root name x w) xs v) (fold_left (fun w x => move_one root name x w) xs w).
  Proof. induction xs as [|x xs IH]; intros v w H; [exact H|]. cbn [fold_left]. apply IH, move_one_feq, H. Qed.
  Lemma move_meta_feq name v w m : weq v w ->
    match move_meta root name (v, m), move_meta root name (w, m) with
    | Ok (v', m1), Ok (w', m2) => weq v' w' /\ m1 = m2 | UB, UB => True | Throw, Throw => True | _, _ => False end.
  Proof.
    intros [A B]. unfold move_meta. cbv zeta. set (f0 := removeFile (w_fs v) root (L "/.MTREE")). set (g0 := removeFile (w_fs w) root (L "/.MTREE")).
    assert (H : feq f0 g0) by (apply removeFile_feq, A). clearbody f0 g0. rewrite (H (comps (root ++ L ".META"))), !(exists_feq f0 g0 _ H), B.
    destruct (fget g0 (comps (root ++ L ".META"))) as [n|]; [|exact Logic.I]. destruct (is_dir n); [exact Logic.I|]. destruct (parse_set (n_data n)) as [ls|]; [|exact Logic.I].
    match goal with |- context [fold_left _ ?l (World f0 _)] => generalize l end. intro xs.
    assert (W : weq (World f0 (w_db w)) (World g0 (w_db w))) by (split; [exact H|reflexivity]).
    destruct (moves_feq name xs _ _ W) as [C D]. destruct (m_dep m); split; try reflexivity.
    - split; cbn [w_fs w_db]; [exact C|rewrite D; reflexivity].
    - split; assumption.
  Qed.
  Lemma post_feq sh v w : weq v w -> weq (post_run sh root false v) (post_run sh root false w).
  Proof.
    intros [A B]. unfold post_run. cbv zeta. rewrite (exists_feq _ _ (pre_path root) A).
    set (f1 := if exists_file (w_fs w) (pre_path root) then snd (rm (w_fs v) (pre_path root)) else w_fs v).
    set (g1 := if exists_file (w_fs w) (pre_path root) then snd (rm (w_fs w) (pre_path root)) else w_fs w).
    assert (H : feq f1 g1) by (unfold f1, g1; destruct (exists_file (w_fs w) (pre_path root)); [apply rm_feq, A|exact A]). clearbody f1 g1.
    rewrite (exists_feq f1 g1 _ H). split; [|exact B]. cbn [w_fs]. destruct (exists_file g1 (post_path root)); [apply rm_feq, H|exact H].
  Qed.
End Ext.
