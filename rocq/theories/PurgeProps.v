(** C49: what purge deletes. *)
From Verif Require Import Base BaseProofs StrModel StrSpec StrProofs FsModel FsSpec FsProofs FsOps MetaSpec ConfModel ConfProps.
From Coq Require Import Lia.

(** ** specification *)
(** real file systems: every component is a file name *)
Definition names_ok (f : fs) : Prop := forall p, fget f p <> None -> Forall comp p.
(** the directory of a collection *)
Definition coll_dir (d : dirurl) : path := comps (u_depot d) ++ comps (u_coll d).
(** neither directory nor link *)
Definition plain_file_at (f : fs) (p : path) : Prop := exists n, fget f p = Some n /\ n_kind n <> KDir /\ n_kind n <> KLnk.
Definition dotted (c : str) : Prop := exists t, c = "."%char :: t.
(** strictly below the directory, through no name starting with a dot *)
Definition visible_below (dir p : path) : Prop := exists r, r <> [] /\ p = dir ++ r /\ Forall (fun c => ~ dotted c) r.

(** ** proofs *)
Lemma comps_slash a x : comps (a ++ slash :: x) = comps a ++ comps x.
Proof.
  replace (a ++ slash :: x) with ((a ++ [slash]) ++ x) by (rewrite <- app_assoc; reflexivity). rewrite comps_app by (right; apply ends_slash_spec; eauto). rewrite comps_snoc_slash. reflexivity.
Qed.
Lemma comps_child a c : comp c -> comps (a ++ slash :: c) = comps a ++ [c].
Proof. intro C. rewrite comps_slash. f_equal. exact (comps_join [c] (Forall_cons _ C (Forall_nil _))). Qed.
Lemma coll_path_dir d : comps (coll_path d) = coll_dir d.
Proof. apply comps_slash. Qed.
Lemma entries_In f p c : In c (entries f p) <-> fget f (p ++ [c]) <> None.
Proof.
  unfold entries. rewrite set_of_In, in_flat_map, fget_In. split.
  - intros [[q n] [I H]]. cbn [fst] in H. unfold entry_of in H. destruct ((length q =? S (length p)) && peqb p (firstn (length p) q)) eqn:E; [|destruct H]. apply andb_true_iff in E as [E1 E2]. apply Nat.eqb_eq in E1. apply peqb_eq in E2.
    destruct (nth_error q (length p)) as [x|] eqn:N; [|destruct H]. destruct H as [->|[]]. exists n. replace (p ++ [c]) with q; [exact I|].
    rewrite <- (firstn_skipn (length p) q), <- E2. f_equal. apply nth_error_split in N as [a [b [-> L]]]. rewrite <- L, skipn_len. rewrite app_length in E1. cbn in E1. destruct b; [reflexivity|cbn in E1; lia].
  - intros [n I]. exists (p ++ [c], n). split; [exact I|]. cbn [fst]. unfold entry_of. rewrite app_length, firstn_len, peqb_refl. cbn [List.length]. rewrite Nat.add_1_r, Nat.eqb_refl. cbn [andb].
    rewrite nth_error_app2 by lia. rewrite Nat.sub_diag. left. reflexivity.
Qed.
Lemma hidden_dotted c : comp c -> (hidden c = false <-> ~ dotted c).
Proof.
  intros [N _]. destruct c as [|x t]; [contradiction|]. cbn. rewrite ceqb_neq. split.
  - intros H [u E]. injection E as E _. contradiction.
  - intros H E. apply H. exists t. rewrite E. reflexivity.
Qed.
Lemma kind_lnk m : kind_eqb (n_kind m) KLnk = true <-> n_kind m = KLnk.
Proof. destruct (n_kind m); cbn; split; congruence. Qed.
Lemma find_sound f : names_ok f -> forall fuel dir x, In x (find_files fuel f dir) -> visible_below (comps dir) (comps x) /\ plain_file_at f (comps x).
Proof.
  intro W. induction fuel as [|k IH]; intros dir x I; cbn [find_files] in I; [destruct I|]. destruct (fget f (comps dir)) as [n|]; [|destruct I]. destruct (is_dir n); [|destruct I].
  apply in_flat_map in I as [c [Ic I]]. destruct (hidden c) eqn:H; [destruct I|]. destruct (fget f (comps dir ++ [c])) as [m|] eqn:G; [|destruct I].
  assert (C : comp c). { assert (F : Forall comp (comps dir ++ [c])) by (apply W; congruence). apply Forall_app in F as [_ F]. inversion F; assumption. }
  apply (hidden_dotted c C) in H. destruct (kind_eqb (n_kind m) KLnk) eqn:K; [destruct I|]. destruct (is_dir m) eqn:D.
  - destruct (IH _ _ I) as [[r [Nr [E Fr]]] P]. split; [|exact P]. rewrite (comps_child dir c C) in E. exists (c :: r). split; [discriminate|]. split; [rewrite E, <- app_assoc; reflexivity|]. constructor; assumption.
  - destruct I as [<-|[]]. rewrite (comps_child dir c C). split.
    + exists [c]. split; [discriminate|]. split; [reflexivity|]. constructor; [exact H|constructor].
    + exists m. split; [exact G|]. split; [intro E; apply is_dir_kind in E; congruence|intro E; apply kind_lnk in E; congruence].
Qed.
Lemma child_no_slash dir c : comp c -> ends_slash (dir ++ slash :: c) = false.
Proof.
  intros [N [S _]]. destruct (ends_slash (dir ++ slash :: c)) eqn:E; [|reflexivity]. exfalso. apply ends_slash_spec in E as [t E]. destruct (exists_last N) as [u [y Ey]]. rewrite Ey in E.
  replace (dir ++ slash :: u ++ [y]) with ((dir ++ slash :: u) ++ [y]) in E by (rewrite <- app_assoc; reflexivity). apply app_inj_tail in E as [_ E]. apply S. rewrite Ey, E. apply in_app_iff. right. left. reflexivity.
Qed.
Lemma find_complete f : names_ok f -> tree f -> forall r fuel dir, r <> [] -> Forall (fun c => ~ dotted c) r -> plain_file_at f (comps dir ++ r) -> length r <= fuel ->
  exists x, In x (find_files fuel f dir) /\ comps x = comps dir ++ r /\ ends_slash x = false.
Proof.
  intros W T. induction r as [|c r IH]; intros fuel dir N V P L; [contradiction|]. destruct fuel as [|k]; [cbn in L; lia|]. cbn [find_files].
  destruct P as [m [G [K1 K2]]]. assert (F : Forall comp (comps dir ++ c :: r)) by (apply W; congruence). apply Forall_app in F as [_ F]. inversion F as [|? ? C Fr]; subst.
  inversion V as [|? ? Vc Vr]; subst.
  assert (D : dir_at f (comps dir)). { apply (tree_below f (comps dir) (comps dir ++ c :: r) T); [congruence|exists (c :: r); split; [discriminate|reflexivity]]. }
  destruct D as [n [Gn Kn]]. rewrite Gn. apply is_dir_kind in Kn. rewrite Kn.
  destruct r as [|c2 r].
  - exists (dir ++ slash :: c). split; [|split; [apply comps_child, C|apply child_no_slash, C]]. apply in_flat_map. exists c. split; [apply entries_In; congruence|]. rewrite (proj2 (hidden_dotted c C) Vc), G.
    destruct (kind_eqb (n_kind m) KLnk) eqn:E; [apply kind_lnk in E; contradiction|]. destruct (is_dir m) eqn:E2; [apply is_dir_kind in E2; contradiction|]. left. reflexivity.
  - assert (D : dir_at f (comps dir ++ [c])). { apply (tree_below f _ (comps dir ++ c :: c2 :: r) T); [congruence|exists (c2 :: r); split; [discriminate|rewrite <- app_assoc; reflexivity]]. }
    destruct D as [n2 [Gn2 Kn2]]. destruct (IH k (dir ++ slash :: c)) as [x [Ix [Ex Sx]]].
    + discriminate.
    + exact Vr.
    + rewrite (comps_child dir c C), <- app_assoc. exists m. auto.
    + cbn in L |- *. lia.
    + exists x. split; [|split; [rewrite Ex, (comps_child dir c C), <- app_assoc; reflexivity|exact Sx]]. apply in_flat_map. exists c. split; [apply entries_In; congruence|]. rewrite (proj2 (hidden_dotted c C) Vc), Gn2.
      destruct (kind_eqb (n_kind n2) KLnk) eqn:E; [apply kind_lnk in E; congruence|]. apply is_dir_kind in Kn2. rewrite Kn2. exact Ix.
Qed.
Lemma depth_ge f p : fget f p <> None -> length p <= depth f.
Proof. intro H. apply fget_In in H as [n I]. unfold depth. induction f as [|[q m] t IH]; [destruct I|]. cbn [fold_right fst]. destruct I as [E|I]; [injection E as -> _; lia|specialize (IH I); lia]. Qed.

Lemma rm_all_cases xs : forall f p, (fget (fold_left (fun f x => snd (rm f x)) xs f) p = fget f p) \/ (fget (fold_left (fun f x => snd (rm f x)) xs f) p = None /\ exists x, In x xs /\ comps x = p).
Proof.
  induction xs as [|x t IH]; intros f p; cbn [fold_left]; [left; reflexivity|]. destruct (IH (snd (rm f x)) p) as [E|[E [y [I Y]]]].
  - rewrite E. destruct (rm f x) as [b f'] eqn:R. cbn [snd]. apply rm_spec in R as [[_ ->]|[_ [-> _]]]; [left; reflexivity|]. rewrite fget_fdel. destruct (peqb p (comps x)) eqn:B; [|left; reflexivity]. apply peqb_eq in B. right. split; [reflexivity|]. exists x. split; [left; reflexivity|congruence].
  - right. split; [exact E|]. exists y. split; [right; exact I|exact Y].
Qed.
Lemma rm_all_deletes xs x n : forall f, In x xs -> ends_slash x = false -> fget f (comps x) = Some n -> n_kind n <> KDir -> fget (fold_left (fun f x => snd (rm f x)) xs f) (comps x) = None.
Proof.
  intros f I S G K. revert f G. induction xs as [|y t IH]; intros f G; [destruct I|]. cbn [fold_left].
  assert (Z : fget (snd (rm f y)) (comps x) = fget f (comps x) \/ fget (snd (rm f y)) (comps x) = None).
  { destruct (rm_all_cases [y] f (comps x)) as [E|[E _]]; cbn in E; auto. }
  assert (Nn : fget (snd (rm f y)) (comps x) = None -> fget (fold_left (fun f x => snd (rm f x)) t (snd (rm f y))) (comps x) = None).
  { intro E. destruct (rm_all_cases t (snd (rm f y)) (comps x)) as [H|[H _]]; [rewrite H; exact E|exact H]. }
  destruct (str_eq_dec y x) as [->|Ny].
  - apply Nn. rewrite (rm_ok f x n); [apply fget_fdel_same| |intro Kd; contradiction]. unfold lstat. rewrite G, S. reflexivity.
  - destruct I as [->|I]; [contradiction|]. destruct Z as [E|E]; [apply (IH I); rewrite E; exact G|apply Nn, E].
Qed.
Lemma rm_all_tree xs : forall f, tree f -> tree (fold_left (fun f x => snd (rm f x)) xs f).
Proof. induction xs as [|x t IH]; intros f T; [exact T|]. cbn [fold_left]. apply IH, rm_tree, T. Qed.
Lemma fold_sins_In x l : forall acc, In x (fold_left (fun s y => sins y s) l acc) <-> In x l \/ In x acc.
Proof.
  induction l as [|y t IH]; intro acc; cbn [fold_left]; [split; [auto|intros [[]|H]; exact H]|]. rewrite IH, sins_In. cbn. split; [intros [H|[->|H]]; auto|intros [[->|H]|H]; auto].
Qed.
Section Purge.
  Variable f0 : fs.
  Hypothesis W0 : names_ok f0.
  Variable ds0 : list dirurl.
  Definition owned (p : path) : Prop := exists d, In d ds0 /\ u_url d <> [] /\ visible_below (coll_dir d) p /\ plain_file_at f0 p.
  Definition shrunk (f : fs) : Prop := forall p, fget f p = fget f0 p \/ (fget f p = None /\ owned p).
  Lemma shrunk_names f : shrunk f -> names_ok f.
  Proof. intros H p N. apply W0. destruct (H p) as [E|[E _]]; congruence. Qed.
  Lemma purge_dirs_sound ds : incl ds ds0 -> forall acc f, (forall x, In x acc -> owned (comps x)) -> shrunk f -> shrunk (purge_dirs acc ds f).
  Proof.
    induction ds as [|d t IH]; intros Il acc f A H; cbn [purge_dirs]; [exact H|]. assert (It : incl t ds0) by (intros y Y; apply Il; right; exact Y).
    destruct (u_url d) as [|u0 us] eqn:Eu; cbn [is_nil]; [apply (IH It); assumption|].
    assert (A' : forall x, In x (fold_left (fun s x => sins x s) (find_all f (coll_path d)) acc) -> owned (comps x)).
    { intros x I. apply fold_sins_In in I as [I|I]; [|exact (A x I)]. apply (find_sound f (shrunk_names f H)) in I as [V P]. rewrite coll_path_dir in V. exists d. split; [apply Il; left; reflexivity|]. split; [congruence|]. split; [exact V|].
      destruct P as [n [G K]]. exists n. split; [|exact K]. destruct (H (comps x)) as [E|[E _]]; congruence. }
    apply (IH It); [exact A'|]. intro p. destruct (rm_all_cases (fold_left (fun s x => sins x s) (find_all f (coll_path d)) acc) f p) as [E|[E [x [I X]]]].
    - rewrite E. apply H.
    - right. split; [exact E|]. rewrite <- X. apply A', I.
  Qed.
  Hypothesis T0 : tree f0.
  Lemma purge_dirs_tree ds : forall acc f, tree f -> tree (purge_dirs acc ds f).
  Proof. induction ds as [|d t IH]; intros acc f T; cbn [purge_dirs]; [exact T|]. destruct (is_nil (u_url d)); [apply IH, T|]. apply IH, rm_all_tree, T. Qed.
  Lemma purge_dirs_none ds p : forall acc f, fget f p = None -> fget (purge_dirs acc ds f) p = None.
  Proof. induction ds as [|d t IH]; intros acc f T; cbn [purge_dirs]; [exact T|]. destruct (is_nil (u_url d)); [apply IH, T|]. apply IH. destruct (rm_all_cases (fold_left (fun s x => sins x s) (find_all f (coll_path d)) acc) f p) as [E|[E _]]; [rewrite E; exact T|exact E]. Qed.
  Lemma purge_dirs_complete ds p : incl ds ds0 -> (exists d, In d ds /\ u_url d <> [] /\ visible_below (coll_dir d) p) -> plain_file_at f0 p ->
    forall acc f, (forall x, In x acc -> owned (comps x)) -> shrunk f -> tree f -> fget (purge_dirs acc ds f) p = None.
  Proof.
    intros Il Ex P. induction ds as [|d t IH]; intros acc f A H T; [destruct Ex as [d [[] _]]|]. cbn [purge_dirs]. assert (It : incl t ds0) by (intros y Y; apply Il; right; exact Y).
    destruct (u_url d) as [|u0 us] eqn:Eu; cbn [is_nil].
    - apply (IH It); [|exact A|exact H|exact T]. destruct Ex as [e [[->|I] [U V]]]; [congruence|]. exists e. auto.
    - set (acc' := fold_left (fun s x => sins x s) (find_all f (coll_path d)) acc).
      assert (Sh : shrunk (fold_left (fun f x => snd (rm f x)) acc' f) /\ (forall x, In x acc' -> owned (comps x))).
      { assert (A' : forall x, In x acc' -> owned (comps x)).
        { intros x I. apply fold_sins_In in I as [I|I]; [|exact (A x I)]. apply (find_sound f (shrunk_names f H)) in I as [V P']. rewrite coll_path_dir in V. exists d. split; [apply Il; left; reflexivity|]. split; [congruence|]. split; [exact V|].
          destruct P' as [n [G K]]. exists n. split; [|exact K]. destruct (H (comps x)) as [E|[E _]]; congruence. }
        split; [|exact A']. intro q. destruct (rm_all_cases acc' f q) as [E|[E [x [I X]]]]; [rewrite E; apply H|right; split; [exact E|]; rewrite <- X; apply A', I]. }
      destruct Sh as [Sh A']. destruct (fget f p) as [n|] eqn:G.
      + destruct Ex as [e [[->|I] [U V]]].
        * apply purge_dirs_none. destruct V as [r [Nr [Ep Vr]]]. destruct P as [n0 [G0 [K1 K2]]]. assert (n0 = n) by (destruct (H p) as [E|[E _]]; congruence). subst n0.
          destruct (find_complete f (shrunk_names f H) T r (S (S (depth f))) (coll_path e)) as [x [Ix [Exx Sx]]].
          -- exact Nr.
          -- exact Vr.
          -- rewrite coll_path_dir, <- Ep. exists n. auto.
          -- pose proof (depth_ge f p ltac:(congruence)) as Dp. rewrite Ep, app_length in Dp. lia.
          -- rewrite coll_path_dir, <- Ep in Exx. rewrite <- Exx. apply (rm_all_deletes acc' x n); [apply fold_sins_In; left; exact Ix|exact Sx|rewrite Exx; exact G|exact K1].
        * apply (IH It); [exists e; auto|exact A'|exact Sh|apply rm_all_tree, T].
      + apply purge_dirs_none. destruct (rm_all_cases acc' f p) as [E|[E _]]; [rewrite E; exact G|exact E].
  Qed.
End Purge.

(** ** C49 *)
(** whatever purge changes is deleted, and is a visible file in the directory of a collection that has a url *)
Theorem C49_deletes_only : forall c f p, names_ok f -> fget (purge c f) p <> fget f p ->
  fget (purge c f) p = None /\ exists d, In d (c_dirs c) /\ u_url d <> [] /\ visible_below (coll_dir d) p /\ plain_file_at f p.
Proof.
  intros c f p W N. destruct (purge_dirs_sound f W (c_dirs c) (c_dirs c) (incl_refl _) [] f (fun x I => match I with end) (fun q => or_introl eq_refl) p) as [E|[E H]]; [contradiction|]. split; [exact E|exact H].
Qed.
(** and all of these are deleted *)
Theorem C49_deletes_all : forall c f d p, names_ok f -> tree f -> In d (c_dirs c) -> u_url d <> [] -> visible_below (coll_dir d) p -> plain_file_at f p -> fget (purge c f) p = None.
Proof.
  intros c f d p W T I U V P. apply (purge_dirs_complete f W (c_dirs c) (c_dirs c) p (incl_refl _)); [exists d; auto|exact P|intros x []|intro q; left; reflexivity|exact T].
Qed.
(** a local collection is untouched when its directory is not inside one that has a url *)
Theorem C49_local : forall c f l p, names_ok f -> In l (c_dirs c) -> u_url l = [] -> below (coll_dir l) p ->
  (forall d, In d (c_dirs c) -> u_url d <> [] -> ~ below (coll_dir d) p) -> fget (purge c f) p = fget f p.
Proof.
  intros c f l p W I U B H. destruct (purge_dirs_sound f W (c_dirs c) (c_dirs c) (incl_refl _) [] f (fun x I => match I with end) (fun q => or_introl eq_refl) p) as [E|[_ [d [Id [Ud [[r [Nr [Er _]]] _]]]]]]; [exact E|].
  exfalso. apply (H d Id Ud). exists r. auto.
Qed.
