(** C109: the directories made for a depot or a log, and the log file. *)
From Verif Require Import Base BaseProofs StrModel StrSpec StrProofs FsModel FsSpec FsProofs MetaModel MkdirModel.
From Coq Require Import Lia.

(** *** specification *)
(** [p] is [q] or one of the directories [q] is in *)
Definition leads (p q : path) : Prop := exists r, q = p ++ r.
(** nothing on the way to [q], and not [q] itself, is something else than a directory *)
Definition free (f : fs) (q : path) : Prop := forall r, leads r q -> fget f r = None \/ dir_at f r.
(** what mkdir makes: mode 0755, owned by root *)
Definition made : node := Node KDir [] 493 0 0 0 0.
(** [f'] is [f] with those directories of [q], and only those, that were missing and can be made *)
Definition with_dirs (f f' : fs) (q : path) : Prop :=
  forall p n, fget f' p = Some n <-> fget f p = Some n \/ (fget f p = None /\ leads p q /\ free f p /\ n = made).

(** *** paths *)
Lemma leads_refl p : leads p p. Proof. exists []. rewrite app_nil_r. reflexivity. Qed.
Lemma leads_trans p q r : leads p q -> leads q r -> leads p r.
Proof. intros [a ->] [b ->]. exists (a ++ b). rewrite app_assoc. reflexivity. Qed.
Lemma leads_snoc p q c : leads p (q ++ [c]) <-> p = q ++ [c] \/ leads p q.
Proof.
  split.
  - intros [r E]. destruct (rev r) as [|d r'] eqn:R.
    + assert (r = []) by (rewrite <- (rev_involutive r), R; reflexivity). subst r. rewrite app_nil_r in E. left. symmetry. exact E.
    + assert (r = rev r' ++ [d]) by (rewrite <- (rev_involutive r), R; reflexivity). subst r. rewrite app_assoc in E. apply app_inj_tail in E as [-> _]. right. exists (rev r'). reflexivity.
  - intros [->|H]; [apply leads_refl|]. apply (leads_trans p q); [exact H|]. exists [c]. reflexivity.
Qed.
Lemma leads_len p q : leads p q -> length p <= length q.
Proof. intros [r ->]. rewrite app_length. lia. Qed.
Lemma leads_nil p : leads p [] -> p = [].
Proof. intros [r E]. symmetry in E. apply app_eq_nil in E as [-> _]. reflexivity. Qed.
Lemma free_leads f p q : free f q -> leads p q -> free f p.
Proof. intros H Lp r Lr. apply H. exact (leads_trans r p q Lr Lp). Qed.
Lemma free_snoc f p c : free f (p ++ [c]) <-> free f p /\ (fget f (p ++ [c]) = None \/ dir_at f (p ++ [c])).
Proof.
  split.
  - intro H. split; [apply (free_leads f p (p ++ [c]) H); exists [c]; reflexivity|apply H, leads_refl].
  - intros [H N] r Lr. apply leads_snoc in Lr as [->|Lr]; [exact N|apply H, Lr].
Qed.
Lemma tree_up f p : tree f -> fget f p <> None -> forall r, leads r p -> r <> p -> dir_at f r.
Proof.
  intros [T0 T]. induction p as [|c p IH] using rev_ind; intros N r Lr Ne.
  - apply leads_nil in Lr. congruence.
  - apply leads_snoc in Lr as [E|Lr]; [congruence|]. pose proof (T p c N) as Dp. destruct (list_eq_dec (list_eq_dec ascii_dec) r p) as [->|Nr]; [exact Dp|].
    apply IH; [|exact Lr|exact Nr]. destruct Dp as (n & E & _). congruence.
Qed.
Lemma tree_dir_free f p : tree f -> dir_at f p -> free f p.
Proof.
  intros T D r Lr. right. destruct (list_eq_dec (list_eq_dec ascii_dec) r p) as [->|N]; [exact D|]. apply (tree_up f p T); [destruct D as (n & E & _); congruence|exact Lr|exact N].
Qed.
Lemma is_dir_at f p n : fget f p = Some n -> (is_dir n = true <-> dir_at f p).
Proof.
  intro E. unfold is_dir, dir_at. split.
  - intro H. exists n. split; [exact E|]. destruct (n_kind n); try discriminate H; reflexivity.
  - intros (m & Em & K). rewrite E in Em. injection Em as <-. rewrite K. reflexivity.
Qed.

(** *** one step *)
Definition mkp (f : fs) (p : path) : fs :=
  match fget f p with
  | Some _ => f
  | None => match fget f (removelast p) with Some n => if is_dir n then fset p made f else f | None => f end
  end.
Lemma mk_step_mkp f s : tree f -> mk_step f s = mkp f (comps s).
Proof.
  intros [(r & Er & _) _]. unfold mk_step, mkdir, mkp, lstat. destruct s as [|c s].
  - change (comps []) with (@nil str). rewrite Er. destruct (ends_slash [] && negb (is_dir r)); reflexivity.
  - destruct (fget f (comps (c :: s))) as [n|]; [destruct (ends_slash (c :: s) && negb (is_dir n)); reflexivity|reflexivity].
Qed.
Lemma with_dirs_dir f f' cur p : tree f -> with_dirs f f' cur -> leads p cur -> (dir_at f' p <-> free f p).
Proof.
  intros T W Lp. split.
  - intros (n & E & K). apply W in E as [E|(_ & _ & F & _)]; [apply tree_dir_free; [exact T|exists n; split; assumption]|exact F].
  - intro F. destruct (F p (leads_refl p)) as [E|(n & E & K)].
    + exists made. split; [|reflexivity]. apply W. right. auto.
    + exists n. split; [|exact K]. apply W. left. exact E.
Qed.
Lemma with_dirs_none f f' cur p : with_dirs f f' cur -> fget f' p = None -> fget f p = None /\ ~ (leads p cur /\ free f p).
Proof.
  intros W E. destruct (fget f p) as [n|] eqn:Ef.
  - assert (X : fget f' p = Some n) by (apply W; left; exact Ef). congruence.
  - split; [reflexivity|]. intros [Lp F]. assert (X : fget f' p = Some made) by (apply W; right; auto). congruence.
Qed.
Lemma with_dirs_step f g cur x : tree f -> with_dirs f g cur -> (x = cur \/ exists c, x = cur ++ [c]) -> with_dirs f (mkp g x) x.
Proof.
  intros T W X. assert (Lx : leads cur x) by (destruct X as [->|[c ->]]; [apply leads_refl|exists [c]; reflexivity]).
  assert (Lp : forall p, leads p x -> p <> x -> leads p cur).
  { destruct X as [->|[c ->]]; intros p H N; [exact H|]. apply leads_snoc in H as [E|H]; [congruence|exact H]. }
  assert (Wx : (exists n, fget f x = Some n) \/ ~ free f x -> with_dirs f g x).
  { intros H p n. rewrite (W p n). split; intros [E|(E & Lq & F & Q)]; try (left; exact E); right.
    - split; [exact E|]. split; [exact (leads_trans p cur x Lq Lx)|]. split; assumption.
    - split; [exact E|]. split; [|split; assumption]. apply Lp; [exact Lq|]. intros ->. destruct H as [[m Em]|H]; [congruence|exact (H F)]. }
  unfold mkp. destruct (fget g x) as [m|] eqn:Gx.
  - apply W in Gx as [Gx|(Gx & Lq & F & Q)]; [apply Wx; left; exists m; exact Gx|].
    assert (x = cur) as ->. { destruct X as [E|[c ->]]; [exact E|]. apply leads_len in Lq. rewrite app_length in Lq. cbn in Lq. lia. } exact W.
  - destruct (with_dirs_none f g cur x W Gx) as [Ex Nx]. assert (Ne : x <> []) by (intros ->; destruct T as [(r & Er & _) _]; congruence).
    destruct (exists_last Ne) as (y & c & ->). rewrite removelast_last. assert (Ly : leads y cur). { apply Lp; [exists [c]; reflexivity|]. intro E. apply (f_equal (@length str)) in E. rewrite app_length in E. cbn in E. lia. }
    pose proof (with_dirs_dir f g cur y T W Ly) as Dy. destruct (fget g y) as [m|] eqn:Gy; [destruct (is_dir m) eqn:Dm|].
    + apply (is_dir_at g y m Gy) in Dm. apply Dy in Dm. intros p n. destruct (list_eq_dec (list_eq_dec ascii_dec) p (y ++ [c])) as [->|Np].
      * rewrite fget_fset_same. split.
        -- intro E. injection E as <-. right. split; [exact Ex|]. split; [apply leads_refl|]. split; [|reflexivity]. apply free_snoc. split; [exact Dm|left; exact Ex].
        -- intros [E|(_ & _ & _ & ->)]; [congruence|reflexivity].
      * rewrite fget_fset_other by exact Np. rewrite (W p n). split; intros [E|(E & Lq & F & Q)]; try (left; exact E); right.
        -- split; [exact E|]. split; [exact (leads_trans p cur _ Lq Lx)|]. split; assumption.
        -- split; [exact E|]. split; [apply Lp; assumption|]. split; assumption.
    + apply Wx. right. intro F. apply free_snoc in F as [F _]. apply Dy, (is_dir_at g y m Gy) in F. congruence.
    + apply Wx. right. intro F. apply free_snoc in F as [F _]. apply Dy in F as (m & E & _). congruence.
Qed.
Lemma with_dirs_nil f : tree f -> with_dirs f f [].
Proof.
  intros [(r & Er & _) _] p n. split; [intro E; left; exact E|]. intros [E|(E & Lq & _)]; [exact E|]. apply leads_nil in Lq. subst p. congruence.
Qed.
Lemma with_dirs_tree f g q : tree f -> with_dirs f g q -> tree g.
Proof.
  intros T W. split.
  - destruct T as [(r & Er & K) _]. exists r. split; [apply W; left; exact Er|exact K].
  - intros p c N. destruct (fget g (p ++ [c])) as [n|] eqn:E; [|congruence]. apply W in E as [E|(E & Lq & F & _)].
    + assert (D : dir_at f p) by (apply (proj2 T) with c; congruence). destruct D as (m & Em & K). exists m. split; [apply W; left; exact Em|exact K].
    + apply (with_dirs_dir f g q p T W); [|apply free_snoc in F as [F _]; exact F]. apply (leads_trans p (p ++ [c])); [exists [c]; reflexivity|exact Lq].
Qed.

(** *** the directories tried: each is the one before or one deeper, the last is the path *)
Inductive chain : path -> list path -> Prop :=
| ch_end cur : chain cur []
| ch_next cur x l : x = cur \/ (exists c, x = cur ++ [c]) -> chain x l -> chain cur (x :: l).
Lemma last_d {A} (a b : A) l : l <> [] -> last l a = last l b.
Proof. induction l as [|x l IH]; intro N; [congruence|]. destruct l as [|y l]; [reflexivity|]. apply IH. discriminate. Qed.
Lemma chain_fold f l : forall cur g, tree f -> with_dirs f g cur -> chain cur l -> with_dirs f (fold_left mkp l g) (last l cur).
Proof.
  induction l as [|x l IH]; intros cur g T W C; [exact W|]. inversion C as [|c x' l' X C' E1 E2]; subst. cbn [fold_left].
  pose proof (IH x (mkp g x) T (with_dirs_step f g cur x T W X) C') as H. destruct l as [|y l]; [exact H|]. change (last (x :: y :: l) cur) with (last (y :: l) cur). rewrite (last_d cur x (y :: l)); [exact H|discriminate].
Qed.
Lemma chain_firstn k : forall cur l, chain cur l -> chain cur (firstn k l).
Proof. induction k as [|k IH]; intros cur l C; [constructor|]. destruct C as [cur|cur x l X C]; [constructor|]. constructor; [exact X|apply IH, C]. Qed.
Lemma comps_tail t : ~ In slash t -> comps t = [] \/ comps t = [t].
Proof.
  intro N. destruct t as [|c t]; [left; reflexivity|]. assert (E : split_char (c :: t) slash = [c :: t]).
  { apply (split_join slash [c :: t]). constructor; [split; [discriminate|exact N]|constructor]. }
  unfold comps. rewrite E. cbn [filter]. destruct (negb (seqb (c :: t) (L "."))); [right|left]; reflexivity.
Qed.
Lemma tail_step a t : (a = [] \/ ends_slash a = true) -> ~ In slash t -> comps (a ++ t) = comps a \/ exists c, comps (a ++ t) = comps a ++ [c].
Proof.
  intros A N. rewrite comps_app by exact A. destruct (comps_tail t N) as [->| ->]; [left; rewrite app_nil_r; reflexivity|right; exists t; reflexivity].
Qed.
Lemma cuts_chain s : forall a t, (a = [] \/ ends_slash a = true) -> ~ In slash t -> chain (comps a) (map comps (cuts (a ++ t) s ++ [(a ++ t) ++ s])).
Proof.
  induction s as [|c s IH]; intros a t A N; cbn [cuts].
  - rewrite app_nil_r. cbn [app map]. constructor; [exact (tail_step a t A N)|constructor].
  - destruct (ceqb c slash) eqn:E.
    + apply ceqb_eq in E. subst c. cbn [map app]. constructor; [exact (tail_step a t A N)|].
      replace (a ++ t ++ [slash]) with ((a ++ t ++ [slash]) ++ []) by apply app_nil_r.
      assert (K : comps (a ++ t) = comps ((a ++ t) ++ [slash])) by (symmetry; apply comps_snoc_slash).
      rewrite K. replace ((a ++ t) ++ slash :: s) with ((((a ++ t) ++ [slash]) ++ []) ++ s) by (rewrite app_nil_r, <- app_assoc; reflexivity).
      replace ((a ++ t) ++ [slash]) with (((a ++ t) ++ [slash]) ++ []) at 2 by apply app_nil_r.
      apply IH; [right; apply ends_slash_spec; exists (a ++ t); reflexivity|intros []].
    + apply ceqb_neq in E. replace ((a ++ t) ++ c :: s) with ((a ++ t ++ [c]) ++ s) by (rewrite <- !app_assoc; reflexivity).
      replace ((a ++ t) ++ [c]) with (a ++ t ++ [c]) by apply app_assoc.
      apply IH; [exact A|]. intro I. apply in_app_iff in I as [I|[I|[]]]; [exact (N I)|congruence].
Qed.
Lemma comps_chop o : comps (chop o) = comps o.
Proof.
  unfold chop. destruct (ends_slash o) eqn:E; [|reflexivity]. apply ends_slash_spec in E as [a ->]. rewrite removelast_last. symmetry. apply comps_snoc_slash.
Qed.
Lemma tries_chain o : chain [] (map comps (tries o)).
Proof. exact (cuts_chain (chop o) [] [] (or_introl eq_refl) (fun H => H)). Qed.
Lemma tries_last o : last (map comps (tries o)) [] = comps o.
Proof. unfold tries. rewrite map_app. cbn [map]. rewrite last_last. apply comps_chop. Qed.
Lemma fold_mkp l : forall f g cur, tree f -> with_dirs f g cur -> chain cur (map comps l) -> fold_left mk_step l g = fold_left mkp (map comps l) g.
Proof.
  induction l as [|x l IH]; intros f g cur T W C; [reflexivity|]. inversion C as [|c x' l' X C' E1 E2]; subst. cbn [fold_left map].
  rewrite (mk_step_mkp g x (with_dirs_tree f g cur T W)). apply (IH f _ (comps x) T); [apply with_dirs_step with cur; assumption|exact C'].
Qed.
Lemma tries_done f o : tree f -> with_dirs f (fold_left mk_step (tries o) f) (comps o).
Proof.
  intro T. rewrite (fold_mkp (tries o) f f [] T (with_dirs_nil f T) (tries_chain o)). rewrite <- (tries_last o).
  apply chain_fold; [exact T|apply with_dirs_nil, T|apply tries_chain].
Qed.

(** *** the theorems *)
(** exactly the missing directories of the path are made, as far as nothing else stands in the way; everything that was there stays *)
Theorem C109_exact f p f' b : tree f -> make_dirs f p = Ok (f', b) -> 1 < length (cstr p) -> with_dirs f f' (comps (cstr p)) /\ b = true.
Proof.
  intros T E Ln. unfold make_dirs in E. destruct (MAXPATHLEN <=? length (cstr p)); [discriminate E|]. apply Nat.ltb_lt in Ln. rewrite Ln in E.
  injection E as <- <-. split; [|reflexivity]. apply tries_done, T.
Qed.
(** the directory is there afterwards if and only if nothing else stood in the way *)
Theorem C109_made f p f' b : tree f -> make_dirs f p = Ok (f', b) -> 1 < length (cstr p) -> (dir_at f' (comps (cstr p)) <-> free f (comps (cstr p))).
Proof.
  intros T E Ln. destruct (C109_exact f p f' b T E Ln) as [W _]. apply (with_dirs_dir f f' (comps (cstr p))); [exact T|exact W|apply leads_refl].
Qed.
(** the answer is only about the length of the name *)
Theorem C109_answer f p f' b : make_dirs f p = Ok (f', b) -> (b = true <-> 1 < length (cstr p)) /\ (b = false -> f' = f).
Proof.
  intro E. unfold make_dirs in E. destruct (MAXPATHLEN <=? length (cstr p)); [discriminate E|]. destruct (1 <? length (cstr p)) eqn:Ln; injection E as <- <-.
  - apply Nat.ltb_lt in Ln. split; [split; auto|intro X; discriminate X].
  - apply Nat.ltb_ge in Ln. split; [split; [intro X; discriminate X|lia]|reflexivity].
Qed.
(** a name that does not fit the buffer is written over its end *)
Theorem C109_overflow f p : make_dirs f p = UB <-> N.to_nat 4096 <= length (cstr p).
Proof.
  unfold make_dirs. change (N.to_nat 4096) with MAXPATHLEN. destruct (MAXPATHLEN <=? length (cstr p)) eqn:E.
  - apply Nat.leb_le in E. split; auto.
  - apply Nat.leb_gt in E. split; [destruct (1 <? length (cstr p)); intro X; discriminate X|lia].
Qed.
Theorem C109_tree f p f' b : tree f -> make_dirs f p = Ok (f', b) -> tree f'.
Proof.
  intros T E. destruct (Nat.lt_ge_cases 1 (length (cstr p))) as [Ln|Ln].
  - destruct (C109_exact f p f' b T E Ln) as [W _]. exact (with_dirs_tree f f' _ T W).
  - destruct (C109_answer f p f' b E) as [[A _] B]. destruct b; [pose proof (A eq_refl); lia|]. rewrite (B eq_refl). exact T.
Qed.
Lemma chain_split l1 : forall cur l2, chain cur (l1 ++ l2) -> chain (last l1 cur) l2.
Proof.
  induction l1 as [|x l1 IH]; intros cur l2 C; [exact C|]. cbn [app] in C. inversion C as [|c x' l X C' E1 E2]; subst. pose proof (IH x l2 C') as H.
  destruct l1 as [|y l1]; [exact H|]. change (last (x :: y :: l1) cur) with (last (y :: l1) cur). rewrite (last_d cur x (y :: l1)); [exact H|discriminate].
Qed.
Lemma chain_leads l : forall cur, chain cur l -> leads cur (last l cur).
Proof.
  induction l as [|x l IH]; intros cur C; [apply leads_refl|]. inversion C as [|c x' l' X C' E1 E2]; subst. pose proof (IH x C') as H.
  assert (Lx : leads cur x) by (destruct X as [->|[c ->]]; [apply leads_refl|exists [c]; reflexivity]). destruct l as [|y l]; [exact Lx|].
  change (last (x :: y :: l) cur) with (last (y :: l) cur). rewrite (last_d cur x (y :: l)) by discriminate. exact (leads_trans cur x _ Lx H).
Qed.
Lemma with_dirs_unique f g h q : with_dirs f g q -> with_dirs f h q -> forall p, fget g p = fget h p.
Proof.
  intros Wg Wh p. destruct (fget g p) as [n|] eqn:E.
  - apply Wg, Wh in E. symmetry. exact E.
  - destruct (fget h p) as [n|] eqn:F; [|reflexivity]. apply Wh, Wg in F. congruence.
Qed.
Lemma with_dirs_more f g h d q : with_dirs f g d -> leads d q -> with_dirs g h q -> with_dirs f h q.
Proof.
  intros Wg Ld Wh. assert (Fr : forall p, free g p <-> free f p).
  { intro p. split; intros F r Lr; destruct (F r Lr) as [E|(n & E & K)].
    - left. exact (proj1 (with_dirs_none f g d r Wg E)).
    - apply Wg in E as [E|(E & _)]; [right; exists n; split; assumption|left; exact E].
    - destruct (fget g r) as [n|] eqn:G; [|left; reflexivity]. right. exists n. split; [exact G|]. apply Wg in G as [G|(_ & _ & _ & ->)]; [congruence|reflexivity].
    - right. exists n. split; [apply Wg; left; exact E|exact K]. }
  intros p n. rewrite (Wh p n). split.
  - intros [E|(E & Lp & F & Q)].
    + apply Wg in E as [E|(E & Lp & F & Q)]; [left; exact E|right]. split; [exact E|]. split; [exact (leads_trans p d q Lp Ld)|]. split; assumption.
    + right. split; [exact (proj1 (with_dirs_none f g d p Wg E))|]. split; [exact Lp|]. split; [apply Fr, F|exact Q].
  - intros [E|(E & Lp & F & ->)]; [left; apply Wg; left; exact E|]. destruct (fget g p) as [m|] eqn:G.
    + left. apply Wg in G as [G|(_ & _ & _ & ->)]; [congruence|reflexivity].
    + right. split; [reflexivity|]. split; [exact Lp|]. split; [apply Fr, F|reflexivity].
Qed.
(** when the process dies in between, some of the directories are made; the next call makes the rest, as if nothing had happened *)
Theorem C109_died k f p f' b : tree f -> make_dirs f p = Ok (f', b) -> 1 < length (cstr p) ->
  let g := make_dirs_cut k f p in
  tree g /\ (exists d, leads d (comps (cstr p)) /\ with_dirs f g d) /\
  exists f2, make_dirs g p = Ok (f2, true) /\ forall q, fget f2 q = fget f' q.
Proof.
  intros T E Ln g. destruct (C109_exact f p f' b T E Ln) as [W _]. set (o := cstr p) in *. set (d := last (firstn k (map comps (tries o))) []).
  assert (Wg : with_dirs f g d).
  { unfold g, make_dirs_cut. fold o. rewrite (fold_mkp (firstn k (tries o)) f f [] T (with_dirs_nil f T)).
    - rewrite <- firstn_map. apply chain_fold; [exact T|apply with_dirs_nil, T|apply chain_firstn, tries_chain].
    - rewrite <- firstn_map. apply chain_firstn, tries_chain. }
  assert (Ld : leads d (comps o)).
  { rewrite <- (tries_last o). pose proof (tries_chain o) as C. rewrite <- (firstn_skipn k (map comps (tries o))) in C. apply chain_split in C. fold d in C. apply chain_leads in C.
    destruct (skipn k (map comps (tries o))) as [|y l] eqn:Sk.
    - rewrite <- (firstn_skipn k (map comps (tries o))), Sk, app_nil_r. fold d. apply leads_refl.
    - rewrite <- (firstn_skipn k (map comps (tries o))), Sk. replace (last (firstn k (map comps (tries o)) ++ y :: l) []) with (last (y :: l) d); [exact C|].
      rewrite (last_d d [] (y :: l)) by discriminate. symmetry. clear. induction (firstn k (map comps (tries o))) as [|x t IH]; [reflexivity|]. cbn [app]. rewrite <- IH. destruct t; reflexivity. }
  split; [exact (with_dirs_tree f g d T Wg)|]. split; [exists d; split; assumption|].
  unfold make_dirs in E |- *. fold o in E |- *. destruct (MAXPATHLEN <=? length o); [discriminate E|]. pose proof (proj2 (Nat.ltb_lt 1 (length o)) Ln) as Lt. rewrite Lt. eexists. split; [reflexivity|].
  apply (with_dirs_unique f _ f' (comps o)); [|exact W]. apply (with_dirs_more f g _ d (comps o) Wg Ld). apply tries_done. exact (with_dirs_tree f g d T Wg).
Qed.
(** doing it twice is doing it once *)
Theorem C109_twice f p f' b f2 b2 : tree f -> make_dirs f p = Ok (f', b) -> make_dirs f' p = Ok (f2, b2) -> b2 = b /\ forall q, fget f2 q = fget f' q.
Proof.
  intros T E E2. pose proof (C109_answer f p f' b E) as [A B]. pose proof (C109_answer f' p f2 b2 E2) as [A2 B2].
  assert (b2 = b) by (destruct b, b2; [reflexivity|rewrite A2; apply A; reflexivity|symmetry; rewrite A; apply A2; reflexivity|reflexivity]). subst b2. split; [reflexivity|].
  destruct b; [|rewrite (B2 eq_refl); reflexivity]. pose proof (proj1 A eq_refl) as Ln. destruct (C109_exact f p f' true T E Ln) as [W _]. pose proof (with_dirs_tree f f' _ T W) as T'.
  destruct (C109_exact f' p f2 true T' E2 Ln) as [W2 _]. apply (with_dirs_unique f _ _ (comps (cstr p))); [|exact W]. exact (with_dirs_more f f' f2 _ _ W (leads_refl _) W2).
Qed.

(** *** the log file *)
Lemma comps_log logdir pkg : comps (log_name logdir pkg) = comps logdir ++ comps (pkg ++ L ".log").
Proof.
  unfold log_name. change (logdir ++ L "/" ++ pkg ++ L ".log") with (logdir ++ [slash] ++ (pkg ++ L ".log")). rewrite app_assoc, comps_app by (right; apply ends_slash_spec; exists logdir; reflexivity).
  rewrite comps_snoc_slash. reflexivity.
Qed.
(** a package name without a slash: one file, named after it *)
Lemma comps_log_file pkg : ~ In slash pkg -> comps (pkg ++ L ".log") = [pkg ++ L ".log"].
Proof.
  intro N. rewrite <- (app_nil_r [_]). change [] with (comps []). apply (comps_join [pkg ++ L ".log"]). constructor; [|constructor]. split; [destruct pkg; discriminate|]. split.
  - intro I. apply in_app_iff in I as [I|I]; [exact (N I)|]. cbn in I. intuition discriminate.
  - intro E. apply (f_equal (@length ascii)) in E. rewrite app_length in E. cbn [List.length L list_ascii_of_string] in E. lia.
Qed.
(** opening the log of a build. [free f (comps logdir)]: nothing but directories on the way. With such a way, a directory name of more than one
    character that fits the buffer and no directory in the place of the file, there is an empty log afterwards (whatever the file held, and if it
    was a link the link is gone, not the file it led to); the missing directories are made and nothing else changes. Otherwise the build is not started *)
Theorem C109_log f logdir pkg f' : tree f -> ~ In zero logdir -> ~ In slash pkg -> logdir <> [] ->
  let file := comps logdir ++ [pkg ++ L ".log"] in
  (open_log f logdir pkg = Ok f' -> 1 < length logdir /\ free f (comps logdir) /\ ~ dir_at f file /\
     fget f' file = Some (Node KReg [] 420 0 0 0 0) /\
     forall g, with_dirs f g (comps logdir) -> forall p, p <> file -> fget f' p = fget g p) /\
  (length logdir < N.to_nat 4096 -> 1 < length logdir -> free f (comps logdir) -> ~ dir_at f file -> exists f1, open_log f logdir pkg = Ok f1) /\
  (length logdir < N.to_nat 4096 -> open_log f logdir pkg = Throw \/ exists f1, open_log f logdir pkg = Ok f1).
Proof.
  intros T Nz Ns Nn file. assert (Ef : comps (log_name logdir pkg) = file) by (rewrite comps_log, comps_log_file by exact Ns; reflexivity).
  assert (Er : removelast file = comps logdir) by apply removelast_last. assert (Ec : cstr logdir = logdir) by (apply cstr_nozero, Nz).
  assert (Fne : ~ leads file (comps logdir)) by (intro H; apply leads_len in H; unfold file in H; rewrite app_length in H; cbn in H; lia).
  assert (Open : open_log f logdir pkg = rbind (make_dirs f logdir) (fun r =>
           if snd r then match open_append (unlink (fst r) (log_name logdir pkg)) (log_name logdir pkg) with Some g => Ok g | None => Throw end else Throw)).
  { destruct logdir; [congruence|reflexivity]. }
  assert (Log : forall g b, make_dirs f logdir = Ok (g, b) -> b = true -> 1 < length logdir /\ with_dirs f g (comps logdir) /\ tree g).
  { intros g b E ->. destruct (C109_answer f logdir g true E) as [[A _] _]. rewrite Ec in A. pose proof (A eq_refl) as Ln. split; [exact Ln|].
    split; [|exact (C109_tree f logdir g true T E)]. rewrite <- Ec. apply (C109_exact f logdir g true T E). rewrite Ec. exact Ln. }
  assert (Opened : forall g, with_dirs f g (comps logdir) -> tree g ->
    match open_append (unlink g (log_name logdir pkg)) (log_name logdir pkg) with
    | Some h => free f (comps logdir) /\ ~ dir_at f file /\ fget h file = Some (Node KReg [] 420 0 0 0 0) /\ forall p, p <> file -> fget h p = fget g p
    | None => ~ (free f (comps logdir) /\ ~ dir_at f file)
    end).
  { intros g W Tg. pose proof (with_dirs_dir f g (comps logdir) (comps logdir) T W (leads_refl _)) as D.
    assert (Df : dir_at g file <-> dir_at f file).
    { split; intros (n & E & K); exists n; (split; [|exact K]); [apply W in E as [E|(_ & Lq & _)]; [exact E|contradiction]|apply W; left; exact E]. }
    assert (NP : comps logdir <> file) by (intro X; apply Fne; rewrite X; apply leads_refl).
    assert (Fresh : forall u, fget u file = None -> (forall p, p <> file -> fget u p = fget g p) -> (dir_at f file -> False) ->
      match open_append u (log_name logdir pkg) with
      | Some h => free f (comps logdir) /\ ~ dir_at f file /\ fget h file = Some (Node KReg [] 420 0 0 0 0) /\ forall p, p <> file -> fget h p = fget g p
      | None => ~ (free f (comps logdir) /\ ~ dir_at f file)
      end).
    { intros u Eu Hu Nd. unfold open_append. rewrite Ef, Er, Eu, (Hu _ NP). destruct (fget g (comps logdir)) as [n|] eqn:Gn; [destruct (is_dir n) eqn:Dn|].
      - apply (is_dir_at g _ n Gn), D in Dn. split; [exact Dn|]. split; [exact Nd|]. split; [apply fget_fset_same|]. intros p Np. rewrite fget_fset_other by exact Np. apply Hu, Np.
      - intros [F _]. apply D, (is_dir_at g _ n Gn) in F. congruence.
      - intros [F _]. apply D in F as (n & E & _). congruence. }
    unfold unlink. rewrite Ef. destruct (fget g file) as [n|] eqn:Gf; [destruct (is_dir n) eqn:Dn|].
    - unfold open_append. rewrite Ef, Gf, Dn. intros [_ N]. apply N, Df, (is_dir_at g file n Gf), Dn.
    - apply Fresh; [apply fget_fdel_same|intros p Np; apply fget_fdel_other, Np|]. intro X. apply Df, (is_dir_at g file n Gf) in X. congruence.
    - apply Fresh; [exact Gf|reflexivity|]. intro X. apply Df in X as (n & E & _). congruence. }
  rewrite Open. destruct (make_dirs f logdir) as [[g b]| |] eqn:M; cbn [rbind fst snd].
  - destruct b.
    + destruct (Log g true eq_refl eq_refl) as (Ln & W & Tg). specialize (Opened g W Tg). destruct (open_append (unlink g (log_name logdir pkg)) (log_name logdir pkg)) as [h|] eqn:Oa.
      * destruct Opened as (F & Nd & Fl & Rest). split; [|split; [intros; eauto|right; eauto]]. intro E. injection E as <-. split; [exact Ln|]. split; [exact F|]. split; [exact Nd|]. split; [exact Fl|].
        intros g' W' p Np. rewrite (Rest p Np). exact (with_dirs_unique f g g' _ W W' p).
      * split; [intro X; discriminate X|]. split; [intros _ _ F Nd; exfalso; apply Opened; split; assumption|left; reflexivity].
    + split; [intro X; discriminate X|]. split; [|left; reflexivity]. intros _ Ln _ _. destruct (C109_answer f logdir g false M) as [[_ A] _]. rewrite Ec in A. discriminate (A Ln).
  - exfalso. unfold make_dirs in M. destruct (MAXPATHLEN <=? length (cstr logdir)); [discriminate M|]. destruct (1 <? length (cstr logdir)); discriminate M.
  - apply C109_overflow in M. rewrite Ec in M. split; [intro X; discriminate X|]. split; intro X; lia.
Qed.
(** no directory configured: no log *)
Theorem C109_no_log f pkg : open_log f [] pkg = Ok f.
Proof. reflexivity. Qed.

(** *** examples *)
Definition m_dir (m : N) : node := Node KDir [] m 0 0 0 0.
Definition m_file (c : str) : node := Node KReg c 420 0 0 0 0.
Definition m_fs : fs := [([], m_dir 493); ([L "var"], m_dir 511); ([L "var"; L "log"], m_dir 448); ([L "var"; L "spool"], m_file (L "mail"))].
Lemma m_tree : tree m_fs.
Proof.
  split; [exists (m_dir 493); split; reflexivity|]. intros p c N. assert (I : exists n, In (p ++ [c], n) m_fs) by (apply fget_In; exact N).
  destruct I as (n & [E|[E|[E|[E|[]]]]]); apply pair_equal_spec in E as [E _].
  - destruct p; discriminate E.
  - destruct p as [|x p]; [|destruct p; discriminate E]. exists (m_dir 493). split; reflexivity.
  - change [L "var"; L "log"] with ([L "var"] ++ [L "log"]) in E. apply app_inj_tail in E as [<- _]. exists (m_dir 511). split; reflexivity.
  - change [L "var"; L "spool"] with ([L "var"] ++ [L "spool"]) in E. apply app_inj_tail in E as [<- _]. exists (m_dir 511). split; reflexivity.
Qed.
(** two directories are made below one that keeps its mode; a slash at the end, and doubled ones, do not matter *)
Theorem C109_case : exists f', make_dirs m_fs (L "/var/log//cards/2024/") = Ok (f', true) /\ free m_fs [L "var"; L "log"; L "cards"; L "2024"] /\
  fget f' [L "var"; L "log"; L "cards"; L "2024"] = Some made /\ fget f' [L "var"; L "log"; L "cards"] = Some made /\ fget f' [L "var"; L "log"] = Some (m_dir 448) /\
  fget (make_dirs_cut 5 m_fs (L "/var/log//cards/2024/")) [L "var"; L "log"; L "cards"] = Some made /\ fget (make_dirs_cut 5 m_fs (L "/var/log//cards/2024/")) [L "var"; L "log"; L "cards"; L "2024"] = None.
Proof.
  eexists. split; [vm_compute; reflexivity|]. split.
  - change (free m_fs (((([] ++ [L "var"]) ++ [L "log"]) ++ [L "cards"]) ++ [L "2024"])). repeat (apply free_snoc; split); try (left; vm_compute; reflexivity).
    + intros r Lr. apply leads_nil in Lr. subst r. right. exists (m_dir 493). split; reflexivity.
    + right. exists (m_dir 511). split; reflexivity.
    + right. exists (m_dir 448). split; reflexivity.
  - split; [vm_compute; reflexivity|]. split; [vm_compute; reflexivity|]. split; [vm_compute; reflexivity|]. split; [vm_compute; reflexivity|]. vm_compute. reflexivity.
Qed.
(** a file stands in the way: the answer is yes although nothing was made, and the log cannot be opened *)
Theorem C109_answer_refuted : make_dirs m_fs (L "/var/spool/cards") = Ok (m_fs, true) /\ ~ dir_at m_fs [L "var"; L "spool"; L "cards"] /\
  open_log m_fs (L "/var/spool/cards") (L "gcc") = Throw.
Proof. split; [vm_compute; reflexivity|]. split; [|vm_compute; reflexivity]. intros (n & E & _). vm_compute in E. discriminate E. Qed.
(** the root directory is there and is refused; so is a directory with a name of one character *)
Theorem C109_short_refuted : make_dirs m_fs (L "/") = Ok (m_fs, false) /\ dir_at m_fs (comps (L "/")) /\ open_log m_fs (L "/") (L "gcc") = Throw /\
  make_dirs m_fs (L "a") = Ok (m_fs, false) /\ free m_fs (comps (L "a")).
Proof.
  split; [vm_compute; reflexivity|]. split; [exists (m_dir 493); split; reflexivity|]. split; [vm_compute; reflexivity|]. split; [vm_compute; reflexivity|].
  change (free m_fs ([] ++ [L "a"])). apply free_snoc. split; [|left; reflexivity]. intros r Lr. apply leads_nil in Lr. subst r. right. exists (m_dir 493). split; reflexivity.
Qed.
(** a log is begun again: what it held is gone; the file a link of that name leads to is left alone *)
Definition m_logs : fs := ([L "var"; L "log"; L "gcc.log"], m_file (L "old")) :: ([L "var"; L "log"; L "x.log"], Node KLnk (L "../spool") 511 0 0 0 0) :: m_fs.
Theorem C109_log_case : exists f1 f2, open_log m_logs (L "/var/log") (L "gcc") = Ok f1 /\ fget f1 [L "var"; L "log"; L "gcc.log"] = Some (m_file []) /\
  open_log m_logs (L "/var/log") (L "x") = Ok f2 /\ fget f2 [L "var"; L "log"; L "x.log"] = Some (m_file []) /\ fget f2 [L "var"; L "spool"] = Some (m_file (L "mail")).
Proof. eexists. eexists. split; [vm_compute; reflexivity|]. split; [vm_compute; reflexivity|]. split; [vm_compute; reflexivity|]. split; vm_compute; reflexivity. Qed.
