(** C89: the arguments of a request to webcards. C90: its search for packages. C91: what it shows. *)
From Verif Require Import Base BaseProofs StrModel StrSpec StrProofs RulesModel FsModel FsProofs MetaModel IndexModel DbModel ScanModel ScanProps WebModel.
From Coq Require Import ZArith NArith Lia.

(** ** C89 *)
Definition arg_keys : list str := [L "system"; L "branch"; L "page"; L "search"; L "searchpkg"; L "type"].
Definition amp : ascii := "&"%char.
(** key=value *)
Definition written_arg (kv : str * str) : str := fst kv ++ L "=" ++ snd kv.
Definition good_request (req : list (str * str)) : Prop :=
  NoDup (map fst req) /\ forall k v, In (k, v) req -> In k arg_keys /\ ~ In amp v /\ ~ In zero v /\ forall k', In k' arg_keys -> ~ occurs (k' ++ L "=") v.
(** the value given for a key, or the default *)
Definition given (req : list (str * str)) (k d v : str) : Prop := In (k, v) req \/ ((forall w, ~ In (k, w) req) /\ v = d).
(** the same where an empty value means the default *)
Definition given_or (req : list (str * str)) (k d v : str) : Prop := (v <> [] /\ In (k, v) req) \/ ((forall w, In (k, w) req -> w = []) /\ v = d).

Lemma keys_no_eq k : In k arg_keys -> ~ In "="%char k /\ ~ In amp k /\ ~ In zero k.
Proof. intros H. unfold arg_keys in H. repeat (destruct H as [<-|H]; [vm_compute; intuition discriminate|]). contradiction. Qed.
Lemma keys_suffix : forall k k' a, In k arg_keys -> In k' arg_keys -> k = a ++ k' -> k = k'.
Proof.
  intros k k' a I I' E. assert (C : forallb (fun x => forallb (fun y => implb (prefixb (rev y) (rev x)) (seqb x y)) arg_keys) arg_keys = true) by (vm_compute; reflexivity).
  rewrite forallb_forall in C. specialize (C k I). rewrite forallb_forall in C. specialize (C k' I'). assert (P : prefixb (rev k') (rev k) = true) by (apply prefixb_spec; exists (rev a); rewrite E, rev_app_distr; reflexivity). rewrite P in C. apply seqb_eq. exact C.
Qed.
Lemma first_split (c : ascii) (a b a' b' : str) : ~ In c a -> a ++ c :: b = a' ++ c :: b' -> (a = a' /\ b = b') \/ exists a2, a' = a ++ c :: a2 /\ b = a2 ++ c :: b'.
Proof.
  revert a'. induction a as [|x a IH]; intros a' N E.
  - destruct a' as [|y a']; [injection E as E; left; split; [reflexivity|exact E]|]. injection E as <- E. right. exists a'. split; [reflexivity|exact E].
  - destruct a' as [|y a']; [injection E as -> _; exfalso; apply N; left; reflexivity|]. injection E as <- E. destruct (IH a' ltac:(intro I; apply N; right; exact I) E) as [[-> ->]|(a2 & -> & ->)]; [left; split; reflexivity|right; exists a2; split; reflexivity].
Qed.
Lemma after_hit k v old : after_mark (k ++ L "=") (written_arg (k, v)) old = v.
Proof.
  unfold after_mark, written_arg. cbn [fst snd]. assert (P : sfind (k ++ L "=") (k ++ L "=" ++ v) = Some 0).
  { assert (Q : prefixb (k ++ L "=") (k ++ L "=" ++ v) = true) by (apply prefixb_spec; exists v; rewrite <- app_assoc; reflexivity). destruct (k ++ L "=" ++ v); cbn [sfind]; rewrite Q; reflexivity. }
  rewrite P. cbn [Nat.add]. rewrite app_assoc, skipn_app, skipn_all, Nat.sub_diag. reflexivity.
Qed.
Lemma after_miss k k' v old : In k arg_keys -> In k' arg_keys -> k <> k' -> ~ occurs (k' ++ L "=") v -> after_mark (k' ++ L "=") (written_arg (k, v)) old = old.
Proof.
  intros I I' D N. unfold after_mark. replace (sfind (k' ++ L "=") (written_arg (k, v))) with (@None nat); [reflexivity|]. symmetry. apply sfind_None. unfold written_arg. cbn [fst snd]. intros (a & b & E).
  destruct (keys_no_eq k I) as (K1 & _). destruct (first_split "="%char k v (a ++ k') b K1) as [[E1 _]|(a2 & E1 & E2)].
  - rewrite <- !app_assoc in E. rewrite <- app_assoc. exact E.
  - apply D. exact (keys_suffix k k' a I I' E1).
  - apply N. (* the mark lies in the value *)
    destruct (keys_no_eq k' I') as (K2 & _).
    assert (Q : exists a3, a2 = a3 ++ k').
    { clear -E1 K2. assert (R : rev k' ++ rev a = rev a2 ++ "="%char :: rev k) by (rewrite <- rev_app_distr, E1, rev_app_distr; cbn [rev]; rewrite <- app_assoc; reflexivity).
      assert (Nr : ~ In "="%char (rev k')) by (rewrite <- in_rev; exact K2). remember (rev k') as x eqn:Hx. revert R. generalize (rev a) (rev k). intros y z R.
      assert (X : exists w, rev a2 = x ++ w). { clear Hx. revert R. generalize (rev a2). induction x as [|c x IH]; intros l R; [exists l; reflexivity|]. destruct l as [|d l]; [injection R as -> _; exfalso; apply Nr; left; reflexivity|]. injection R as -> R. destruct (IH ltac:(intro; apply Nr; right; assumption) l R) as [w ->]. exists w. reflexivity. }
      destruct X as [w X]. exists (rev w). rewrite <- (rev_involutive a2), X, rev_app_distr, Hx, rev_involutive. reflexivity. }
    destruct Q as [a3 ->]. exists a3, b. rewrite E2, <- !app_assoc. reflexivity.
Qed.

(** the steps of the six arguments are independent *)
Lemma fold_args : forall l a, let f m old := fold_left (fun o t => after_mark m t o) l old in
  fold_left arg_step l a = WArgs (f (L "system=") (a_system a)) (f (L "branch=") (a_branch a)) (f (L "page=") (a_page a)) (f (L "search=") (a_find a)) (f (L "searchpkg=") (a_pkg a)) (f (L "type=") (a_type a)).
Proof. induction l as [|t l IH]; intro a; [destruct a; reflexivity|]. cbn [fold_left]. rewrite IH. reflexivity. Qed.
Lemma fold_miss k req old : good_request req -> In k arg_keys -> forall l, (forall t, In t l -> In t (map written_arg req)) -> (forall w, ~ In (written_arg (k, w)) l \/ ~ In (k, w) req) -> fold_left (fun o t => after_mark (k ++ L "=") t o) l old = old.
Proof.
  intros (_ & G) I. induction l as [|t l IH]; intros S N; [reflexivity|]. cbn [fold_left].
  destruct (proj1 (in_map_iff _ _ _) (S t (or_introl eq_refl))) as ([k1 v1] & <- & I1). destruct (G k1 v1 I1) as (Ik & _ & _ & No).
  assert (D : k1 <> k) by (intros ->; destruct (N v1) as [X|X]; [apply X; left; reflexivity|contradiction]).
  rewrite (after_miss k1 k v1 old Ik I D (No k I)). apply IH; [intros t It; apply S; right; exact It|]. intros w. destruct (N w) as [X|X]; [left; intro Y; apply X; right; exact Y|right; exact X].
Qed.
Lemma fold_hit k v req : good_request req -> In (k, v) req -> forall l old, (forall t, In t l -> In t (map written_arg req)) -> In (written_arg (k, v)) l -> fold_left (fun o t => after_mark (k ++ L "=") t o) l old = v.
Proof.
  intros G Ikv. destruct (proj2 G k v Ikv) as (I & _).
  assert (Fix : forall l, (forall t, In t l -> In t (map written_arg req)) -> fold_left (fun o t => after_mark (k ++ L "=") t o) l v = v).
  { induction l as [|t l IH]; intros S; [reflexivity|]. cbn [fold_left]. destruct (proj1 (in_map_iff _ _ _) (S t (or_introl eq_refl))) as ([k1 v1] & <- & I1). destruct (proj2 G k1 v1 I1) as (Ik & _ & _ & No).
    assert (E : after_mark (k ++ L "=") (written_arg (k1, v1)) v = v).
    { destruct (list_eq_dec ascii_dec k1 k) as [->|D]; [|exact (after_miss k1 k v1 v Ik I D (No k I))]. rewrite after_hit.
      destruct G as (Nd & _). clear -Nd Ikv I1. induction req as [|[a b] req IH]; [contradiction|]. cbn [map fst] in Nd. inversion Nd as [|x y Nx Ny]; subst. destruct Ikv as [E|Ikv], I1 as [E1|I1]; [congruence| | |exact (IH Ny Ikv I1)]; exfalso; apply Nx; apply in_map_iff; [exists (k, v1)|exists (k, v)]; (split; [cbn; congruence|assumption]). }
    rewrite E. apply IH. intros t It. apply S. right. exact It. }
  induction l as [|t l IH]; intros old S Il; [contradiction|]. cbn [fold_left]. destruct (list_eq_dec ascii_dec t (written_arg (k, v))) as [->|D].
  - rewrite after_hit. apply Fix. intros t It. apply S. right. exact It.
  - destruct Il as [->|Il]; [contradiction|]. apply IH; [intros t' It; apply S; right; exact It|exact Il].
Qed.
Lemma request_tokens req : good_request req -> exists l, split_strtok_set (join amp (map written_arg req)) (L "&") = Some l /\ forall t, In t l <-> In t (map written_arg req).
Proof.
  intros G. assert (F : forall t, In t (map written_arg req) -> t <> [] /\ ~ In amp t /\ ~ In zero t).
  { intros t It. apply in_map_iff in It. destruct It as ([k v] & <- & I). destruct (proj2 G k v I) as (Ik & A & Z & _). destruct (keys_no_eq k Ik) as (K1 & K2 & K3). unfold written_arg. cbn [fst snd]. split; [intro X; apply app_eq_nil in X; destruct X as [_ X]; discriminate X|].
    split; intro X; apply in_app_iff in X; (destruct X as [X|[X|X]]; [contradiction|discriminate X|contradiction]). }
  assert (Z : ~ In zero (join amp (map written_arg req))).
  { clear -F. induction (map written_arg req) as [|t l IH]; [intros []|]. cbn [join]. destruct l as [|t' l]; [exact (proj2 (proj2 (F t (or_introl eq_refl))))|]. intro X. apply in_app_iff in X. destruct X as [X|[X|X]]; [exact (proj2 (proj2 (F t (or_introl eq_refl))) X)|discriminate X|]. apply IH; [intros y Iy; apply F; right; exact Iy|exact X]. }
  unfold split_strtok_set. change (L "&") with [amp]. rewrite split_agree by exact Z. rewrite split_join by (apply Forall_forall; intros t It; split; [exact (proj1 (F t It))|exact (proj1 (proj2 (F t It)))]). cbn [option_map]. eexists. split; [reflexivity|]. intro t. apply set_of_In.
Qed.
Lemma field_given req l k d : good_request req -> In k arg_keys -> (forall t, In t l <-> In t (map written_arg req)) -> given req k d (fold_left (fun o t => after_mark (k ++ L "=") t o) l d).
Proof.
  intros G I S. destruct (in_dec (list_eq_dec ascii_dec) k (map fst req)) as [H|H].
  - apply in_map_iff in H. destruct H as ([k0 v] & Ek & Ikv). cbn [fst] in Ek. subst k0. left. rewrite (fold_hit k v req G Ikv l d); [exact Ikv|intros t; apply S|apply S, in_map, Ikv].
  - right. assert (N : forall w, ~ In (k, w) req) by (intros w X; apply H; apply in_map_iff; exists (k, w); split; [reflexivity|exact X]). split; [exact N|]. apply (fold_miss k req d G I l); [intros t; apply S|intro w; right; exact (N w)].
Qed.
Lemma given_default req k d v : good_request req -> given req k [] v -> given_or req k d (or_default v d).
Proof.
  intros (Nd & _) [I|[N ->]].
  - destruct v as [|c v]; [|left; split; [discriminate|exact I]]. right. split; [|reflexivity]. intros w Iw. clear -Nd I Iw. induction req as [|[a b] req IH]; [contradiction|]. cbn [map fst] in Nd. inversion Nd as [|x y Nx Ny]; subst. destruct I as [E|I], Iw as [E1|I1]; [congruence| | |exact (IH Ny I I1)]; exfalso; apply Nx; apply in_map_iff; [exists (k, w)|exists (k, [])]; (split; [cbn; congruence|assumption]).
  - right. split; [intros w Iw; exfalso; exact (N w Iw)|reflexivity].
Qed.
(** every argument of a request is understood as it was written, in whatever order they come; those not given have their default *)
Theorem C89_arguments : forall req, good_request req -> let a := web_args (join amp (map written_arg req)) in
  given req (L "page") (L "index") (a_page a) /\ given req (L "search") [] (a_find a) /\ given req (L "searchpkg") [] (a_pkg a) /\
  given_or req (L "system") (L "all") (a_system a) /\ given_or req (L "branch") (L "systemd") (a_branch a) /\ given_or req (L "type") (L "pkg") (a_type a).
Proof.
  intros req G. cbv zeta. unfold web_args. destruct (request_tokens req G) as (l & E & S). rewrite E. cbv zeta. rewrite fold_args. cbn [a_page a_find a_pkg a_system a_branch a_type].
  assert (K : forall k, In k arg_keys -> forall d, given req k d (fold_left (fun o t => after_mark (k ++ L "=") t o) l d)) by (intros k Ik d; exact (field_given req l k d G Ik S)).
  split; [apply (K (L "page")); cbn; tauto|]. split; [apply (K (L "search")); cbn; tauto|]. split; [apply (K (L "searchpkg")); cbn; tauto|].
  split; [apply given_default; [exact G|]; apply (K (L "system")); cbn; tauto|]. split; apply given_default; try exact G; [apply (K (L "branch"))|apply (K (L "type"))]; cbn; tauto.
Qed.
Example C89_some : good_request [(L "type", L "pkg"); (L "searchpkg", L "gcc"); (L "branch", L "all")].
Proof.
  split; [repeat constructor; cbn; intuition discriminate|]. intros k v H.
  assert (C : forall v, (forall x, In x v -> x <> amp /\ x <> zero /\ x <> "="%char) -> ~ In amp v /\ ~ In zero v /\ forall k', In k' arg_keys -> ~ occurs (k' ++ L "=") v).
  { clear. intros v N. split; [intro I; exact (proj1 (N _ I) eq_refl)|]. split; [intro I; exact (proj1 (proj2 (N _ I)) eq_refl)|]. intros k' _ (a & b & ->). apply (proj2 (proj2 (N "="%char ltac:(apply in_app_iff; right; apply in_app_iff; left; apply in_app_iff; right; left; reflexivity)))). reflexivity. }
  destruct H as [E|[E|[E|[]]]]; injection E as <- <-; (split; [cbn; tauto|]); apply C; intros x; cbn; intuition (subst; discriminate).
Qed.
(** a mark inside a value is taken for another argument, and of two values of a key the greater one counts, not the later one *)
Theorem C89_inside_refuted : a_page (web_args (L "search=homepage=x")) = L "x".
Proof. vm_compute. reflexivity. Qed.
Theorem C89_twice_refuted : a_page (web_args (L "page=b&page=a")) = L "b".
Proof. vm_compute. reflexivity. Qed.
