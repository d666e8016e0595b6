(** C44: every installed package falls in exactly one class; the counters and the lists of the upgrade agree with the classes. *)
From Verif Require Import Base BaseProofs StrModel StrSpec StrProofs MetaModel MetaProofs FsProofs DbModel DbLoad DbInv IndexModel DiffModel.
From Coq Require Import ZArith NArith Lia.

(** ** the specification: the five classes, by the fields of the records *)
Section Classes.
Variables (j : junk) (repo : list (str * irec)) (m : mem) (n : str) (r : rec).
Definition in_repo (i : irec) : Prop := mget n repo = Some i.
(** the installed build is not older than the build in the repository (a repository build of 0 counts as unknown) *)
Definition current (i : irec) : Prop := repo_build j n i <> 0%Z /\ (repo_build j n i <= known (j_ibuild j n) (r_build r))%Z.
Definition same_version (i : irec) : Prop := r_version r = i_text "V"%char i /\ known (j_irel j n) (r_release r) = known (j_rrel j n) (i_release i).
Definition class (u : upg) : Prop :=
  match u with
  | UOk => exists i, in_repo i /\ current i
  | UNew => exists i, in_repo i /\ ~ current i /\ same_version i
  | UOut => exists i, in_repo i /\ ~ current i /\ ~ same_version i
  | UObs => (forall i, ~ in_repo i) /\ r_auto r = true
  | UUnm => (forall i, ~ in_repo i) /\ r_auto r = false
  end.
End Classes.
(** values of the 16 bit member m_release *)
Definition junk_ok (j : junk) : Prop := forall n, (j_irel j n < 2 ^ 16)%N /\ (j_rrel j n < 2 ^ 16)%N.
Definition rels_ok (m : mem) : Prop := forall n r v, In (n, r) (m_pkgs m) -> r_release r = Some v -> (v < 2 ^ 16)%N.

Lemma dec_no_dash n : (n < 2 ^ 64)%N -> ~ In "-"%char (dec n).
Proof. intros H I. destruct (dec_spec n H) as (_ & D & _). rewrite Forall_forall in D. apply D in I. unfold is_digit in I. cbn in I. lia. Qed.
Lemma dash_split c (a b a' b' : str) : ~ In c b -> ~ In c b' -> a ++ c :: b = a' ++ c :: b' -> a = a' /\ b = b'.
Proof.
  revert a'. induction a as [|x a IH]; intros [|x' a'] N N' E; cbn in E.
  - injection E as ->. auto.
  - injection E as -> ->. exfalso. apply N. apply in_app_iff. right. left. reflexivity.
  - injection E as -> <-. exfalso. apply N'. apply in_app_iff. right. left. reflexivity.
  - injection E as -> E. destruct (IH a' N N' E) as [-> ->]. auto.
Qed.
Lemma vtext_inj v r v' r' : (r < 2 ^ 16)%N -> (r' < 2 ^ 16)%N -> vtext v r = vtext v' r' <-> v = v' /\ r = r'.
Proof.
  intros H H'. split; [|intros [-> ->]; reflexivity]. unfold vtext. rewrite !N.mod_small by lia. intro E. destruct (dash_split _ _ _ _ _ (dec_no_dash r ltac:(lia)) (dec_no_dash r' ltac:(lia)) E) as [-> D]. split; [reflexivity|].
  destruct (dec_spec r ltac:(lia)) as (_ & _ & D1 & _). destruct (dec_spec r' ltac:(lia)) as (_ & _ & D2 & _). congruence.
Qed.
Lemma i_release_small i v : i_release i = Some v -> (v < 2 ^ 16)%N.
Proof.
  unfold i_release, stoi_u16. destruct (i_val i "r"%char) as [s|]; [|discriminate]. destruct (sign (drop_space (cstr s))) as [x y]. destruct (negb (has_digit 10 y)); [discriminate|].
  destruct ((strtol10 s <? - 2 ^ 31)%Z || (2 ^ 31 <=? strtol10 s)%Z); [discriminate|]. intro E. injection E as <-. pose proof (Z.mod_pos_bound (strtol10 s) (2 ^ 16) ltac:(lia)). lia.
Qed.
Lemma meta_rel_small i ls : forall r r', meta_lines i r ls = Ok r' -> (forall v, r_release r = Some v -> (v < 2 ^ 16)%N) -> forall v, r_release r' = Some v -> (v < 2 ^ 16)%N.
Proof.
  induction ls as [|s t IH]; intros r r' E H; cbn in E; [injection E as <-; exact H|]. apply rbind_ok in E as [r1 [E1 E]]. apply (IH r1 r' E). rewrite (step_release i r s r1 E1). intros v. unfold set_field.
  destruct s as [|c s]; [apply H|]. destruct (has_tag "r" (c :: s)); [|apply H]. intro X. injection X as <-. unfold atoi_u16. pose proof (Z.mod_pos_bound (strtol10 (skipn 1 (c :: s))) (2 ^ 16) ltac:(lia)). lia.
Qed.

Lemma load_rels jk d m : load jk d = Ok m -> rels_ok m.
Proof.
  intros E n r v I. pose proof (load_keys jk d m E) as K. apply (In_mget n r (m_pkgs m) (ssorted_NoDup _ K)) in I. destruct (load_spec jk d m E) as (_ & P & _). apply P in I. destruct I as [_ [dir [_ Lp]]]. apply load_pkg_ok in Lp. destruct Lp as (ls & c & r0 & _ & _ & M & ->).
  cbn [r_release with_files]. apply (meta_rel_small n ls start_rec r0 M). cbn. intros w W. injection W as <-. reflexivity.
Qed.
(** the class of one package *)
Lemma classify_class j repo m n r : NoDup (keys (m_pkgs m)) -> In (n, r) (m_pkgs m) -> junk_ok j -> rels_ok m -> class j repo n r (classify j repo m (n, r)).
Proof.
  intros N I J R. unfold classify. cbn [fst snd]. destruct (mget n repo) as [i|] eqn:E.
  2:{ destruct (r_auto r) eqn:A; cbn; (split; [intros i H; unfold in_repo in H; congruence|exact A]). }
  assert (B : build_same j m n (repo_build j n i) = true <-> current j n r i).
  { unfold build_same, current. destruct (Z.eqb_spec (repo_build j n i) 0) as [Z0|Z0]; [split; [discriminate|tauto]|]. rewrite (In_mget n r _ N I). rewrite Bool.negb_true_iff, Z.ltb_ge. tauto. }
  destruct (build_same j m n (repo_build j n i)) eqn:Bs; [exists i; split; [exact E|apply B; reflexivity]|].
  assert (NC : ~ current j n r i) by (intro C; apply B in C; discriminate).
  assert (V : vtext (r_version r) (known (j_irel j n) (r_release r)) = vtext (i_text "V"%char i) (known (j_rrel j n) (i_release i)) <-> same_version j n r i).
  { apply vtext_inj.
    - destruct (r_release r) as [v|] eqn:Er; cbn; [exact (R n r v I Er)|exact (proj1 (J n))].
    - destruct (i_release i) as [v|] eqn:Er; cbn; [exact (i_release_small i v Er)|exact (proj2 (J n))]. }
  destruct (seqb_spec (vtext (r_version r) (known (j_irel j n) (r_release r))) (vtext (i_text "V"%char i) (known (j_rrel j n) (i_release i)))) as [S|S]; exists i; (split; [exact E|]); (split; [exact NC|]); rewrite <- V; exact S.
Qed.
Lemma class_unique j repo n r u u' : class j repo n r u -> class j repo n r u' -> u = u'.
Proof.
  unfold class, in_repo. destruct u, u'; intros H H'; try reflexivity; exfalso;
  repeat match goal with
  | H : exists _, _ |- _ => destruct H
  | H : _ /\ _ |- _ => destruct H
  | H : forall i, mget n repo <> Some i, E : mget n repo = Some ?i |- _ => exact (H i E)
  | H : mget n repo = Some ?a, H' : mget n repo = Some ?b |- _ => rewrite H in H'; injection H' as <-
  end; try contradiction; try congruence.
Qed.
(** the loop *)
Definition count (u : upg) (l : list upg) : nat := length (filter (fun x => match u, x with UOk, UOk | UOut, UOut | UNew, UNew | UObs, UObs | UUnm, UUnm => true | _, _ => false end) l).
Lemma diff_loop j repo m : forall l s, let s' := fold_left (d_step j repo m) l s in let us := map (classify j repo m) l in
  d_ok s' = d_ok s + count UOk us /\ d_out s' = d_out s + count UOut us /\ d_new s' = d_new s + count UNew us /\ d_obs s' = d_obs s + count UObs us /\ d_unm s' = d_unm s + count UUnm us.
Proof.
  induction l as [|p l IH]; intros s; cbn zeta; cbn [fold_left map]; [unfold count; cbn; lia|]. specialize (IH (d_step j repo m s p)). cbn zeta in IH. destruct IH as (A & B & C & D & E). rewrite A, B, C, D, E. unfold d_step. cbn zeta. cbn [d_ok d_out d_new d_obs d_unm].
  unfold count. cbn [filter]. destruct (classify j repo m p); cbn [List.length]; lia.
Qed.
Lemma diff_deal j repo m : forall l s n, NoDup (keys l) -> mget n (d_deal (fold_left (d_step j repo m) l s)) = match mget n l with Some r => Some (classify j repo m (n, r)) | None => mget n (d_deal s) end.
Proof.
  induction l as [|[k r] l IH]; intros s n N; [reflexivity|]. cbn [fold_left]. cbn [keys map] in N. inversion N as [|? ? N1 N2]; subst. rewrite (IH _ n N2). cbn [mget]. unfold d_step. cbn zeta. cbn [d_deal fst]. rewrite mget_mset. destruct (seqb n k) eqn:E.
  - apply seqb_eq in E. subst n. rewrite (proj2 (mget_None k l) N1). reflexivity.
  - reflexivity.
Qed.
(** every installed package has exactly one class, and it is the one recorded; nothing else is recorded *)
Theorem C44_partition : forall jk d m j repo, load jk d = Ok m -> junk_ok j ->
  (forall n r, mget n (m_pkgs m) = Some r -> exists u, class j repo n r u /\ (forall u', class j repo n r u' -> u' = u) /\ mget n (d_deal (diff j repo m)) = Some u) /\
  (forall n, mget n (m_pkgs m) = None -> mget n (d_deal (diff j repo m)) = None).
Proof.
  intros jk d m j repo E J. pose proof (ssorted_NoDup _ (load_keys jk d m E)) as N. pose proof (load_rels jk d m E) as R. split.
  - intros n r G. exists (classify j repo m (n, r)). assert (C := classify_class j repo m n r N (mget_In _ _ _ G) J R). split; [exact C|]. split; [intros u' H; exact (class_unique j repo n r _ _ H C)|]. unfold diff. rewrite (diff_deal j repo m _ _ n N), G. reflexivity.
  - intros n G. unfold diff. rewrite (diff_deal j repo m _ _ n N), G. reflexivity.
Qed.
(** the packages of a class, as a list of names *)
Definition counts (j : junk) (repo : list (str * irec)) (m : mem) (u : upg) (k : nat) : Prop :=
  exists l : list str, NoDup l /\ length l = k /\ forall n, In n l <-> exists r, mget n (m_pkgs m) = Some r /\ class j repo n r u.
Lemma count_counts j repo m u : NoDup (keys (m_pkgs m)) -> junk_ok j -> rels_ok m -> counts j repo m u (count u (map (classify j repo m) (m_pkgs m))).
Proof.
  intros N J R. set (f := fun x => match u, x with UOk, UOk | UOut, UOut | UNew, UNew | UObs, UObs | UUnm, UUnm => true | _, _ => false end).
  assert (F : forall x, f x = true <-> x = u) by (intros x; unfold f; destruct u, x; split; (reflexivity || discriminate)).
  exists (map fst (filter (fun p => f (classify j repo m p)) (m_pkgs m))). split; [|split].
  - clear -N. unfold keys in N. induction (m_pkgs m) as [|p l IH]; [constructor|]. cbn [map] in N. inversion N as [|? ? N1 N2]; subst. cbn [filter]. destruct (f (classify j repo m p)); [|exact (IH N2)]. cbn [map]. constructor; [|exact (IH N2)].
    intro I. apply N1. apply in_map_iff in I. destruct I as [q [<- I]]. apply filter_In in I. apply in_map, (proj1 I).
  - rewrite map_length. unfold count. fold f. clear. induction (m_pkgs m) as [|p l IH]; [reflexivity|]. cbn [filter map]. destruct (f (classify j repo m p)); cbn [List.length]; rewrite IH; reflexivity.
  - intro n. rewrite in_map_iff. split.
    + intros [[k r] [<- I]]. apply filter_In in I. destruct I as [I H]. apply F in H. cbn [fst]. exists r. split; [exact (In_mget k r _ N I)|]. rewrite <- H. exact (classify_class j repo m k r N I J R).
    + intros [r [G C]]. exists (n, r). split; [reflexivity|]. apply filter_In. split; [exact (mget_In _ _ _ G)|]. apply F. exact (class_unique j repo n r _ _ (classify_class j repo m n r N (mget_In _ _ _ G) J R) C).
Qed.
(** each counter is the number of packages of its class, and together they are all the packages *)
Theorem C44_counters : forall jk d m j repo, load jk d = Ok m -> junk_ok j -> let s := diff j repo m in
  counts j repo m UOk (d_ok s) /\ counts j repo m UOut (d_out s) /\ counts j repo m UNew (d_new s) /\ counts j repo m UObs (d_obs s) /\ counts j repo m UUnm (d_unm s) /\
  d_size s + d_ok s = length (m_pkgs m) /\ (d_size s = 0 <-> forall n r, mget n (m_pkgs m) = Some r -> class j repo n r UOk).
Proof.
  intros jk d m j repo E J. cbn zeta. pose proof (ssorted_NoDup _ (load_keys jk d m E)) as N. pose proof (load_rels jk d m E) as R. destruct (diff_loop j repo m (m_pkgs m) (D 0 0 0 0 0 [])) as (A & B & C & D0 & E0). fold (diff j repo m) in A, B, C, D0, E0. cbn [d_ok d_out d_new d_obs d_unm Nat.add] in A, B, C, D0, E0.
  assert (T : d_size (diff j repo m) + d_ok (diff j repo m) = length (m_pkgs m)).
  { unfold d_size. rewrite A, B, C, D0, E0. rewrite <- (map_length (classify j repo m) (m_pkgs m)). clear. unfold count. induction (map (classify j repo m) (m_pkgs m)) as [|u l IH]; [reflexivity|]. cbn [filter]. destruct u; cbn [List.length]; lia. }
  split; [rewrite A; apply count_counts; assumption|]. split; [rewrite B; apply count_counts; assumption|]. split; [rewrite C; apply count_counts; assumption|]. split; [rewrite D0; apply count_counts; assumption|]. split; [rewrite E0; apply count_counts; assumption|]. split; [exact T|].
  assert (Q : d_ok (diff j repo m) = length (m_pkgs m) <-> forall p, In p (m_pkgs m) -> classify j repo m p = UOk).
  { rewrite A. unfold count. clear. induction (m_pkgs m) as [|p l IH]; [split; [intros _ p []|reflexivity]|]. cbn [map filter].
    assert (Le : length (filter (fun x => match x with UOk => true | _ => false end) (map (classify j repo m) l)) <= length l) by (rewrite <- (map_length (classify j repo m) l); apply filter_length_le || (clear; induction (map (classify j repo m) l) as [|u t IHt]; [cbn; lia|]; cbn [filter]; destruct u; cbn [List.length]; lia)).
    destruct (classify j repo m p) eqn:K; cbn [List.length]; split; try (intro X; exfalso; lia); try (intros X; exfalso; specialize (X p (or_introl eq_refl)); congruence).
    - intros X q [<-|I]; [exact K|]. apply IH; [lia|exact I].
    - intro X. f_equal. apply IH. intros q I. apply X. right. exact I. }
  split.
  - intro Z. assert (Y : d_ok (diff j repo m) = length (m_pkgs m)) by lia. rewrite Q in Y. intros n r G. rewrite <- (Y (n, r) (mget_In _ _ _ G)). exact (classify_class j repo m n r N (mget_In _ _ _ G) J R).
  - intro H. assert (Y : d_ok (diff j repo m) = length (m_pkgs m)); [|lia]. apply Q. intros [n r] I. pose proof (In_mget n r _ N I) as G. exact (class_unique j repo n r _ _ (classify_class j repo m n r N I J R) (H n r G)).
Qed.
(** the lists of the upgrade *)
Lemma up_loop j repo m l : forall acc x, (In x (fst (fold_left (up_turn j repo m) l acc)) <-> In x (fst acc) \/ exists r i, In (fst x, r) l /\ mget (fst x) repo = Some i /\ snd x = repo_build j (fst x) i /\ build_same j m (fst x) (snd x) = false) .
Proof.
  induction l as [|[k r] l IH]; intros acc x; cbn [fold_left]; [split; [auto|]; intros [H|(r & i & [] & _)]; exact H|]. rewrite IH. unfold up_turn. cbn [fst snd]. destruct (mget k repo) as [i|] eqn:G.
  - cbv zeta. destruct (build_same j m k (repo_build j k i)) eqn:B.
    + split; [intros [H|(r' & i' & I & H)]; [auto|right; exists r', i'; split; [right; exact I|exact H]]|]. intros [H|(r' & i' & [I|I] & H1 & H2 & H3)]; [auto| |right; exists r', i'; auto]. injection I as -> ->. exfalso. rewrite G in H1. injection H1 as <-. congruence.
    + cbn [fst]. rewrite dins_In. split.
      * intros [[->|H]|(r' & i' & I & H)]; [right; exists r, i; cbn; auto|auto|right; exists r', i'; split; [right; exact I|exact H]].
      * intros [H|(r' & i' & [I|I] & H1 & H2 & H3)]; [auto| |right; exists r', i'; auto]. left. left. destruct x as [xn xb]. cbn [fst snd] in *. injection I as -> ->. rewrite G in H1. injection H1 as <-. rewrite H2. reflexivity.
  - assert (X : forall acc' : list dep * list str, fst acc' = fst acc -> (In x (fst acc') \/ (exists r0 i, In (fst x, r0) l /\ mget (fst x) repo = Some i /\ snd x = repo_build j (fst x) i /\ build_same j m (fst x) (snd x) = false)) <-> (In x (fst acc) \/ exists r0 i, In (fst x, r0) ((k, r) :: l) /\ mget (fst x) repo = Some i /\ snd x = repo_build j (fst x) i /\ build_same j m (fst x) (snd x) = false)).
    { intros acc' ->. split; [intros [H|(r' & i' & I & H)]; [auto|right; exists r', i'; split; [right; exact I|exact H]]|]. intros [H|(r' & i' & [I|I] & H1 & H2)]; [auto| |right; exists r', i'; auto]. injection I as -> ->. congruence. }
    destruct (r_auto r); apply X; reflexivity.
Qed.
Lemma up_del j repo m l : forall acc n, (In n (snd (fold_left (up_turn j repo m) l acc)) <-> In n (snd acc) \/ exists r, In (n, r) l /\ mget n repo = None /\ r_auto r = true).
Proof.
  induction l as [|[k r] l IH]; intros acc n; cbn [fold_left]; [split; [auto|]; intros [H|(r & [] & _)]; exact H|]. rewrite IH. unfold up_turn. cbn [fst snd]. destruct (mget k repo) as [i|] eqn:G.
  - cbv zeta. assert (X : forall acc' : list dep * list str, snd acc' = snd acc -> (In n (snd acc') \/ (exists r0, In (n, r0) l /\ mget n repo = None /\ r_auto r0 = true)) <-> (In n (snd acc) \/ exists r0, In (n, r0) ((k, r) :: l) /\ mget n repo = None /\ r_auto r0 = true)).
    { intros acc' ->. split; [intros [H|(r' & I & H)]; [auto|right; exists r'; split; [right; exact I|exact H]]|]. intros [H|(r' & [I|I] & H1 & H2)]; [auto| |right; exists r'; auto]. injection I as -> ->. congruence. }
    destruct (build_same j m k (repo_build j k i)); apply X; reflexivity.
  - destruct (r_auto r) eqn:A; cbn [snd].
    + rewrite sins_In. split.
      * intros [[->|H]|(r' & I & H)]; [right; exists r; cbn; auto|auto|right; exists r'; split; [right; exact I|exact H]].
      * intros [H|(r' & [I|I] & H1 & H2)]; [auto| |right; exists r'; auto]. injection I as -> ->. auto.
    + split; [intros [H|(r' & I & H)]; [auto|right; exists r'; split; [right; exact I|exact H]]|]. intros [H|(r' & [I|I] & H1 & H2)]; [auto| |right; exists r'; auto]. injection I as -> ->. congruence.
Qed.
Lemma group_loop j repo m g l : forall acc x, (In x (fold_left (group_turn j repo m g) l acc) <-> In x acc \/ exists n r i, In (n, r) l /\ r_group r = [] /\ fst x = n ++ "."%char :: g /\ mget (fst x) repo = Some i /\ snd x = repo_build j (fst x) i /\ build_same j m (fst x) (snd x) = false).
Proof.
  induction l as [|[k r] l IH]; intros acc x; cbn [fold_left]; [split; [auto|]; intros [H|(n & r & i & [] & _)]; exact H|]. rewrite IH. unfold group_turn. cbn [fst snd].
  assert (X : ((r_group r <> []) \/ mget (k ++ "."%char :: g) repo = None \/ (exists i, mget (k ++ "."%char :: g) repo = Some i /\ build_same j m (k ++ "."%char :: g) (repo_build j (k ++ "."%char :: g) i) = true)) ->
    (In x acc \/ (exists n r0 i, In (n, r0) l /\ r_group r0 = [] /\ fst x = n ++ "."%char :: g /\ mget (fst x) repo = Some i /\ snd x = repo_build j (fst x) i /\ build_same j m (fst x) (snd x) = false)) <->
    (In x acc \/ exists n r0 i, In (n, r0) ((k, r) :: l) /\ r_group r0 = [] /\ fst x = n ++ "."%char :: g /\ mget (fst x) repo = Some i /\ snd x = repo_build j (fst x) i /\ build_same j m (fst x) (snd x) = false)).
  { intro No. split; [intros [H|(n & r' & i & I & H)]; [auto|right; exists n, r', i; split; [right; exact I|exact H]]|]. intros [H|(n & r' & i & [I|I] & Gr & F & M & B & S)]; [auto| |right; exists n, r', i; auto 10]. injection I as -> ->. exfalso. rewrite F in M, B, S. destruct No as [No|[No|[i' [No1 No2]]]]; [contradiction|congruence|]. rewrite No1 in M. injection M as <-. congruence. }
  destruct (length (r_group r) =? 0) eqn:Lg; cbn [negb].
  - apply Nat.eqb_eq in Lg. assert (Gn : r_group r = []) by (destruct (r_group r); [reflexivity|discriminate]). cbv zeta. destruct (mget (k ++ "."%char :: g) repo) as [i|] eqn:G; [|apply X; auto]. destruct (build_same j m (k ++ "."%char :: g) (repo_build j (k ++ "."%char :: g) i)) eqn:B; [apply X; right; right; eauto|].
    rewrite dins_In. split.
    + intros [[->|H]|(n & r' & i' & I & H)]; [right; exists k, r, i; cbn; auto 10|auto|right; exists n, r', i'; split; [right; exact I|exact H]].
    + intros [H|(n & r' & i' & [I|I] & Gr & F & M & Bx & S)]; [auto| |right; exists n, r', i'; auto 10]. injection I as -> ->. left. left. destruct x as [xn xb]. cbn [fst snd] in *. subst xn. rewrite G in M. injection M as <-. rewrite Bx. reflexivity.
  - apply X. left. intros Gn. rewrite Gn in Lg. discriminate.
Qed.
Lemma group_In j repo m groups x : In x (group_update j repo m groups) <-> exists n r g i, In (n, r) (m_pkgs m) /\ r_group r = [] /\ In g groups /\ fst x = n ++ "."%char :: g /\ mget (fst x) repo = Some i /\ snd x = repo_build j (fst x) i /\ build_same j m (fst x) (snd x) = false.
Proof.
  unfold group_update. assert (K : forall acc, In x (fold_left (fun acc g => fold_left (group_turn j repo m g) (m_pkgs m) acc) groups acc) <-> In x acc \/ exists n r g i, In (n, r) (m_pkgs m) /\ r_group r = [] /\ In g groups /\ fst x = n ++ "."%char :: g /\ mget (fst x) repo = Some i /\ snd x = repo_build j (fst x) i /\ build_same j m (fst x) (snd x) = false).
    { induction groups as [|g gs IH]; intro acc; cbn [fold_left]; [split; [auto|]; intros [H|(n & r & g & i & _ & _ & [] & _)]; exact H|]. rewrite IH, group_loop. split.
      - intros [[H|(n & r & i & A & B & C)]|(n & r & g' & i & A & B & Ig & C)]; [auto|right; exists n, r, g, i; split; [exact A|]; split; [exact B|]; split; [left; reflexivity|exact C]|right; exists n, r, g', i; split; [exact A|]; split; [exact B|]; split; [right; exact Ig|exact C]].
      - intros [H|(n & r & g' & i & A & B & [<-|Ig] & C)]; [auto|left; right; exists n, r, i; auto|right; exists n, r, g', i; auto]. }
    rewrite K. split; [intros [[]|H]; exact H|auto].
Qed.
(** what the upgrade will update: the out of date and newly built packages, and the packages NAME.GROUP of the configured groups;
    what it will delete: exactly the obsolete ones *)
Theorem C44_upgrade_lists : forall jk d m j repo groups, load jk d = Ok m -> junk_ok j ->
  (forall n b, In (n, b) (fst (up_lists j repo m groups)) <->
     (exists r, mget n (m_pkgs m) = Some r /\ (class j repo n r UOut \/ class j repo n r UNew) /\ exists i, mget n repo = Some i /\ b = repo_build j n i) \/
     (exists k r g i, mget k (m_pkgs m) = Some r /\ r_group r = [] /\ In g groups /\ n = k ++ "."%char :: g /\ mget n repo = Some i /\ b = repo_build j n i /\
        (b = 0%Z \/ forall r', mget n (m_pkgs m) = Some r' -> (known (j_ibuild j n) (r_build r') < b)%Z))) /\
  (forall n, In n (snd (up_lists j repo m groups)) <-> exists r, mget n (m_pkgs m) = Some r /\ class j repo n r UObs).
Proof.
  intros jk d m j repo groups E J. pose proof (ssorted_NoDup _ (load_keys jk d m E)) as N. pose proof (load_rels jk d m E) as R.
  pose proof (group_In j repo m groups) as Gs.
  assert (Bs : forall n b, build_same j m n b = false <-> b = 0%Z \/ forall r', mget n (m_pkgs m) = Some r' -> (known (j_ibuild j n) (r_build r') < b)%Z).
  { intros n b. unfold build_same. destruct (Z.eqb_spec b 0) as [->|Z0]; [split; [auto|reflexivity]|]. destruct (mget n (m_pkgs m)) as [r'|]; [|split; [right; discriminate|reflexivity]]. rewrite Bool.negb_false_iff, Z.ltb_lt. split; [intros H; right; intros r2 E2; injection E2 as <-; exact H|intros [H|H]; [contradiction|exact (H r' eq_refl)]]. }
  split.
  - intros n b. unfold up_lists. rewrite up_loop, Gs. cbn [fst snd]. split.
    + intros [(k & r & g & i & A & B & C & D0 & F & H & I)|(r & i & A & B & C & D0)].
      * right. exists k, r, g, i. split; [exact (In_mget k r _ N A)|]. apply Bs in I. auto 10.
      * left. exists r. split; [exact (In_mget n r _ N A)|]. split; [|exists i; auto]. pose proof (classify_class j repo m n r N A J R) as K. unfold classify in K at 1. cbn [fst snd] in K. rewrite B in K. rewrite C in D0. rewrite D0 in K. destruct (seqb _ _); auto.
    + intros [(r & A & B & i & C & D0)|(k & r & g & i & A & B & C & D0 & F & H & I)].
      * right. exists r, i. split; [exact (mget_In _ _ _ A)|]. split; [exact C|]. split; [exact D0|]. pose proof (classify_class j repo m n r N (mget_In _ _ _ A) J R) as K. unfold classify in K at 1. cbn [fst snd] in K. rewrite C in K. rewrite <- D0 in K. destruct (build_same j m n b); [|reflexivity]. destruct B as [B|B]; pose proof (class_unique _ _ _ _ _ _ K B); discriminate.
      * left. exists k, r, g, i. split; [exact (mget_In _ _ _ A)|]. apply Bs in I. auto 10.
  - intro n. unfold up_lists. rewrite up_del. cbn [snd]. split.
    + intros [[]|(r & A & B & C)]. exists r. split; [exact (In_mget n r _ N A)|]. split; [intros i H; unfold in_repo in H; congruence|exact C].
    + intros (r & A & B & C). right. exists r. split; [exact (mget_In _ _ _ A)|]. split; [|exact C]. destruct (mget n repo) as [i|] eqn:G; [exfalso; exact (B i G)|reflexivity].
Qed.
(** ** examples *)
Definition dx (ls : list str) : dbdir := [(L "META", text_of ls); (L "files", text_of [L "usr/bin/x"])].
Definition ex_disk : disk := [(L "a", dx [L "V1"; L "B20"]); (L "b", dx [L "V1"; L "r2"; L "B10"]); (L "c", dx [L "V1"; L "B10"]); (L "d", dx [L "V1"; L "B10"; L "d1"]); (L "e", dx [L "V1"; L "B10"])].
Definition ix (ls : list (ascii * str)) : irec := IRec (L "f") (fun c => match find (fun p => ceqb (fst p) c) ls with Some p => Some (snd p) | None => None end) [] no_many [].
Definition ex_repo : list (str * irec) := [(L "a", ix [("V"%char, L "2"); ("r"%char, L "1"); ("B"%char, L "20")]); (L "b", ix [("V"%char, L "1"); ("r"%char, L "2"); ("B"%char, L "11")]); (L "c", ix [("V"%char, L "1-1"); ("r"%char, L "1"); ("B"%char, L "11")]); (L "c.man", ix [("B"%char, L "5")])].
Definition ex_junk : junk := Junk (fun _ => 0%Z) (fun _ => 0%N) (fun _ => 0%Z) (fun _ => 0%N) (fun _ => 0%N).
Example C44_example : exists m, load false ex_disk = Ok m /\ map snd (d_deal (diff ex_junk ex_repo m)) = [UOk; UNew; UOut; UObs; UUnm] /\ d_size (diff ex_junk ex_repo m) = 4 /\
  up_lists ex_junk ex_repo m [L "man"] = ([(L "b", 11%Z); (L "c", 11%Z); (L "c.man", 5%Z)], [L "d"]) /\ junk_ok ex_junk.
Proof. eexists. split; [vm_compute; reflexivity|]. split; [vm_compute; reflexivity|]. split; [vm_compute; reflexivity|]. split; [vm_compute; reflexivity|]. intro n. split; reflexivity. Qed.
(** "cards upgrade --check" says yes (size() > 0) although the upgrade has nothing to do: one package that no repository has *)
Example C44_check_yes_nothing_to_do : exists m, load false [(L "e", dx [L "V1"; L "B10"]); (L "a", dx [L "V1"; L "B20"])] = Ok m /\ d_size (diff ex_junk ex_repo m) = 1 /\ up_lists ex_junk ex_repo m [] = ([], []).
Proof. eexists. split; [vm_compute; reflexivity|]. split; vm_compute; reflexivity. Qed.
