(** C108: one object of the library's database class over time: what is read afresh at every call, what is read once and kept, and from
    which moment. *)
From Verif Require Import Base BaseProofs StrModel RulesModel FsModel FsProofs MetaModel MetaProofs MetaSpec DbModel DbLoad DbSpec DbFacts DbInv RemoveProps RemoveCmdProofs OpenExact ReadExact ObjModel.
From Verif Require Import DbProps.
From Coq Require Import ZArith.

(** ** Specification vocabulary *)
(** the object after the calls [h], each made at a state of the database *)
Definition after (h : list (query * disk)) : obj := fst (calls h new_obj).
(** what the object answers to [q] at [d], after the calls [h] *)
Definition answer (h : list (query * disk)) (q : query) (d : disk) : res ans := snd (call q d (after h)).
(** calls that look at the names of the installed packages *)
Definition asks (q : query) : Prop := match q with Names | Count | Build _ | HasFile _ => True | _ => False end.
(** calls that load the packages *)
Definition loads (q : query) : Prop := match q with Build _ | HasFile _ => True | _ => False end.
Definition nothing (d : disk) : Prop := forall n, ~ installed d n.
(** [d0] is the state of the database at the first call that looked at the names when something was installed *)
Definition first_look (h : list (query * disk)) (d0 : disk) : Prop :=
  exists h1 q h2, h = h1 ++ (q, d0) :: h2 /\ asks q /\ ~ nothing d0 /\ forall q1 d1, In (q1, d1) h1 -> asks q1 -> nothing d1.
(** of the lines of letter [c] in the record of [n], the value of the least; nothing without such a line *)
Definition least (d : disk) (n : str) (c : ascii) (v : str) : Prop :=
  (meta_has d n (c :: v) /\ forall w, meta_has d n (c :: w) -> w = v \/ slt v w) \/ (v = [] /\ forall w, ~ meta_has d n (c :: w)).
(** the record of [n] can be read at [d]: no line of it begins with NUL *)
Definition readable (d : disk) (n : str) : Prop := forall dir c, mget n d = Some dir -> mget (L "META") dir = Some c -> parse_lines c <> None.

(** ** Lemmas *)
Lemma meta_of_lines d n ls : meta_of d n = Ok ls -> ssorted ls /\ forall s, In s ls <-> meta_has d n s.
Proof.
  unfold meta_of, meta_has. intro H. destruct (mget n d) as [dir|] eqn:G.
  - destruct (mget (L "META") dir) as [c|] eqn:M.
    + unfold parse_set in H. destruct (parse_lines c) as [l|] eqn:P; [|discriminate H]. cbn [option_map] in H. injection H as <-. split; [apply set_of_sorted|].
      intro s. rewrite set_of_In. split; [intro I; exists dir, c, l; auto|]. intros (dir' & c' & l' & H1 & H2 & H3 & H4). congruence.
    + injection H as <-. split; [constructor|]. intro s. split; [intros []|]. intros (dir' & c' & l' & H1 & H2 & H3 & H4). congruence.
  - injection H as <-. split; [constructor|]. intro s. split; [intros []|]. intros (dir' & c' & l' & H1 & H2 & H3 & H4). congruence.
Qed.
Lemma meta_of_readable d n : readable d n -> exists ls, meta_of d n = Ok ls.
Proof.
  unfold readable, meta_of. intro H. destruct (mget n d) as [dir|] eqn:G; [|eexists; reflexivity]. destruct (mget (L "META") dir) as [c|] eqn:M; [|eexists; reflexivity].
  specialize (H dir c eq_refl M). unfold parse_set. destruct (parse_lines c) as [l|]; [|contradiction]. eexists; reflexivity.
Qed.
Lemma slt_tail c a b : slt (c :: a) (c :: b) -> slt a b.
Proof. unfold slt. cbn [sltb]. unfold cltb. rewrite N.ltb_irrefl. auto. Qed.
Lemma tag_least d n c ls : ssorted ls -> (forall s, In s ls <-> meta_has d n s) -> least d n c (tag_or_empty c ls).
Proof.
  intros Hs Hi. unfold tag_or_empty. destruct (first_tag c ls) as [v|] eqn:F.
  - apply first_tag_spec in F. destruct F as (a & b & -> & Na). left. split; [apply Hi, in_elt|]. intros w Hw. apply Hi in Hw. apply in_app_iff in Hw. destruct Hw as [Hw|[Hw|Hw]]; [destruct (Na w Hw)|injection Hw as ->; left; reflexivity|].
    right. clear Na Hi. induction a as [|x a IH]; cbn [app] in Hs; inversion Hs as [|y s Hs' Hf]; subst; [|apply IH; assumption]. rewrite Forall_forall in Hf. apply (slt_tail c), Hf, Hw.
  - right. split; [reflexivity|]. intros w Hw. apply Hi in Hw. exact (proj1 (first_tag_no c ls) F w Hw).
Qed.
Lemma all_tag_In c ls v : In v (all_tag c ls) <-> In (c :: v) ls.
Proof.
  unfold all_tag. rewrite in_map_iff. split.
  - intros (s & <- & I). apply filter_In in I. destruct I as [I T]. apply has_tag_spec in T. destruct T as [w ->]. exact I.
  - intro I. exists (c :: v). split; [reflexivity|]. apply filter_In. split; [exact I|]. cbn [has_tag]. apply ceqb_refl.
Qed.

Lemma set_all_tag d n c ls : (forall s, In s ls <-> meta_has d n s) -> ssorted (set_of (all_tag c ls)) /\ forall v, In v (set_of (all_tag c ls)) <-> meta_has d n (c :: v).
Proof. intro Hi. split; [apply set_of_sorted|]. intro v. rewrite set_of_In, all_tag_In. apply Hi. Qed.
Lemma names_of_spec d : ssorted (names_of d) /\ forall n, In n (names_of d) <-> installed d n.
Proof.
  split.
  - unfold names_of. apply filter_sorted, set_of_sorted.
  - intro n. unfold names_of, installed, nodot. rewrite load_names, nondot_spec. reflexivity.
Qed.
Lemma names_of_nil d : names_of d = [] <-> nothing d.
Proof.
  unfold nothing. split; intro H.
  - intros n I. apply (proj2 (names_of_spec d)) in I. rewrite H in I. destruct I.
  - destruct (names_of d) as [|n t] eqn:E; [reflexivity|]. exfalso. apply (H n). apply (proj2 (names_of_spec d)). rewrite E. left. reflexivity.
Qed.
Lemma calls_app h1 : forall h2 o, fst (calls (h1 ++ h2) o) = fst (calls h2 (fst (calls h1 o))).
Proof.
  induction h1 as [|[q d] t IH]; intros h2 o; [reflexivity|]. cbn [app calls]. destruct (call q d o) as [o1 r]. specialize (IH h2 o1). destruct (calls (t ++ h2) o1) as [o2 rs]. destruct (calls t o1) as [o3 rs3]. exact IH.
Qed.
Lemma calls_cons q d h o : fst (calls ((q, d) :: h) o) = fst (calls h (fst (call q d o))).
Proof. cbn [calls]. destruct (call q d o) as [o1 r]. cbn [fst]. destruct (calls h o1) as [o2 rs]. reflexivity. Qed.

Definition asksb (q : query) : bool := match q with Names | Count | Build _ | HasFile _ => true | _ => false end.
Lemma asksb_spec q : asksb q = true <-> asks q.
Proof. destruct q; cbn [asksb asks]; split; try discriminate; try contradiction; auto. Qed.
(** the state of an object: without names nothing is loaded *)
Definition sound (o : obj) : Prop := (o_names o = [] -> o_empty o = true) /\ (o_empty o = true -> o_pkgs o = []) /\ ssorted (keys (o_pkgs o)).
Lemma build_loop_names f d : forall ns o, o_names (fst (build_loop f d ns o)) = o_names o.
Proof.
  induction ns as [|n t IH]; intro o; [reflexivity|]. cbn [build_loop]. destruct (read_one f d n) as [r| |]; [|reflexivity|reflexivity]. rewrite IH. reflexivity.
Qed.
Lemma read_names_eq d o : o_names (read_names d o) = match o_names o with [] => names_of d | l => l end /\
  o_empty (read_names d o) = o_empty o /\ o_pkgs (read_names d o) = o_pkgs o /\ o_alias (read_names d o) = o_alias o.
Proof. unfold read_names. destruct (o_names o) as [|x l] eqn:E; cbn [o_names o_empty o_pkgs o_alias]; [auto|]. rewrite E. auto. Qed.
Lemma build_names f d o : (o_names o = [] -> o_empty o = true) -> o_names (fst (build f d o)) = match o_names o with [] => names_of d | l => l end.
Proof.
  intro H. unfold build. destruct (o_empty o) eqn:E.
  - cbv zeta. rewrite build_loop_names. apply read_names_eq.
  - cbn [fst]. destruct (o_names o) as [|x l]; [specialize (H eq_refl); discriminate H|reflexivity].
Qed.
Lemma build_loop_sound f d : forall ns o, ssorted (keys (o_pkgs o)) -> (o_empty o = true -> o_pkgs o = []) ->
  let o' := fst (build_loop f d ns o) in ssorted (keys (o_pkgs o')) /\ (o_empty o' = true -> o_pkgs o' = []) /\ (ns = [] -> o_empty o' = o_empty o).
Proof.
  induction ns as [|n t IH]; intros o Hs He; cbn [build_loop]; [cbn [fst]; auto|]. destruct (read_one f d n) as [r| |]; cbn [fst o_pkgs o_empty].
  - match goal with |- context[build_loop f d t ?x] => destruct (IH x) as (A & B & _) end; [cbn [o_pkgs]; apply mset_keys_sorted, Hs|cbn [o_empty]; discriminate|].
    split; [exact A|]. split; [exact B|]. discriminate.
  - split; [exact Hs|]. split; [exact He|]. discriminate.
  - split; [exact Hs|]. split; [exact He|]. discriminate.
Qed.
Lemma build_sound f d o : sound o -> sound (fst (build f d o)).
Proof.
  intros (H1 & H2 & H3). unfold build. destruct (o_empty o) eqn:E; [|cbn [fst]; split; [intro K; specialize (H1 K); discriminate H1|split; [intro K; rewrite E in K; discriminate K|exact H3]]]. cbv zeta.
  destruct (read_names_eq d o) as (N1 & N2 & N3 & N4).
  destruct (build_loop_sound f d (o_names (read_names d o)) (read_names d o)) as (A & B & C); [rewrite N3; exact H3|rewrite N3; intros _; apply H2; reflexivity|].
  split; [|split; [exact B|exact A]]. rewrite build_loop_names. intro K. rewrite (C K), N2. exact E.
Qed.
Lemma call_sound q d o : sound o -> sound (fst (call q d o)).
Proof.
  intro H. assert (R : sound (read_names d o)).
  { destruct H as (H1 & H2 & H3). destruct (read_names_eq d o) as (N1 & N2 & N3 & N4). split; [|split; [rewrite N2, N3; exact H2|rewrite N3; exact H3]]. rewrite N1, N2. destruct (o_names o); [intros _; apply H1; reflexivity|discriminate]. }
  destruct q as [| |c n|c n|c n|n|f|n|s|n]; cbn [call fst]; try exact H; try exact R.
  - pose proof (build_sound f d o H) as B. destruct (build f d o) as [o1 r]. exact B.
  - pose proof (build_sound true d o H) as B. destruct (build true d o) as [o1 r]. exact B.
  - destruct (mget n (o_alias o)); [exact H|]. exact H.
Qed.
Lemma call_names q d o : sound o -> o_names (fst (call q d o)) = match o_names o with [] => if asksb q then names_of d else [] | l => l end.
Proof.
  intros (H & _). assert (Same : forall b : bool, b = false -> o_names o = match o_names o with [] => if b then names_of d else [] | l => l end) by (intros b ->; destruct (o_names o); reflexivity).
  destruct q as [| |c n|c n|c n|n|f|n|s|n]; cbn [call asksb fst]; try exact (Same false eq_refl).
  - apply read_names_eq.
  - apply read_names_eq.
  - pose proof (build_names f d o H) as B. destruct (build f d o) as [o1 r]. exact B.
  - pose proof (build_names true d o H) as B. destruct (build true d o) as [o1 r]. exact B.
  - destruct (mget n (o_alias o)); exact (Same false eq_refl).
Qed.
Lemma calls_sound : forall h o, sound o -> sound (fst (calls h o)).
Proof. induction h as [|[q d] t IH]; intros o H; [exact H|]. rewrite calls_cons. apply IH, call_sound, H. Qed.
Lemma new_sound : sound new_obj.
Proof. split; [reflexivity|]. split; [reflexivity|constructor]. Qed.
Lemma calls_frozen : forall h o, sound o -> o_names o <> [] -> o_names (fst (calls h o)) = o_names o.
Proof.
  induction h as [|[q d] t IH]; intros o H Ne; [reflexivity|]. rewrite calls_cons. pose proof (call_names q d o H) as K. destruct (o_names o) as [|x l] eqn:E; [contradiction|].
  rewrite IH; [exact K|apply call_sound, H|rewrite K; discriminate].
Qed.
Lemma calls_blank : forall h o, sound o -> o_names o = [] -> (forall q d, In (q, d) h -> asks q -> nothing d) -> o_names (fst (calls h o)) = [].
Proof.
  induction h as [|[q d] t IH]; intros o H Ne Hn; [exact Ne|]. rewrite calls_cons. apply IH; [apply call_sound, H| |intros q1 d1 I; apply Hn; right; exact I].
  rewrite (call_names q d o H), Ne. destruct (asksb q) eqn:A; [|reflexivity]. apply names_of_nil, (Hn q); [left; reflexivity|apply asksb_spec, A].
Qed.
Lemma look_names h d0 : first_look h d0 -> o_names (after h) = names_of d0 /\ names_of d0 <> [].
Proof.
  intros (h1 & q & h2 & -> & A & Nn & Hn). assert (Ne : names_of d0 <> []) by (intro K; apply Nn, names_of_nil, K). split; [|exact Ne].
  unfold after. rewrite calls_app, calls_cons. set (o1 := fst (calls h1 new_obj)). assert (S1 : sound o1) by (apply calls_sound, new_sound).
  assert (B : o_names o1 = []) by (apply calls_blank; [exact new_sound|reflexivity|exact Hn]).
  pose proof (call_names q d0 o1 S1) as K. rewrite B, (proj2 (asksb_spec q) A) in K.
  rewrite calls_frozen; [exact K|apply call_sound, S1|rewrite K; exact Ne].
Qed.
Lemma no_look_names h : (forall q d, In (q, d) h -> asks q -> nothing d) -> o_names (after h) = [].
Proof. intro H. apply calls_blank; [exact new_sound|reflexivity|exact H]. Qed.

(** ** C108: what is read afresh *)
(** a single field: the least of the lines of its letter in the record as it is on the disk at that moment, whatever the object did before *)
Theorem C108_item h c n d : readable d n -> exists v, answer h (Item c n) d = Ok (AText v) /\ least d n c v.
Proof.
  intro H. destruct (meta_of_readable d n H) as [ls E]. destruct (meta_of_lines d n ls E) as [Hs Hi]. exists (tag_or_empty c ls). split; [unfold answer; cbn [call snd]; rewrite E; reflexivity|]. exact (tag_least d n c ls Hs Hi).
Qed.
(** the lists of sets and categories: all the lines of the letter; as a text, each after a blank *)
Theorem C108_items h c n d : readable d n -> exists l, ssorted l /\ (forall v, In v l <-> meta_has d n (c :: v)) /\
  answer h (Items c n) d = Ok (ASet l) /\ answer h (Joined c n) d = Ok (AText (concat (map (fun x => " "%char :: x) l))).
Proof.
  intro H. destruct (meta_of_readable d n H) as [ls E]. destruct (meta_of_lines d n ls E) as [Hs Hi]. destruct (set_all_tag d n c ls Hi) as [S1 S2].
  exists (set_of (all_tag c ls)). split; [exact S1|]. split; [exact S2|]. unfold answer. cbn [call snd]. rewrite E. cbn [rbind]. split; [reflexivity|]. rewrite flat_map_concat_map. reflexivity.
Qed.
(** the installed size *)
Theorem C108_space h n d : readable d n -> exists v, answer h (Space n) d = Ok (ANum (atoi_u32 v)) /\ least d n "S" v.
Proof.
  intro H. destruct (meta_of_readable d n H) as [ls E]. destruct (meta_of_lines d n ls E) as [Hs Hi]. exists (tag_or_empty "S" ls). split; [unfold answer; cbn [call snd]; rewrite E; reflexivity|]. exact (tag_least d n "S"%char ls Hs Hi).
Qed.
(** ** C108: the names, read once *)
Theorem C108_names h d0 d : first_look h d0 -> exists l, ssorted l /\ (forall n, In n l <-> installed d0 n) /\
  answer h Names d = Ok (ASet l) /\ answer h Count d = Ok (ANum (N.of_nat (length l) mod 2 ^ 32)).
Proof.
  intro H. destruct (look_names h d0 H) as [E Ne]. exists (names_of d0). split; [apply names_of_spec|]. split; [apply names_of_spec|].
  unfold answer. cbn [call snd]. destruct (read_names_eq d (after h)) as (N1 & _). rewrite N1, E. destruct (names_of d0) as [|x l]; [contradiction|]. split; reflexivity.
Qed.
(** until something was seen, the names are those of the moment *)
Theorem C108_names_now h d : (forall q d1, In (q, d1) h -> asks q -> nothing d1) -> exists l, ssorted l /\ (forall n, In n l <-> installed d n) /\
  answer h Names d = Ok (ASet l) /\ answer h Count d = Ok (ANum (N.of_nat (length l) mod 2 ^ 32)).
Proof.
  intro H. exists (names_of d). split; [apply names_of_spec|]. split; [apply names_of_spec|].
  unfold answer. cbn [call snd]. destruct (read_names_eq d (after h)) as (N1 & _). rewrite N1, (no_look_names h H). split; reflexivity.
Qed.
(** ** C108: the packages, loaded once *)
Inductive loading : query -> bool -> Prop := ld_build f : loading (Build f) f | ld_file s : loading (HasFile s) true.
(** [m] is an installed package of [d0], or the alias of one in its record at [d] *)
Definition goes_by (d0 d : disk) (m n : str) : Prop := installed d0 n /\ (m = n \/ meta_has d n ("A"%char :: m)).

Lemma read_one_spec f d n r : read_one f d n = Ok r -> (forall a, In a (r_alias r) <-> meta_has d n ("A"%char :: a)) /\
  (f = true -> forall x, In x (r_files r) <-> lists d n x) /\ (f = false -> r_files r = []).
Proof.
  unfold read_one. intro E. apply rbind_ok in E. destruct E as (ls & E1 & E). apply rbind_ok in E. destruct E as (r0 & E2 & E).
  destruct (meta_of_lines d n ls E1) as [Hs Hi].
  assert (Al : forall a, In a (r_alias r0) <-> meta_has d n ("A"%char :: a)).
  { intro a. rewrite (meta_fold _ _ n (step_alias n) _ _ _ E2), ins_field_fold. rewrite <- Hi. cbn [start_rec with_auto with_release empty_rec r_alias]. split; [intros [[]|I]; exact I|intro I; right; exact I]. }
  destruct f.
  - unfold list_of in E. destruct (mget n d) as [dir|] eqn:G; [|discriminate E]. destruct (mget (L "files") dir) as [c|] eqn:F; [|discriminate E]. injection E as <-. cbn [with_files r_alias r_files]. split; [exact Al|]. split; [|discriminate].
    intros _ x. rewrite read_files_In. unfold lists. split; [intros [I J]; exists dir, c; auto|]. intros (dir' & c' & H1 & H2 & H3 & H4). rewrite G in H1. injection H1 as <-. rewrite F in H2. injection H2 as <-. auto.
  - injection E as <-. split; [exact Al|]. split; [discriminate|]. intros _. rewrite (meta_fold _ _ n (step_files n) _ _ _ E2). clear. induction ls as [|s t IH]; [reflexivity|exact IH].
Qed.
Lemma build_loop_ok f d : forall ns o o', build_loop f d ns o = (o', Ok tt) ->
  (ns <> [] -> o_empty o' = false) /\
  (forall n, In n ns -> exists r, read_one f d n = Ok r /\ mget n (o_pkgs o') = Some r) /\
  (forall n, ~ In n ns -> mget n (o_pkgs o') = mget n (o_pkgs o)) /\
  (forall a, mget a (o_alias o) <> None -> mget a (o_alias o') <> None) /\
  (forall n r a, In n ns -> read_one f d n = Ok r -> a = n \/ In a (r_alias r) -> mget a (o_alias o') <> None) /\
  (forall a i, mget a (o_alias o') = Some i -> (In i ns /\ exists r, read_one f d i = Ok r /\ (a = i \/ In a (r_alias r))) \/
     (mget a (o_alias o) = Some i /\ forall n r, In n ns -> read_one f d n = Ok r -> a <> n /\ ~ In a (r_alias r))).
Proof.
  induction ns as [|n t IH]; intros o o' E; cbn [build_loop] in E.
  - injection E as <-. split; [contradiction|]. split; [intros n []|]. split; [auto|]. split; [auto|]. split; [intros n r a []|]. intros a i H. right. split; [exact H|intros n r []].
  - destruct (read_one f d n) as [r| |] eqn:R; [|discriminate E|discriminate E]. set (o1 := Obj _ _ _ _) in E.
    assert (Al : forall a, mget a (o_alias o1) = if smem a (r_alias r) || seqb a n then Some n else mget a (o_alias o)) by (intro a; exact (mget_add_alias (o_alias o) n r a)).
    destruct (IH o1 o' E) as (A1 & A2 & A3 & A4 & A5 & A6). split; [|split; [|split; [|split; [|split]]]].
    + intros _. destruct t as [|x t]; [|apply A1; discriminate]. cbn [build_loop] in E. injection E as <-. reflexivity.
    + intros k I. destruct (in_dec str_eq_dec k t) as [J|J]; [exact (A2 k J)|]. destruct I as [<-|I]; [|contradiction]. exists r. split; [exact R|]. rewrite (A3 n J). unfold o1. cbn [o_pkgs]. rewrite mget_mset, seqb_refl. reflexivity.
    + intros k I. rewrite A3 by (intro J; apply I; right; exact J). unfold o1. cbn [o_pkgs]. rewrite mget_mset. destruct (seqb k n) eqn:K; [|reflexivity]. apply seqb_eq in K. exfalso. apply I. left. symmetry. exact K.
    + intros a Ha. apply A4. rewrite Al. destruct (smem a (r_alias r) || seqb a n); [discriminate|exact Ha].
    + intros k rk a I Rk Ha. destruct I as [<-|I]; [|exact (A5 k rk a I Rk Ha)]. apply A4. rewrite Al. rewrite R in Rk. injection Rk as <-. destruct Ha as [-> |Ha]; [rewrite seqb_refl, orb_true_r; discriminate|]. apply smem_In in Ha. rewrite Ha. discriminate.
    + intros a i H. destruct (A6 a i H) as [(I & rr & H1 & H2)|(H1 & H2)]; [left; split; [right; exact I|eauto]|]. rewrite Al in H1. destruct (smem a (r_alias r) || seqb a n) eqn:K; [|right; split; [exact H1|]; intros k rk [<-|I] Rk; [|exact (H2 k rk I Rk)]; rewrite R in Rk; injection Rk as <-; apply orb_false_iff in K; destruct K as [K1 K2]; split; [apply seqb_neq, K2|apply smem_nIn, K1]]. injection H1 as <-. left. split; [left; reflexivity|]. exists r. split; [exact R|].
      apply orb_true_iff in K. destruct K as [K|K]; [right; apply smem_In, K|left; apply seqb_eq, K].
Qed.
(** before anything is loaded *)
Definition blank (h : list (query * disk)) (o : obj) : Prop := o_empty o = true /\ (forall a i, mget a (o_alias o) = Some i -> i = []) /\
  forall a, mget a (o_alias o) <> None <-> exists d, In (Files a, d) h.
Lemma noload_blank : forall h, (forall q d, In (q, d) h -> ~ loads q) -> blank h (after h).
Proof.
  intro h. induction h as [|[q d] h IH] using rev_ind; intro H.
  - split; [reflexivity|]. split; [discriminate|]. intro a. split; [intro K; exfalso; apply K; reflexivity|intros [d []]].
  - destruct IH as (B1 & B2 & B3); [intros q1 d1 I; apply (H q1 d1), in_app_iff; left; exact I|]. unfold after. rewrite calls_app. cbn [calls]. fold (after h).
    assert (Q : ~ loads q) by (apply (H q d), in_app_iff; right; left; reflexivity).
    assert (Same : (forall a, q <> Files a) -> blank (h ++ [(q, d)]) (after h)).
    { intro Nf. split; [exact B1|]. split; [exact B2|]. intro a. rewrite B3. split; intros [d1 I]; exists d1; [apply in_app_iff; left; exact I|]. apply in_app_iff in I. destruct I as [I|[I|[]]]; [exact I|]. injection I as E _. exfalso. exact (Nf a E). }
    destruct q as [| |c n|c n|c n|n|f|n|s|n]; cbn [call loads] in *; try (destruct Q; exact Logic.I); try (cbn [fst]; apply Same; discriminate).
    + cbn [fst]. destruct (read_names_eq d (after h)) as (_ & N2 & _ & N4). destruct Same as (C1 & C2 & C3); [discriminate|]. unfold blank. rewrite N2, N4. auto.
    + cbn [fst]. destruct (read_names_eq d (after h)) as (_ & N2 & _ & N4). destruct Same as (C1 & C2 & C3); [discriminate|]. unfold blank. rewrite N2, N4. auto.
    + clear Same. destruct (mget n (o_alias (after h))) as [k|] eqn:G; cbn [fst].
      * split; [exact B1|]. split; [exact B2|]. intro a. rewrite B3. split; intros [d1 I]; [exists d1; apply in_app_iff; left; exact I|]. apply in_app_iff in I. destruct I as [I|[I|[]]]; [exists d1; exact I|]. injection I as -> _. apply B3. congruence.
      * split; [exact B1|]. cbn [o_alias]. split.
        -- intros a i Ha. rewrite mget_mset in Ha. destruct (seqb a n); [injection Ha as <-; reflexivity|exact (B2 a i Ha)].
        -- intro a. rewrite mget_mset. destruct (seqb a n) eqn:K; [apply seqb_eq in K; subst a; split; [intros _; exists d; apply in_app_iff; right; left; reflexivity|discriminate]|]. rewrite B3. split; intros [d1 I]; exists d1; [apply in_app_iff; left; exact I|].
           apply in_app_iff in I. destruct I as [I|[I|[]]]; [exact I|]. injection I as -> _. rewrite seqb_refl in K. discriminate K.
Qed.
(** after a load *)
Definition same_loaded (h : list (query * disk)) (o o' : obj) : Prop := o_empty o' = false /\ o_pkgs o' = o_pkgs o /\
  (forall a i, mget a (o_alias o) = Some i -> mget a (o_alias o') = Some i) /\
  (forall a i, mget a (o_alias o') = Some i -> mget a (o_alias o) = Some i \/ i = []) /\
  forall a, mget a (o_alias o') <> None <-> mget a (o_alias o) <> None \/ exists d, In (Files a, d) h.
Lemma loaded_stays : forall h o, o_empty o = false -> same_loaded h o (fst (calls h o)).
Proof.
  intro h. induction h as [|[q d] h IH] using rev_ind; intros o H.
  - cbn [calls fst]. split; [exact H|]. split; [reflexivity|]. split; [auto|]. split; [auto|]. intro a. split; [auto|]. intros [K|[d []]]; exact K.
  - destruct (IH o H) as (B1 & B2 & B3 & B4 & B5). rewrite calls_app. set (o1 := fst (calls h o)) in *.
    assert (Same : forall x, (forall a, q <> Files a) -> o_empty x = o_empty o1 -> o_pkgs x = o_pkgs o1 -> o_alias x = o_alias o1 -> same_loaded (h ++ [(q, d)]) o x).
    { intros x Nf X1 X2 X3. unfold same_loaded. rewrite X1, X2, X3. split; [exact B1|]. split; [exact B2|]. split; [exact B3|]. split; [exact B4|]. intro a. rewrite B5. split; (intros [K|[d1 I]]; [left; exact K|right; exists d1]); [apply in_app_iff; left; exact I|]. apply in_app_iff in I. destruct I as [I|[I|[]]]; [exact I|]. injection I as E _. exfalso. exact (Nf a E). }
    assert (Bl : forall f, build f d o1 = (o1, Ok tt)) by (intro f; unfold build; rewrite B1; reflexivity).
    destruct q as [| |c n|c n|c n|n|f|n|s|n]; cbn [calls call]; try (cbn [fst]; apply Same; [discriminate|reflexivity|reflexivity|reflexivity]).
    + cbn [fst]. destruct (read_names_eq d o1) as (_ & N2 & N3 & N4). apply Same; [discriminate|exact N2|exact N3|exact N4].
    + cbn [fst]. destruct (read_names_eq d o1) as (_ & N2 & N3 & N4). apply Same; [discriminate|exact N2|exact N3|exact N4].
    + rewrite Bl. cbn [fst]. apply Same; [discriminate|reflexivity|reflexivity|reflexivity].
    + rewrite Bl. cbn [fst]. apply Same; [discriminate|reflexivity|reflexivity|reflexivity].
    + clear Same. destruct (mget n (o_alias o1)) as [k|] eqn:G; cbn [fst].
      * split; [exact B1|]. split; [exact B2|]. split; [exact B3|]. split; [exact B4|]. intro a. rewrite B5. split; (intros [K|[d1 I]]; [left; exact K|]); [right; exists d1; apply in_app_iff; left; exact I|]. apply in_app_iff in I. destruct I as [I|[I|[]]]; [right; exists d1; exact I|]. injection I as -> _. apply B5. congruence.
      * unfold same_loaded. cbn [o_empty o_pkgs o_alias]. split; [exact B1|]. split; [exact B2|]. split; [|split].
        -- intros a i Ha. apply B3 in Ha. rewrite mget_mset. destruct (seqb a n) eqn:K; [apply seqb_eq in K; subst a; congruence|exact Ha].
        -- intros a i Ha. rewrite mget_mset in Ha. destruct (seqb a n); [injection Ha as <-; right; reflexivity|exact (B4 a i Ha)].
        -- intro a. rewrite mget_mset. destruct (seqb a n) eqn:K; [apply seqb_eq in K; subst a; split; [intros _; right; exists d; apply in_app_iff; right; left; reflexivity|discriminate]|].
           rewrite B5. split; (intros [X|[d1 I]]; [left; exact X|right; exists d1]); [apply in_app_iff; left; exact I|]. apply in_app_iff in I. destruct I as [I|[I|[]]]; [exact I|]. injection I as -> _. rewrite seqb_refl in K. discriminate K.
Qed.
(** the loading call *)
Lemma load_call h q f d a d0 : (forall q1 d1, In (q1, d1) h -> ~ loads q1) -> loading q f -> answer h q d = Ok a -> first_look (h ++ [(q, d)]) d0 ->
  let o := after (h ++ [(q, d)]) in
  o_empty o = false /\ ssorted (keys (o_pkgs o)) /\ (forall n r, mget n (o_pkgs o) = Some r <-> installed d0 n /\ read_one f d n = Ok r) /\
  (forall n, installed d0 n -> exists r, read_one f d n = Ok r) /\
  (forall m, mget m (o_alias o) <> None <-> (exists n, goes_by d0 d m n) \/ exists d1, In (Files m, d1) h) /\
  (forall m i, mget m (o_alias o) = Some i -> goes_by d0 d m i \/ (i = [] /\ forall n, ~ goes_by d0 d m n)) /\
  (forall s, q = HasFile s -> a = ABool (has_file o s)).
Proof.
  intros Hn Hl Ha Fl o. destruct (noload_blank h Hn) as (B1 & B2 & B3). destruct (look_names _ _ Fl) as [Nm Ne]. fold o in Nm.
  assert (So : sound (after h)) by (apply calls_sound, new_sound).
  assert (Bo : build f d (after h) = (o, Ok tt) /\ forall s, q = HasFile s -> a = ABool (has_file o s)).
  { unfold answer in Ha. unfold o, after. rewrite calls_app. fold (after h). destruct Hl as [f|s]; cbn [calls call] in *.
    - destruct (build f d (after h)) as [o1 r] eqn:B. cbn [fst snd] in *. destruct r as [[]| |]; [|discriminate Ha|discriminate Ha]. split; [reflexivity|]. intros s K. discriminate K.
    - destruct (build true d (after h)) as [o1 r] eqn:B. cbn [fst snd] in *. destruct r as [[]| |]; [|discriminate Ha|discriminate Ha]. cbn [rbind] in Ha. injection Ha as <-. split; [reflexivity|]. intros s1 K. injection K as <-. reflexivity. }
  destruct Bo as [Bo Has]. unfold build in Bo. rewrite B1 in Bo. cbv zeta in Bo. destruct (read_names_eq d (after h)) as (N1 & N2 & N3 & N4).
  assert (Ns : o_names (read_names d (after h)) = names_of d0) by (rewrite <- Nm; symmetry; rewrite <- (build_loop_names f d (o_names (read_names d (after h))) (read_names d (after h))), Bo; reflexivity).
  destruct So as (S1 & S2 & S3). pose proof (build_loop_sound f d (o_names (read_names d (after h))) (read_names d (after h))) as Bs.
  rewrite Bo in Bs. cbn [fst] in Bs. destruct Bs as (Sk & _ & _); [rewrite N3; exact S3|rewrite N3; intros _; exact (S2 B1)|].
  destruct (build_loop_ok f d _ _ _ Bo) as (A1 & A2 & A3 & A4 & A5 & A6). rewrite Ns in *. rewrite N3, (S2 B1) in A3. rewrite N4 in A4, A6.
  assert (In0 : forall n, In n (names_of d0) <-> installed d0 n) by apply names_of_spec.
  split; [apply A1, Ne|]. split; [exact Sk|]. split; [|split; [|split; [|split; [|exact Has]]]].
  - intros n r. rewrite <- In0. destruct (in_dec str_eq_dec n (names_of d0)) as [I|I].
    + destruct (A2 n I) as (r1 & R1 & M1). rewrite M1, R1. split; [intro K; injection K as ->; auto|intros [_ K]; injection K as ->; reflexivity].
    + rewrite (A3 n I). split; [discriminate|intros [K _]; contradiction].
  - intros n I. apply In0 in I. destruct (A2 n I) as (r & R & _). exists r. exact R.
  - intro m. unfold goes_by. split.
    + intro K. destruct (mget m (o_alias o)) as [i|] eqn:G; [|contradiction]. destruct (A6 m i G) as [(I & r & R & X)|(X & _)].
      * left. exists i. split; [apply In0, I|]. destruct X as [-> |X]; [left; reflexivity|right; apply (read_one_spec f d i r R), X].
      * right. apply B3. congruence.
    + intros [(n & I & X)|X]; [|apply A4, B3, X]. apply In0 in I. destruct (A2 n I) as (r & R & _). apply (A5 n r m I R). destruct X as [-> |X]; [left; reflexivity|right; apply (read_one_spec f d n r R), X].
  - intros m i G. destruct (A6 m i G) as [(I & r & R & X)|(X & Y)].
    + left. split; [apply In0, I|]. destruct X as [-> |X]; [left; reflexivity|right; apply (read_one_spec f d i r R), X].
    + right. split; [exact (B2 m i X)|]. intros n (I & Z). apply In0 in I. destruct (A2 n I) as (r & R & _). destruct (Y n r I R) as [Y1 Y2]. destruct Z as [Z|Z]; [exact (Y1 Z)|]. apply Y2, (read_one_spec f d n r R), Z.
Qed.
Lemma has_file_spec o s : ssorted (keys (o_pkgs o)) -> (has_file o s = true <-> exists n r x, mget n (o_pkgs o) = Some r /\ In x (r_files r) /\ occurs s x).
Proof.
  intro Hs. unfold has_file. rewrite existsb_exists. split.
  - intros ([n r] & I & E). cbn [snd] in E. apply existsb_exists in E. destruct E as (x & Ix & Ex). exists n, r, x. split; [apply In_mget; [apply ssorted_NoDup, Hs|exact I]|]. split; [exact Ix|].
    unfold occursb in Ex. destruct (sfind s x) as [k|] eqn:F; [|discriminate Ex]. destruct (sfind_Some s x k F) as [E _]. eexists _, _. exact E.
  - intros (n & r & x & G & Ix & O). exists (n, r). split; [apply mget_In, G|]. cbn [snd]. apply existsb_exists. exists x. split; [exact Ix|]. unfold occursb. destruct (sfind s x) as [k|] eqn:F; [reflexivity|]. apply sfind_None in F. contradiction.
Qed.
Lemma after_app h1 h2 : after (h1 ++ h2) = fst (calls h2 (after h1)).
Proof. unfold after. apply calls_app. Qed.

(** a file is found when a package that was installed at the first look has, at the moment of the load, a line in its list that contains the text;
    what happens to the database afterwards does not matter *)
Theorem C108_files h q d a d0 h2 s d2 : (forall q1 d1, In (q1, d1) h -> ~ loads q1) -> loading q true -> answer h q d = Ok a -> first_look (h ++ [(q, d)]) d0 ->
  exists b, answer (h ++ (q, d) :: h2) (HasFile s) d2 = Ok (ABool b) /\ (q = HasFile s -> a = ABool b) /\
    (b = true <-> exists n x, installed d0 n /\ lists d n x /\ occurs s x).
Proof.
  intros Hn Hl Ha Fl. destruct (load_call h q true d a d0 Hn Hl Ha Fl) as (E & Sk & Pk & Rd & _ & _ & Hs). set (o := after (h ++ [(q, d)])) in *.
  destruct (loaded_stays h2 o E) as (E2 & P2 & _). exists (has_file o s). split; [|split; [intro K; exact (Hs s K)|]].
  - unfold answer. change ((q, d) :: h2) with ([(q, d)] ++ h2). rewrite app_assoc, after_app. fold o. cbn [call]. unfold build. rewrite E2. cbn [snd rbind]. unfold has_file. rewrite P2. reflexivity.
  - rewrite (has_file_spec o s Sk). split.
    + intros (n & r & x & G & Ix & O). apply Pk in G. destruct G as [I R]. exists n, x. split; [exact I|]. split; [|exact O]. apply (proj1 (proj2 (read_one_spec true d n r R)) eq_refl x), Ix.
    + intros (n & x & I & Lx & O). destruct (Rd n I) as [r R]. exists n, r, x. split; [apply Pk; auto|]. split; [|exact O]. apply (proj1 (proj2 (read_one_spec true d n r R)) eq_refl x), Lx.
Qed.
(** loaded without the lists, the object never finds a file any more, not even after it is told to load them *)
Theorem C108_without_files h d a d0 h2 s d2 : (forall q1 d1, In (q1, d1) h -> ~ loads q1) -> answer h (Build false) d = Ok a -> first_look (h ++ [(Build false, d)]) d0 ->
  answer (h ++ (Build false, d) :: h2) (HasFile s) d2 = Ok (ABool false).
Proof.
  intros Hn Ha Fl. destruct (load_call h _ false d a d0 Hn (ld_build false) Ha Fl) as (E & Sk & Pk & _). set (o := after (h ++ [(Build false, d)])) in *.
  destruct (loaded_stays h2 o E) as (E2 & P2 & _). unfold answer. change ((Build false, d) :: h2) with ([(Build false, d)] ++ h2). rewrite app_assoc, after_app. fold o. cbn [call]. unfold build. rewrite E2. cbn [snd rbind].
  f_equal. f_equal. apply not_true_iff_false. intro K. unfold has_file in K. rewrite P2 in K. fold (has_file o s) in K. apply (has_file_spec o s Sk) in K. destruct K as (n & r & x & G & Ix & O). apply Pk in G. destruct G as [I R].
  rewrite (proj2 (proj2 (read_one_spec false d n r R)) eq_refl) in Ix. destruct Ix.
Qed.
(** after a load a name is known when a package of the first look has it, or had it as an alias at the moment of the load, or it was once asked for its files *)
Theorem C108_known h q f d a d0 h2 m d2 : (forall q1 d1, In (q1, d1) h -> ~ loads q1) -> loading q f -> answer h q d = Ok a -> first_look (h ++ [(q, d)]) d0 ->
  exists b, answer (h ++ (q, d) :: h2) (Known m) d2 = Ok (ABool b) /\
    (b = true <-> (exists n, goes_by d0 d m n) \/ exists d1, In (Files m, d1) (h ++ h2)).
Proof.
  intros Hn Hl Ha Fl. destruct (load_call h q f d a d0 Hn Hl Ha Fl) as (E & _ & _ & _ & Al & _). set (o := after (h ++ [(q, d)])) in *.
  destruct (loaded_stays h2 o E) as (_ & _ & _ & _ & A2). unfold answer. change ((q, d) :: h2) with ([(q, d)] ++ h2). rewrite app_assoc, after_app. fold o. cbn [call snd]. eexists. split; [reflexivity|].
  specialize (A2 m). destruct (mget m (o_alias (fst (calls h2 o)))) as [i|].
  - split; [intros _|reflexivity]. destruct (proj1 A2) as [K|[d1 I]]; [discriminate| |right; exists d1; apply in_app_iff; right; exact I]. apply Al in K. destruct K as [K|[d1 I]]; [left; exact K|right; exists d1; apply in_app_iff; left; exact I].
  - split; [discriminate|]. intro K. exfalso. apply (proj2 A2); [|reflexivity]. destruct K as [K|[d1 I]]; [left; apply Al; left; exact K|]. apply in_app_iff in I. destruct I as [I|I]; [left; apply Al; right; exists d1; exact I|right; exists d1; exact I].
Qed.
(** before any load no name is known but those asked for their files *)
Theorem C108_unloaded h m d2 : (forall q1 d1, In (q1, d1) h -> ~ loads q1) ->
  exists b, answer h (Known m) d2 = Ok (ABool b) /\ (b = true <-> exists d1, In (Files m, d1) h).
Proof.
  intro Hn. destruct (noload_blank h Hn) as (_ & _ & B). unfold answer. cbn [call snd]. eexists. split; [reflexivity|]. rewrite <- B. destruct (mget m (o_alias (after h))); split; intro K; try reflexivity; try discriminate. contradiction.
Qed.
(** the list of a package: of the package the name stood for at the load, as it is on the disk now *)
Theorem C108_list h q f d a d0 h2 m d2 x : (forall q1 d1, In (q1, d1) h -> ~ loads q1) -> loading q f -> answer h q d = Ok a -> first_look (h ++ [(q, d)]) d0 -> mget [] d2 = None ->
  answer (h ++ (q, d) :: h2) (Files m) d2 = Ok x ->
  exists n l, goes_by d0 d m n /\ x = ASet l /\ ssorted l /\ forall y, In y l <-> lists d2 n y.
Proof.
  intros Hn Hl Ha Fl Ne. destruct (load_call h q f d a d0 Hn Hl Ha Fl) as (E & _ & _ & _ & _ & Av & _). set (o := after (h ++ [(q, d)])) in *.
  destruct (loaded_stays h2 o E) as (_ & _ & _ & A4 & _). unfold answer. change ((q, d) :: h2) with ([(q, d)] ++ h2). rewrite app_assoc, after_app. fold o. cbn [call].
  destruct (mget m (o_alias (fst (calls h2 o)))) as [i|] eqn:G; [|discriminate]. cbn [snd]. unfold list_of. destruct (mget i d2) as [dir|] eqn:Gi; [|discriminate]. destruct (mget (L "files") dir) as [c|] eqn:F; [|discriminate]. intro K. injection K as <-.
  assert (Ni : i <> []) by (intro; subst i; congruence). exists i, (read_files c). split; [|split; [reflexivity|split; [apply set_of_sorted|]]].
  - destruct (A4 m i G) as [K|K]; [|contradiction]. destruct (Av m i K) as [X|[X _]]; [exact X|contradiction].
  - intro y. rewrite read_files_In. unfold lists. split; [intros [I J]; exists dir, c; auto|]. intros (dir' & c' & H1 & H2 & H3 & H4). rewrite Gi in H1. injection H1 as <-. rewrite F in H2. injection H2 as <-. auto.
Qed.
(** a package seen at the first look is found under its own name as long as no other package claims that name *)
Theorem C108_list_found h q f d a d0 h2 n (d2 : disk) c (dir : dbdir) : (forall q1 d1, In (q1, d1) h -> ~ loads q1) -> loading q f -> answer h q d = Ok a -> first_look (h ++ [(q, d)]) d0 ->
  installed d0 n -> (forall k, goes_by d0 d n k -> k = n) ->
  mget n d2 = Some dir -> mget (L "files") dir = Some c ->
  exists l, answer (h ++ (q, d) :: h2) (Files n) d2 = Ok (ASet l) /\ ssorted l /\ forall y, In y l <-> lists d2 n y.
Proof.
  intros Hn Hl Ha Fl In0 U G F. destruct (load_call h q f d a d0 Hn Hl Ha Fl) as (E & _ & _ & _ & Al & Av & _). set (o := after (h ++ [(q, d)])) in *.
  destruct (loaded_stays h2 o E) as (_ & _ & A3 & _ & _). assert (K : mget n (o_alias o) <> None) by (apply Al; left; exists n; split; [exact In0|left; reflexivity]).
  destruct (mget n (o_alias o)) as [i|] eqn:Gi; [|contradiction]. assert (Hi : i = n).
  { destruct (Av n i Gi) as [X|[_ X]]; [exact (U i X)|]. destruct (X n). split; [exact In0|left; reflexivity]. }
  subst i. exists (read_files c). split; [|split; [apply set_of_sorted|]].
  - unfold answer. change ((q, d) :: h2) with ([(q, d)] ++ h2). rewrite app_assoc, after_app. fold o. cbn [call]. rewrite (A3 n n Gi). cbn [snd]. unfold list_of. rewrite G, F. reflexivity.
  - intro y. rewrite read_files_In. unfold lists. split; [intros [I J]; exists dir, c; auto|]. intros (dir' & c' & H1 & H2 & H3 & H4). rewrite G in H1. injection H1 as <-. rewrite F in H2. injection H2 as <-. auto.
Qed.
(** ** C108: the same answers as the loaded records *)
(** as long as a field has one line, the query and the record loaded at that moment agree *)
Theorem C108_agree junk h d m n r : load junk d = Ok m -> mget n (m_pkgs m) = Some r ->
  forall c proj, In (c, proj) [("V"%char, r_version); ("D"%char, r_descr); ("c"%char, r_coll); ("a"%char, r_arch); ("L"%char, r_license)] ->
  (forall v w, meta_has d n (c :: v) -> meta_has d n (c :: w) -> v = w) ->
  answer h (Item c n) d = Ok (AText (proj r)).
Proof.
  intros Lo G c proj Hc U. apply load_spec in Lo. destruct Lo as (_ & P & _). apply P in G. destruct G as (_ & dir & Gd & Lp).
  apply load_pkg_ok in Lp. destruct Lp as (ls & cf & r0 & M & F & Em & ->).
  assert (Ml : meta_of d n = Ok ls). { unfold meta_of. rewrite Gd. destruct (mget (L "META") dir) as [t|]; [rewrite M; reflexivity|subst ls; reflexivity]. }
  destruct (meta_of_lines d n ls Ml) as [Hs Hi]. pose proof (tag_least d n c ls Hs Hi) as Le.
  assert (Fi : MetaSpec.field c ls (fun v => v) [] (proj (with_files (read_files cf) r0))).
  { destruct Hc as [Hc|[Hc|[Hc|[Hc|[Hc|[]]]]]]; injection Hc as <- <-; cbn [with_files r_version r_descr r_coll r_arch r_license].
    - rewrite (meta_fold _ _ n (step_version n) _ _ _ Em). apply set_field_fold, Hs.
    - rewrite (meta_fold _ _ n (step_descr n) _ _ _ Em). apply set_field_fold, Hs.
    - rewrite (meta_fold _ _ n (step_coll n) _ _ _ Em). apply set_field_fold, Hs.
    - rewrite (meta_fold _ _ n (step_arch n) _ _ _ Em). apply set_field_fold, Hs.
    - rewrite (meta_fold _ _ n (step_license n) _ _ _ Em). apply set_field_fold, Hs. }
  unfold answer. cbn [call snd]. rewrite Ml. cbn [rbind]. f_equal. f_equal.
  remember (proj (with_files (read_files cf) r0)) as y eqn:Ey. clear Ey. destruct Le as [[L1 _]|[-> L1]]; destruct Fi as [v I _|N].
  - apply U; [exact L1|apply Hi, I].
  - exfalso. apply (N (tag_or_empty c ls)), Hi, L1.
  - exfalso. apply (L1 v), Hi, I.
  - reflexivity.
Qed.
(** a new object loads exactly when the load of the other models (C01 and the following) succeeds *)
Lemma read_one_load d n dir : mget n d = Some dir -> read_one true d n = load_pkg n dir.
Proof. intro G. unfold read_one, load_pkg, meta_of, list_of. rewrite G. reflexivity. Qed.
Lemma build_load d : forall ns o m, (forall n, In n ns -> mget n d <> None) -> o_pkgs o = m_pkgs m -> o_alias o = m_alias m ->
  match load_loop ns d m with
  | Ok m' => snd (build_loop true d ns o) = Ok tt /\ o_pkgs (fst (build_loop true d ns o)) = m_pkgs m' /\ o_alias (fst (build_loop true d ns o)) = m_alias m'
  | Throw => snd (build_loop true d ns o) = Throw
  | UB => snd (build_loop true d ns o) = UB
  end.
Proof.
  induction ns as [|n t IH]; intros o m K Ep Ea; cbn [load_loop build_loop]; [auto|]. destruct (mget n d) as [dir|] eqn:G; [|exfalso; apply (K n); [left; reflexivity|exact G]].
  rewrite (read_one_load d n dir G). destruct (load_pkg n dir) as [r| |]; cbn [rbind]; [|reflexivity|reflexivity]. apply IH; [intros k I; apply K; right; exact I| |]; cbn [o_pkgs o_alias m_pkgs m_alias]; congruence.
Qed.
Theorem C108_load junk d : match load junk d with
  | Ok m => answer [] (Build true) d = Ok ADone /\ o_pkgs (after [(Build true, d)]) = m_pkgs m /\ o_alias (after [(Build true, d)]) = m_alias m
  | Throw => answer [] (Build true) d = Throw
  | UB => answer [] (Build true) d = UB
  end.
Proof.
  unfold load. fold (names_of d). assert (K : forall n, In n (names_of d) -> mget n d <> None) by (intros n I; apply load_names in I; tauto).
  pose proof (build_load d (names_of d) (Obj (names_of d) true [] []) (Mem [] [] junk) K eq_refl eq_refl) as B.
  unfold answer, after. cbn [calls call fst new_obj]. unfold build. cbn [o_empty new_obj]. cbv zeta. unfold read_names. cbn [o_names o_empty o_pkgs o_alias new_obj].
  destruct (load_loop (names_of d) d (Mem [] [] junk)) as [m| |]; destruct (build_loop true d (names_of d) (Obj (names_of d) true [] [])) as [o1 x]; cbn [fst snd] in *.
  - destruct B as (-> & B2 & B3). cbn [rbind]. auto.
  - rewrite B. reflexivity.
  - rewrite B. reflexivity.
Qed.
(** ** C108: a load that fails half way *)
(** a package whose record and list can be read *)
Definition sane (d : disk) (n : str) : Prop := readable d n /\ list_of d n <> None /\ forall v, meta_has d n ("R"%char :: v) -> 9 <= length v.
Lemma sane_read d n : sane d n -> exists r, read_one true d n = Ok r.
Proof.
  intros (R & Ls & Rv). destruct (meta_of_readable d n R) as [ls E]. destruct (meta_of_lines d n ls E) as [_ Hi]. unfold read_one. rewrite E. cbn [rbind].
  destruct (meta_lines_ok n start_rec ls) as [r Er]; [|rewrite Er; cbn [rbind]; destruct (list_of d n); [eexists; reflexivity|contradiction]].
  intros s I T. apply has_tag_spec in T. destruct T as [v ->]. apply Hi in I. apply Rv in I. cbn [List.length]. lia.
Qed.
(** pkgdbh.cxx:483-644: a package whose record is there but cannot be taken in: no list of files, or a dependency line too short to hold a date *)
Definition broken (d : disk) (n : str) : Prop := list_of d n = None \/ exists v, meta_has d n ("R"%char :: v) /\ length v < 9.
Lemma broken_throw d n : readable d n -> broken d n -> read_one true d n = Throw.
Proof.
  intros R B. destruct (meta_of_readable d n R) as [ls E]. destruct (meta_of_lines d n ls E) as [_ Hi]. unfold read_one. rewrite E. cbn [rbind]. destruct B as [Ls|(v & Hv & Lv)].
  - rewrite Ls. generalize start_rec. clear. induction ls as [|s t IH]; intro r; cbn [meta_lines rbind]; [reflexivity|].
    destruct (meta_line_cases n r s) as [[r' ->]|[-> _]]; cbn [rbind]; [apply IH|reflexivity].
  - rewrite (meta_lines_short n start_rec ls); [reflexivity|]. exists ("R"%char :: v). split; [apply Hi, Hv|]. split; [reflexivity|]. cbn [List.length]. lia.
Qed.
Lemma mget_half n a : forall ls m, mget a (fold_left (fun (m : list (str * str)) s => if has_tag "A" s then mset (skipn 1 s) n m else m) ls m) = if smem ("A"%char :: a) ls then Some n else mget a m.
Proof.
  induction ls as [|s t IH]; intro m; [reflexivity|]. cbn [fold_left]. rewrite IH. change (smem ("A"%char :: a) (s :: t)) with (seqb ("A"%char :: a) s || smem ("A"%char :: a) t)%bool.
  destruct (smem ("A"%char :: a) t); [rewrite orb_true_r; reflexivity|]. rewrite orb_false_r. destruct (has_tag "A" s) eqn:T.
  - apply has_tag_spec in T. destruct T as [v ->]. cbn [skipn]. rewrite mget_mset. destruct (seqb a v) eqn:K.
    + apply seqb_eq in K. subst v. rewrite seqb_refl. reflexivity.
    + apply seqb_neq in K. assert (K2 : seqb ("A"%char :: a) ("A"%char :: v) = false) by (apply seqb_neq; intro X; injection X as X; exact (K X)). rewrite K2. reflexivity.
  - destruct (seqb ("A"%char :: a) s) eqn:K; [|reflexivity]. apply seqb_eq in K. subst s. discriminate T.
Qed.
Lemma half_alias_spec al d n ls a : (forall s, In s ls <-> meta_has d n s) ->
  (mget a (half_alias al n ls) = Some n /\ (a = n \/ meta_has d n ("A"%char :: a))) \/ (mget a (half_alias al n ls) = mget a al /\ a <> n /\ ~ meta_has d n ("A"%char :: a)).
Proof.
  intro Hi. unfold half_alias. rewrite mget_half. destruct (smem ("A"%char :: a) ls) eqn:K.
  - left. split; [reflexivity|]. right. apply Hi, smem_In, K.
  - rewrite mget_mset. apply smem_nIn in K. destruct (seqb a n) eqn:Q.
    + apply seqb_eq in Q. left. split; [reflexivity|]. left. exact Q.
    + apply seqb_neq in Q. right. split; [reflexivity|]. split; [exact Q|]. intro X. apply K, Hi, X.
Qed.
Lemma build_loop_app f d : forall p ns o o1, build_loop f d p o = (o1, Ok tt) -> build_loop f d (p ++ ns) o = build_loop f d ns o1.
Proof.
  induction p as [|n t IH]; intros ns o o1 E; cbn [app build_loop] in *; [injection E as <-; reflexivity|]. destruct (read_one f d n) as [r| |]; [|discriminate E|discriminate E]. apply IH, E.
Qed.
Lemma build_loop_all d : forall p o, (forall k, In k p -> sane d k) -> exists o1, build_loop true d p o = (o1, Ok tt).
Proof.
  induction p as [|n t IH]; intros o H; cbn [build_loop]; [eexists; reflexivity|]. destruct (sane_read d n (H n (or_introl eq_refl))) as [r ->]. apply IH. intros k I. apply H. right. exact I.
Qed.
(** the loop stops at [n] after the packages [p] *)
Lemma half_call h d d0 p n t : (forall q1 d1, In (q1, d1) h -> ~ loads q1) -> first_look (h ++ [(Build true, d)]) d0 ->
  ssorted (p ++ n :: t) -> (forall k, In k (p ++ n :: t) <-> installed d0 k) -> p <> [] -> (forall k, In k p -> sane d k) -> readable d n -> broken d n ->
  let o := after (h ++ [(Build true, d)]) in
  answer h (Build true) d = Throw /\ o_empty o = false /\ ssorted (keys (o_pkgs o)) /\
  (forall k, In k p -> exists r, read_one true d k = Ok r /\ mget k (o_pkgs o) = Some r) /\ (forall k, ~ In k p -> mget k (o_pkgs o) = None) /\
  (forall m, mget m (o_alias o) <> None <-> (exists k, In k (p ++ [n]) /\ (m = k \/ meta_has d k ("A"%char :: m))) \/ exists d1, In (Files m, d1) h) /\
  (forall m i, mget m (o_alias o) = Some i -> (In i (p ++ [n]) /\ (m = i \/ meta_has d i ("A"%char :: m))) \/ (i = [] /\ forall k, In k (p ++ [n]) -> m <> k /\ ~ meta_has d k ("A"%char :: m))).
Proof.
  intros Hn Fl Sp Ip Np Sa Rn Ln o. destruct (noload_blank h Hn) as (B1 & B2 & B3). destruct (look_names _ _ Fl) as [Nm Ne].
  assert (So : sound (after h)) by (apply calls_sound, new_sound).
  assert (Nl : names_of d0 = p ++ n :: t). { apply ssorted_ext; [apply names_of_spec|exact Sp|]. intro x. rewrite Ip. apply names_of_spec. }
  destruct (read_names_eq d (after h)) as (N1 & N2 & N3 & N4). set (o1 := read_names d (after h)) in *.
  assert (No1 : o_names o1 = p ++ n :: t).
  { rewrite <- Nl, <- Nm. unfold after at 1. rewrite calls_app. fold (after h). cbn [calls call]. unfold build. rewrite B1. cbv zeta. fold o1. pose proof (build_loop_names true d (o_names o1) o1) as K. destruct (build_loop true d (o_names o1) o1) as [o2 r]. symmetry. exact K. }
  destruct (build_loop_all d p o1 Sa) as [o2 E2]. pose proof (build_loop_app true d p (n :: t) o1 o2 E2) as E3. cbn [build_loop] in E3. rewrite (broken_throw d n Rn Ln) in E3. set (o3 := Obj _ _ _ _) in E3.
  destruct (build_loop_ok true d p o1 o2 E2) as (A1 & A2 & A3 & A4 & A5 & A6). specialize (A1 Np). destruct So as (S1 & S2 & S3). rewrite N3, (S2 B1) in A3. rewrite N4 in A4, A6.
  pose proof (build_loop_sound true d p o1) as Bs. rewrite E2 in Bs. cbn [fst] in Bs. destruct Bs as (Sk & _ & _); [rewrite N3; exact S3|rewrite N3; intros _; exact (S2 B1)|].
  assert (Bd : build true d (after h) = (o3, Throw)) by (unfold build; rewrite B1; cbv zeta; fold o1; rewrite No1; exact E3).
  assert (E5 : o = o3) by (unfold o, after; rewrite calls_app; fold (after h); cbn [calls call]; rewrite Bd; reflexivity).
  rewrite E5. destruct (meta_of_readable d n Rn) as [ls Els]. destruct (meta_of_lines d n ls Els) as [_ Hi].
  assert (Eal : o_alias o3 = half_alias (o_alias o2) n ls) by (unfold o3; cbn [o_alias]; rewrite Els; reflexivity).
  assert (Al : forall k r, In k p -> read_one true d k = Ok r -> forall a, In a (r_alias r) <-> meta_has d k ("A"%char :: a)) by (intros k r _ R; apply (read_one_spec true d k r R)).
  split; [unfold answer; cbn [call]; rewrite Bd; reflexivity|]. split; [exact A1|]. split; [exact Sk|]. split; [exact A2|]. split; [exact A3|]. rewrite Eal. split.
  - intro m. split.
    + intro K. destruct (half_alias_spec (o_alias o2) d n ls m Hi) as [[_ X]|(X & _ & _)]; [left; exists n; split; [apply in_elt|exact X]|].
      rewrite X in K. destruct (mget m (o_alias o2)) as [i|] eqn:G; [|contradiction]. destruct (A6 m i G) as [(I & r & R & Y)|(Y & _)].
      * left. exists i. split; [apply in_app_iff; left; exact I|]. destruct Y as [Y|Y]; [left; exact Y|right; apply (Al i r I R), Y].
      * right. apply B3. congruence.
    + intro K. destruct (half_alias_spec (o_alias o2) d n ls m Hi) as [[X _]|(X & X1 & X2)]; [rewrite X; discriminate|]. rewrite X. destruct K as [(k & I & Y)|Y]; [|apply A4, B3, Y].
      apply in_app_iff in I. destruct I as [I|[<-|[]]]; [|destruct Y as [Y|Y]; contradiction]. destruct (A2 k I) as (r & R & _). apply (A5 k r m I R). destruct Y as [Y|Y]; [left; exact Y|right; apply (Al k r I R), Y].
  - intros m i K. destruct (half_alias_spec (o_alias o2) d n ls m Hi) as [[X Y]|(X & X1 & X2)]; rewrite X in K; [injection K as <-; left; split; [apply in_elt|exact Y]|].
    destruct (A6 m i K) as [(I & r & R & Y)|(Y & Z)]; [left; split; [apply in_app_iff; left; exact I|]; destruct Y as [Y|Y]; [left; exact Y|right; apply (Al i r I R), Y]|].
    right. split; [exact (B2 m i Y)|]. intros k I. apply in_app_iff in I. destruct I as [I|[<-|[]]]; [|split; [exact X1|exact X2]]. destruct (A2 k I) as (r & R & _). destruct (Z k r I R) as [Z1 Z2]. split; [exact Z1|]. intro W. apply Z2, (Al k r I R), W.
Qed.
(** the exception is reported once; from then on the object works with the part it has, and says nothing *)
Theorem C108_half h d d0 p n t h2 s d2 : (forall q1 d1, In (q1, d1) h -> ~ loads q1) -> first_look (h ++ [(Build true, d)]) d0 ->
  ssorted (p ++ n :: t) -> (forall k, In k (p ++ n :: t) <-> installed d0 k) -> p <> [] -> (forall k, In k p -> sane d k) -> readable d n -> broken d n ->
  answer h (Build true) d = Throw /\ answer (h ++ (Build true, d) :: h2) (Build true) d2 = Ok ADone /\
  exists b, answer (h ++ (Build true, d) :: h2) (HasFile s) d2 = Ok (ABool b) /\ (b = true <-> exists k x, In k p /\ lists d k x /\ occurs s x).
Proof.
  intros Hn Fl Sp Ip Np Sa Rn Ln. destruct (half_call h d d0 p n t Hn Fl Sp Ip Np Sa Rn Ln) as (Th & E4 & Sk & A2 & A3 & _). set (o3 := after (h ++ [(Build true, d)])) in *.
  destruct (loaded_stays h2 o3 E4) as (L1 & L2 & _). split; [exact Th|].
  change ((Build true, d) :: h2) with ([(Build true, d)] ++ h2). rewrite app_assoc. unfold answer. rewrite after_app. fold o3. cbn [call]. unfold build. rewrite L1. cbn [snd rbind]. split; [reflexivity|].
  exists (has_file o3 s). split; [unfold has_file; rewrite L2; reflexivity|]. rewrite (has_file_spec o3 s Sk). split.
  - intros (k & r & x & G & Ix & O). destruct (in_dec str_eq_dec k p) as [I|I]; [|rewrite (A3 k I) in G; discriminate G]. destruct (A2 k I) as (r1 & R1 & G1). rewrite G in G1. injection G1 as <-. exists k, x. split; [exact I|]. split; [|exact O]. apply (proj1 (proj2 (read_one_spec true d k r R1)) eq_refl x), Ix.
  - intros (k & x & I & Lx & O). destruct (A2 k I) as (r & R & G). exists k, r, x. split; [exact G|]. split; [|exact O]. apply (proj1 (proj2 (read_one_spec true d k r R)) eq_refl x), Lx.
Qed.
(** the package that could not be read is known all the same, with the aliases its record names; those that come after it are not *)
Theorem C108_half_known h d d0 p n t h2 m d2 : (forall q1 d1, In (q1, d1) h -> ~ loads q1) -> first_look (h ++ [(Build true, d)]) d0 ->
  ssorted (p ++ n :: t) -> (forall k, In k (p ++ n :: t) <-> installed d0 k) -> p <> [] -> (forall k, In k p -> sane d k) -> readable d n -> broken d n ->
  exists b, answer (h ++ (Build true, d) :: h2) (Known m) d2 = Ok (ABool b) /\
    (b = true <-> (exists k, In k (p ++ [n]) /\ (m = k \/ meta_has d k ("A"%char :: m))) \/ exists d1, In (Files m, d1) (h ++ h2)).
Proof.
  intros Hn Fl Sp Ip Np Sa Rn Ln. destruct (half_call h d d0 p n t Hn Fl Sp Ip Np Sa Rn Ln) as (_ & E4 & _ & _ & _ & Al & _). set (o3 := after (h ++ [(Build true, d)])) in *.
  destruct (loaded_stays h2 o3 E4) as (_ & _ & _ & _ & A2). unfold answer. change ((Build true, d) :: h2) with ([(Build true, d)] ++ h2). rewrite app_assoc, after_app. fold o3. cbn [call snd]. eexists. split; [reflexivity|].
  specialize (A2 m). destruct (mget m (o_alias (fst (calls h2 o3)))) as [i|].
  - split; [intros _|reflexivity]. destruct (proj1 A2) as [K|[d1 I]]; [discriminate| |right; exists d1; apply in_app_iff; right; exact I]. apply Al in K. destruct K as [K|[d1 I]]; [left; exact K|right; exists d1; apply in_app_iff; left; exact I].
  - split; [discriminate|]. intro K. exfalso. apply (proj2 A2); [|reflexivity]. destruct K as [K|[d1 I]]; [left; apply Al; left; exact K|]. apply in_app_iff in I. destruct I as [I|I]; [left; apply Al; right; exists d1; exact I|right; exists d1; exact I].
Qed.
(** and a list that is given is that of a package read so far, or of the one that could not be read *)
Theorem C108_half_list h d d0 p n t h2 m d2 x : (forall q1 d1, In (q1, d1) h -> ~ loads q1) -> first_look (h ++ [(Build true, d)]) d0 ->
  ssorted (p ++ n :: t) -> (forall k, In k (p ++ n :: t) <-> installed d0 k) -> p <> [] -> (forall k, In k p -> sane d k) -> readable d n -> broken d n -> mget [] d2 = None ->
  answer (h ++ (Build true, d) :: h2) (Files m) d2 = Ok x ->
  exists k l, In k (p ++ [n]) /\ (m = k \/ meta_has d k ("A"%char :: m)) /\ x = ASet l /\ ssorted l /\ forall y, In y l <-> lists d2 k y.
Proof.
  intros Hn Fl Sp Ip Np Sa Rn Ln Ne. destruct (half_call h d d0 p n t Hn Fl Sp Ip Np Sa Rn Ln) as (_ & E4 & _ & _ & _ & _ & Av). set (o3 := after (h ++ [(Build true, d)])) in *.
  destruct (loaded_stays h2 o3 E4) as (_ & _ & _ & A4 & _). unfold answer. change ((Build true, d) :: h2) with ([(Build true, d)] ++ h2). rewrite app_assoc, after_app. fold o3. cbn [call].
  destruct (mget m (o_alias (fst (calls h2 o3)))) as [i|] eqn:G; [|discriminate]. cbn [snd]. unfold list_of. destruct (mget i d2) as [dir|] eqn:Gi; [|discriminate]. destruct (mget (L "files") dir) as [c|] eqn:F; [|discriminate]. intro K. injection K as <-.
  assert (Ni : i <> []) by (intro; subst i; congruence). destruct (A4 m i G) as [K|K]; [|contradiction]. destruct (Av m i K) as [[I X]|[X _]]; [|contradiction]. exists i, (read_files c). split; [exact I|]. split; [exact X|]. split; [reflexivity|]. split; [apply set_of_sorted|].
  intro y. rewrite read_files_In. unfold lists. split; [intros [J1 J]; exists dir, c; auto|]. intros (dir' & c' & H1 & H2 & H3 & H4). rewrite Gi in H1. injection H1 as <-. rewrite F in H2. injection H2 as <-. auto.
Qed.
Print Assumptions C108_item. Print Assumptions C108_items. Print Assumptions C108_names. Print Assumptions C108_files. Print Assumptions C108_known.
Print Assumptions C108_list. Print Assumptions C108_list_found. Print Assumptions C108_agree. Print Assumptions C108_load. Print Assumptions C108_half. Print Assumptions C108_half_known. Print Assumptions C108_half_list.
