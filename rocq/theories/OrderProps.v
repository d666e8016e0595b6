(** C93: of several collections that offer a package, the documented order of precedence and the one the programs follow. *)
From Verif Require Import Base BaseProofs StrModel StrSpec StrProofs RulesModel FsModel FsProofs MetaModel MetaSpec MetaProofs DbModel GenDeps GenDepsProofs GenDepsProps IndexModel IndexProofs IndexProps ConfModel ConfProps RecipeModel RecipeProps RecipeExact IndexExact.
From Coq Require Import ZArith Lia.

(** the package [p], called [n], is offered by the collection [coll], as its only package of that name, and by no collection listed later *)
Definition offered_last (l : depots) (coll n : str) (p : gpkg) : Prop :=
  exists l1 ps1 ps2 l2, l = l1 ++ (coll, Some (ps1 ++ p :: ps2)) :: l2 /\ regular p n /\
    (forall p', In p' (ps1 ++ ps2) -> ~ regular p' n) /\ (forall d ps p', In (d, Some ps) l2 -> In p' ps -> ~ regular p' n).
(** no META names its own collection *)
Definition no_collection (l : depots) : Prop := forall d ps p v, In (d, Some ps) l -> In p ps -> ~ In ("c"%char :: v) (gp_meta p).

Lemma split_two {A} (P : A -> Prop) : forall (a : list A) x b c y d, a ++ x :: b = c ++ y :: d -> P x -> P y -> (forall z, In z b -> ~ P z) -> (forall z, In z d -> ~ P z) -> a = c /\ x = y /\ b = d.
Proof.
  induction a as [|u a IH]; intros x b [|v c] y d E X Y Nb Nd; cbn in E.
  - injection E as E1 E2. auto.
  - injection E as E1 E2. subst. exfalso. apply (Nb y); [apply in_app_iff; right; left; reflexivity|exact Y].
  - injection E as E1 E2. subst. exfalso. apply (Nd x); [apply in_app_iff; right; left; reflexivity|exact X].
  - injection E as -> E2. destruct (IH x b c y d E2 X Y Nb Nd) as (-> & -> & ->). auto.
Qed.
Definition offers (n : str) (d : str * option (list gpkg)) : Prop := exists ps p, snd d = Some ps /\ In p ps /\ regular p n.
(** The package of the collection listed last is the one that counts: its file, hash, signature, size, lists and dependencies. *)
Theorem C93_binary_last : forall l coll n p, good_depots l -> offered_last l coll n p ->
  exists m i, parse_repo (indexes l) = Ok m /\ mget n m = Some i /\ faithful p i /\ (no_collection l -> i_val i "c" = Some coll).
Proof.
  intros l coll n p Gd (l1 & ps1 & ps2 & l2 & El & R & No & N2). destruct (C27_exact l Gd) as (m & E & K & Kin).
  assert (I : In (coll, Some (ps1 ++ p :: ps2)) l) by (rewrite El; apply in_app_iff; right; left; reflexivity).
  destruct (Kin n coll _ p I (in_elt p ps1 ps2) R) as (i & G). exists m, i. split; [exact E|]. split; [exact G|].
  destruct (K n i G) as (q & before & (k1 & c1 & qs1 & qs2 & k2 & Ek & Rq & Eb & Nq & Nk) & F & A).
  destruct (split_two (offers n) l1 (coll, Some (ps1 ++ p :: ps2)) l2 k1 (c1, Some (qs1 ++ q :: qs2)) k2) as (<- & Ed & <-).
  { rewrite <- El. exact Ek. }
  { exists (ps1 ++ p :: ps2), p. split; [reflexivity|]. split; [apply in_app_iff; right; left; reflexivity|exact R]. }
  { exists (qs1 ++ q :: qs2), q. split; [reflexivity|]. split; [apply in_app_iff; right; left; reflexivity|exact Rq]. }
  { intros [d o] Iz (ps & p' & Eo & Ip & Rp). cbn [snd] in Eo. subst o. exact (N2 d ps p' Iz Ip Rp). }
  { intros [d o] Iz (ps & p' & Eo & Ip & Rp). cbn [snd] in Eo. subst o. exact (Nk d ps p' Iz Ip Rp). }
  injection Ed as Ec Eps. destruct (split_two (fun x => regular x n) ps1 p ps2 qs1 q qs2 Eps R Rq) as (<- & <- & <-); [intros z Iz; apply No; apply in_app_iff; right; exact Iz|exact Nq|].
  split; [exact F|]. intro Nc. destruct (A "c"%char) as [Av _]; [cbn; tauto|]. apply Av. exists (flat_map lines_of l1), (flat_map gp_meta ps1 ++ gp_meta p). subst before. subst c1. split; [rewrite <- app_assoc; reflexivity|].
  intros x Ix. apply in_app_iff in Ix. destruct Ix as [Ix|Ix]; [|exact (Nc coll _ p x I (in_elt p ps1 ps2) Ix)].
  apply in_flat_map in Ix. destruct Ix as (p' & I1 & I2). exact (Nc coll _ p' x I (proj2 (in_app_iff _ _ _) (or_introl I1)) I2).
Qed.
(** The same for recipes: [e] is the last one called [n]. *)
Theorem C93_port_last : forall a e b, Forall s_ok (a ++ e :: b) -> ~ In (s_name e) (map s_name b) ->
  exists m p, ports_read (map s_content (a ++ e :: b)) = Ok m /\ mget (s_name e) m = Some p /\ p_coll p = s_coll e /\
    (forall is k v, snd e = Some is -> last_field is k v -> p_vals p k = v) /\
    (forall is w, snd e = Some is -> In w (p_deps p) <-> exists i, In i is /\ asks i w).
Proof.
  intros a e b F N. destruct (C65_exact _ F) as (m & E & K & Kin). exists m. destruct (mget (s_name e) m) as [p|] eqn:G; [|exfalso; apply (Kin e); [apply in_app_iff; right; left; reflexivity|exact G]].
  exists p. split; [exact E|]. split; [reflexivity|]. destruct (K _ p G) as (a' & e' & b' & El & En & Nb & C & V & D).
  destruct (split_two (fun x => s_name x = s_name e) a e b a' e' b' El eq_refl En) as (<- & <- & <-).
  { intros z I X. apply N. rewrite <- X. apply in_map. exact I. }
  { intros z I X. apply Nb. rewrite <- X. apply in_map. exact I. }
  split; [exact C|]. split.
  - intros is k v Es (xs & ys & -> & Ny). apply (V k). exists (flat_map states a ++ Field (L "release") (L "1") :: xs), ys. split; [|exact Ny].
    rewrite flat_map_app. cbn [flat_map]. rewrite app_nil_r. unfold states at 2. rewrite Es. rewrite <- app_assoc. reflexivity.
  - intros is w Es. destruct D as [_ [(a2 & e2 & is2 & b2 & E2 & Ee & Nb2 & H)|[Nn _]]].
    + destruct (split_two (fun x => snd x <> None) a e [] a2 e2 b2 E2) as (_ & <- & _); [rewrite Es; discriminate|rewrite Ee; discriminate|intros z []|intros z I X; apply X; exact (Nb2 z I)|]. rewrite Es in Ee. injection Ee as <-. exact (H w).
    + exfalso. pose proof (Nn e ltac:(apply in_app_iff; right; left; reflexivity)) as X. rewrite Es in X. discriminate X.
Qed.

(** ** the documented order: "directories listed first have precedence" *)
(** the collections of a configuration, in its order; [at_path]: the packages of the index in that directory *)
Definition of_conf (c : cfg) (at_path : str -> option (list gpkg)) : depots := map (fun d => (u_coll d, at_path (coll_path d))) (c_dirs c).
Definition two_dirs : list str := [L "dir /depot/own | http://own.org"; L "dir /depot/base | http://one.org"].
Definition g_own : gpkg := Gp (L "foo9.0-1-x86_64.cards-zst") [L "Nfoo"; L "V9.0"; L "r1"; L "B1800000000"] (L "cd01") (L "ff09") 4712.
Definition two_depots (p : str) : option (list gpkg) := if seqb p (L "/depot/own") then Some [g_own] else if seqb p (L "/depot/base") then Some [g1; g2] else None.
Definition r_own : recipe := (L "own", L "zlib", [Field (L "version") (L "9.9"); Inline (L "makedepends") (L "clang")]).
Definition as_source (r : recipe) : source := let '(c, n, is) := r in (c, n, Some is).
Lemma regular_own : regular g_own (L "foo").
Proof.
  constructor.
  - vm_compute; discriminate.
  - reflexivity.
  - cbn. intros s H. repeat (destruct H as [<-|H]; [split; [discriminate|intros v; discriminate]|]). destruct H.
  - cbn. intros v H. repeat (destruct H as [H|H]; [inversion H; subst; exists 1%N; vm_compute; reflexivity|]). destruct H.
  - cbn. intros v H. repeat (destruct H as [H|H]; [inversion H; subst; cbn; lia|]). destruct H.
  - cbn. intros H. repeat (destruct H as [H|H]; [discriminate|]). destruct H.
Qed.
Definition both : depots := [(L "own", Some [g_own]); (L "gone", None); (L "base", Some [g1; g2])].
Example C93_good : good_depots both.
Proof.
  assert (Gl : forall ps, Forall (fun x => good_lineb x = true) (flat_map gen_lines ps) -> Forall good_line (flat_map gen_lines ps)) by (intros ps H; eapply Forall_impl; [|exact H]; intros x; apply good_lineb_ok).
  intros coll o [E|[E|[E|[]]]]; injection E as <- <-; (split; [discriminate|]); intros ps Eo; try discriminate Eo; injection Eo as <-.
  - split; [intros p [<-|[]]; exists (L "foo"); exact regular_own|]. apply Gl. vm_compute. repeat constructor.
  - split; [intros p [<-|[<-|[]]]; [exists (L "foo"); exact regular_g1|exists (L "bar"); exact regular_g2]|]. exact (proj2 (proj2 C27_hypotheses)).
Qed.
Lemma named_not p n n' : regular p n -> n <> n' -> ~ regular p n'.
Proof. intros R Ne R'. exact (Ne (regular_name _ _ _ R R')). Qed.
Example C93_offered : offered_last both (L "base") (L "foo") g1 /\ offered_last [(L "base", Some [g1; g2]); (L "own", Some [g_own])] (L "own") (L "foo") g_own /\ no_collection both.
Proof.
  split; [|split].
  - exists [(L "own", Some [g_own]); (L "gone", None)], [], [g2], []. split; [reflexivity|]. split; [exact regular_g1|]. split; [|intros d ps p []]. intros p [<-|[]]. apply (named_not _ _ _ regular_g2). discriminate.
  - exists [(L "base", Some [g1; g2])], [], [], []. split; [reflexivity|]. split; [exact regular_own|]. split; [intros p []|intros d ps p []].
  - intros d ps p v [E|[E|[E|[]]]]; try discriminate E; injection E as <- <-; intros Ip; repeat (destruct Ip as [<-|Ip]; [intro X; cbn in X; repeat (destruct X as [X|X]; [discriminate X|]); exact X|]); destruct Ip.
Qed.
Example C93_sources : Forall s_ok (map as_source [r_own; r_bash; r_zlib]) /\ s_name (as_source r_own) = s_name (as_source r_zlib).
Proof.
  split; [|reflexivity]. apply Forall_forall. intros r H.
  assert (K : match snd r with Some is => forallb i_okb is && forallb fitsb (flat_map render is) | None => true end = true) by (destruct H as [<-|[<-|[<-|[]]]]; vm_compute; reflexivity).
  destruct r as [[c n] [is|]]; cbn [s_ok snd] in *; [|exact Logic.I]. apply andb_true_iff in K as [K1 K2]. rewrite forallb_forall in K1, K2. split; apply Forall_forall; intros x I; [apply i_okb_ok, K1, I|apply fitsb_ok, K2, I].
Qed.
(** The configuration lists "own" before "base", and both offer foo and zlib; the package and the recipe of "base" are used. *)
Theorem C93_first_refuted : exists c, read_conf (L "x86_64") (Some (text_of two_dirs)) None = Some c /\
  map fst (of_conf c two_depots) = [L "own"; L "base"] /\ good_depots (of_conf c two_depots) /\
  look (L "foo") i_file (parse_repo (indexes (of_conf c two_depots))) = Some (gp_file g1) /\
  look (L "foo") (i_text "V") (parse_repo (indexes (of_conf c two_depots))) = Some (L "1.0") /\ In (L "V9.0") (gp_meta g_own) /\
  field_in (ports_read (map s_content (map as_source [r_own; r_zlib]))) (L "zlib") (L "version") = Some (L "1.3").
Proof.
  destruct (read_conf (L "x86_64") (Some (text_of two_dirs)) None) as [c|] eqn:E; [|vm_compute in E; discriminate E]. exists c. split; [reflexivity|].
  assert (Eo : of_conf c two_depots = [(L "own", Some [g_own]); (L "base", Some [g1; g2])]) by (vm_compute in E; injection E as <-; vm_compute; reflexivity).
  rewrite Eo. split; [reflexivity|]. split.
  { intros coll o [X|[X|[]]]; injection X as <- <-; apply C93_good; cbn; tauto. }
  split; [vm_compute; reflexivity|]. split; [vm_compute; reflexivity|]. split; [cbn; tauto|vm_compute; reflexivity].
Qed.
