(** C101: what a name given to 'cards install' or 'cards info -S' stands for. *)
From Verif Require Import Base BaseProofs StrModel StrSpec StrProofs RulesModel FsModel FsSpec FsProofs MetaModel MetaSpec MetaProofs
  DbModel DbSpec DbLoad DbOps DbRun DbInv EngineFs DbFacts DbProps DbExamples RemoveProps AddRun AddProps RootProps GenDeps GenDepsProofs GenDepsProps HexModel HexProps IndexModel IndexProofs IndexProps FetchModel FetchProps FetchExamples
  ManyRun ManyMeta RemoveCmd RemoveCmdProofs RemoveCmdExamples InstallModel InstallRun InstallProps InstallClosed InstallExamples ConfModel IndexExact OrderProps InfoModel InfoProps.
From Coq Require Import ZArith Lia.
Import DbInv.
Open Scope nat_scope.

(** ** specification *)
(** the package that the index keeps for [n] says that it belongs to the set [x], and to no group *)
Definition in_set (l : depots) (x n : str) : Prop :=
  exists p before, last_named l n p before /\ In ("s"%char :: x) (gp_meta p) /\ text (last_of "g" (gp_meta p)) = [].
(** it is of the collection [x] (the last one named up to its meta data), of no group and not for one language *)
Definition in_collection (l : depots) (x n : str) : Prop :=
  exists p before, last_named l n p before /\ text (last_of "c" (before ++ gp_meta p)) = x /\ text (last_of "g" (gp_meta p)) = [] /\ text (last_of "n" (gp_meta p)) = [].
(** the names that [x] stands for: the members of the set, or, if it has none, those of the collection, in order *)
Definition stands_for (l : depots) (x : str) (k : list str) : Prop :=
  ssorted k /\ ((exists n, in_set l x n) /\ (forall n, In n k <-> in_set l x n) \/ (forall n, ~ in_set l x n) /\ (forall n, In n k <-> in_collection l x n)).
(** [n] is offered *)
Definition offered (l : depots) (n : str) : Prop := exists coll ps p, In (coll, Some ps) l /\ In p ps /\ regular p n.

(** ** proofs *)
Definition keyed (m : list (str * irec)) : Prop := ssorted (keys m).
Lemma store_keyed q : keyed (p_map q) -> keyed (p_map (store q)).
Proof.
  intro H. unfold store. set (z := if _ && _ then _ else _). assert (Z : keyed (snd z)).
  { unfold z. destruct (_ && _); [|exact H]. destruct (mget _ _); [exact H|]. cbn [snd]. apply mset_keys_sorted. exact H. }
  destruct z as [i1 m1]. cbn [snd] in Z. cbn [p_map]. apply mset_keys_sorted. exact Z.
Qed.
Lemma tag_line_map s p p' : tag_line s p = Some (Ok p') -> p_map p' = p_map p.
Proof.
  unfold tag_line. destruct s as [|c v]; [discriminate|]. destruct (ceqb c "N"); [intro H; injection H as <-; reflexivity|]. destruct (ceqb c "r"); [destruct (stoi_u16 v); intro H; [|discriminate H..]; injection H as <-; reflexivity|].
  destruct (amem c one_tags); [intro H; injection H as <-; reflexivity|]. destruct (amem c many_tags); [intro H; injection H as <-; reflexivity|]. destruct (ceqb c "R"); [|discriminate].
  destruct (14 <? length (c :: v)); [|intro H; injection H as <-; reflexivity]. destruct (dep_of_line (c :: v)); cbn [rbind]; intro H; [|discriminate H..]. injection H as <-. reflexivity.
Qed.
Lemma idx_line_keyed s p p' : keyed (p_map p) -> idx_line s p = Ok p' -> keyed (p_map p').
Proof.
  intros K E. unfold idx_line in E. destruct (has_tag "@" s).
  { injection E as <-. unfold at_line. destruct (sfind (L ".cards-") s); exact K. }
  destruct (if p_found p then tag_line s p else None) as [r|] eqn:T.
  - destruct (p_found p); [|discriminate T]. rewrite E in T. rewrite (tag_line_map s p p' T). exact K.
  - destruct s as [|c v]; injection E as <-; [apply store_keyed; exact K|exact K].
Qed.
Lemma idx_lines_keyed ls : forall p p', keyed (p_map p) -> idx_lines ls p = Ok p' -> keyed (p_map p').
Proof.
  induction ls as [|s t IH]; intros p p' K E; cbn [idx_lines] in E; [injection E as <-; exact K|]. destruct (idx_line s p) as [q| |] eqn:Eq; cbn [rbind] in E; [|discriminate E..].
  exact (IH q p' (idx_line_keyed s p q K Eq) E).
Qed.
Lemma parse_keyed dirs : forall i m m', keyed m -> parse_dirs dirs i m = Ok m' -> keyed m'.
Proof.
  induction dirs as [|[coll o] t IH]; intros i m m' K E; cbn [parse_dirs] in E; [injection E as <-; exact K|]. destruct o as [x|]; [|exact (IH _ m m' K E)].
  destruct (parse_lines x) as [ls|]; [|discriminate E]. destruct (idx_lines ls _) as [p| |] eqn:Ep; cbn [rbind] in E; [|discriminate E..].
  assert (Kp : keyed (p_map p)) by (refine (idx_lines_keyed ls _ p _ Ep); exact K). exact (IH _ _ _ Kp E).
Qed.
Lemma in_keyed m n i : keyed m -> (In (n, i) m <-> mget n m = Some i).
Proof.
  intro K. split; [|apply mget_In]. intro I. apply In_mget; [|exact I]. exact (ssorted_NoDup _ K).
Qed.
Lemma members_of m (P : irec -> bool) n : keyed m -> (In n (set_of (map fst (filter (fun p : str * irec => P (snd p)) m))) <-> exists i, mget n m = Some i /\ P i = true).
Proof.
  intro K. rewrite set_of_In, in_map_iff. split.
  - intros ((x & i) & <- & I). apply filter_In in I as [I H]. exists i. split; [apply in_keyed; assumption|exact H].
  - intros (i & G & H). exists (n, i). split; [reflexivity|]. apply filter_In. split; [apply mget_In; exact G|exact H].
Qed.
Lemma is_nil_spec {A} (l : list A) : is_nil l = true <-> l = [].
Proof. destruct l; split; intro H; [reflexivity|reflexivity|discriminate H|discriminate H]. Qed.
Lemma set_members_spec l m x n : good_depots l -> parse_repo (indexes l) = Ok m -> (In n (set_members m x) <-> in_set l x n).
Proof.
  intros Gd E. destruct (C27_exact l Gd) as (m' & E' & Kf & Kin). rewrite E in E'. injection E' as <-. assert (K : keyed m) by (exact (parse_keyed _ _ [] m ltac:(constructor) E)).
  unfold set_members. rewrite (members_of m (fun i => smem x (i_many i "s") && is_nil (i_text "g" i)) n K). split.
  - intros (i & G & H). apply andb_true_iff in H as [H1 H2]. destruct (Kf n i G) as (p & before & Ln & F & A). exists p, before. split; [exact Ln|].
    split; [apply smem_In in H1; apply (fa_many _ _ F "s" x); [cbn; tauto|exact H1]|]. rewrite <- (own_last p i "g" F) by (cbn; tauto). apply is_nil_spec. exact H2.
  - intros (p & before & Ln & Hs & Hg). destruct Ln as (l1 & c & ps1 & ps2 & l2 & El & R & Rest). destruct (Kin n c (ps1 ++ p :: ps2) p) as (i & G); [rewrite El; apply in_elt|apply in_elt|exact R|].
    exists i. split; [exact G|]. destruct (Kf n i G) as (q & b & Lq & F & A).
    destruct (last_named_unique l n p before q b) as [<- _]; [exists l1, c, ps1, ps2, l2; split; [exact El|split; [exact R|exact Rest]]|exact Lq|]. apply andb_true_iff.
    split; [apply smem_In; apply (fa_many _ _ F "s" x); [cbn; tauto|exact Hs]|]. apply is_nil_spec. rewrite (own_last p i "g" F) by (cbn; tauto). exact Hg.
Qed.
Lemma coll_members_spec l m x n : good_depots l -> parse_repo (indexes l) = Ok m -> (In n (coll_members m x) <-> in_collection l x n).
Proof.
  intros Gd E. destruct (C27_exact l Gd) as (m' & E' & Kf & Kin). rewrite E in E'. injection E' as <-. assert (K : keyed m) by (exact (parse_keyed _ _ [] m ltac:(constructor) E)).
  unfold coll_members. rewrite (members_of m (fun i => seqb (i_text "c" i) x && is_nil (i_text "g" i) && is_nil (i_text "n" i)) n K).
  assert (Tc : forall p before i, carried p before i -> i_text "c" i = text (last_of "c" (before ++ gp_meta p))) by (intros p before i A; unfold i_text; rewrite (carried_last p before i "c" A) by (cbn; tauto); reflexivity). split.
  - intros (i & G & H). apply andb_true_iff in H as [H H3]. apply andb_true_iff in H as [H1 H2]. destruct (Kf n i G) as (p & before & Ln & F & A). exists p, before. split; [exact Ln|].
    split; [rewrite <- (Tc p before i A); apply seqb_eq; exact H1|]. split; [rewrite <- (own_last p i "g" F) by (cbn; tauto); apply is_nil_spec; exact H2|].
    rewrite <- (own_last p i "n" F) by (cbn; tauto). apply is_nil_spec. exact H3.
  - intros (p & before & Ln & Hc & Hg & Hn). pose proof Ln as (l1 & c & ps1 & ps2 & l2 & El & R & Rest). destruct (Kin n c (ps1 ++ p :: ps2) p) as (i & G); [rewrite El; apply in_elt|apply in_elt|exact R|].
    exists i. split; [exact G|]. destruct (Kf n i G) as (q & b & Lq & F & A). destruct (last_named_unique l n p before q b Ln Lq) as [<- <-]. apply andb_true_iff. split; [apply andb_true_iff; split|].
    + apply seqb_eq. rewrite (Tc p before i A). exact Hc.
    + apply is_nil_spec. rewrite (own_last p i "g" F) by (cbn; tauto). exact Hg.
    + apply is_nil_spec. rewrite (own_last p i "n" F) by (cbn; tauto). exact Hn.
Qed.
Lemma members_stand l m x : good_depots l -> parse_repo (indexes l) = Ok m -> stands_for l x (members m x).
Proof.
  intros Gd E. unfold members. destruct (set_members m x) as [|a s] eqn:Es.
  - split; [apply set_of_sorted|]. right. split; [|intro n; apply coll_members_spec; assumption]. intros n H. apply (set_members_spec l m x n Gd E) in H. rewrite Es in H. destruct H.
  - split; [rewrite <- Es; apply set_of_sorted|]. left. split; [exists a; apply (set_members_spec l m x a Gd E); rewrite Es; left; reflexivity|]. intro n. rewrite <- Es. apply set_members_spec; assumption.
Qed.
Lemma stands_unique l x k k' : stands_for l x k -> stands_for l x k' -> k = k'.
Proof.
  intros [S1 [[(a & A) K1]|[N1 K1]]] [S2 [[(b & B) K2]|[N2 K2]]].
  - apply ssorted_ext; [exact S1|exact S2|]. intro n. rewrite K1, K2. reflexivity.
  - exfalso. exact (N2 a A).
  - exfalso. exact (N1 b B).
  - apply ssorted_ext; [exact S1|exact S2|]. intro n. rewrite K1, K2. reflexivity.
Qed.

(** ** theorems *)
(** 'cards info -S x' prints exactly the names that [x] stands for, one per line, in order. *)
Theorem C101_info : forall l x k, good_depots l -> stands_for l x k ->
  exists m, parse_repo (indexes l) = Ok m /\ info_sets m x = text_of (map (fun n => L "(" ++ x ++ L ") " ++ n) k).
Proof.
  intros l x k Gd St. destruct (C27_exact l Gd) as (m & E & _). exists m. split; [exact E|]. rewrite (stands_unique l x k (members m x) St (members_stand l m x Gd E)). reflexivity.
Qed.
(** A name stands for those packages when there are some, and only otherwise for the package of that name. *)
Theorem C101_request : forall l x k, good_depots l -> stands_for l x k ->
  exists m, parse_repo (indexes l) = Ok m /\ request_of m x = match k with [] => Package x | _ => Members k end.
Proof.
  intros l x k Gd St. destruct (C27_exact l Gd) as (m & E & _). exists m. split; [exact E|]. unfold request_of. rewrite <- (stands_unique l x k (members m x) St (members_stand l m x Gd E)). destruct k; reflexivity.
Qed.
(** The command is refused before anything happens exactly if some argument stands for nothing and is not the name of a package that is offered. *)
Theorem C101_refused : forall l m run args w, good_depots l -> parse_repo (indexes l) = Ok m ->
  ((exists x, In x args /\ stands_for l x [] /\ ~ offered l x) -> install_cmd m run args w = Some (Some Exception, w)) /\
  ((forall x, In x args -> ~ stands_for l x [] \/ offered l x) -> install_cmd m run args w = run (map (request_of m) args)).
Proof.
  intros l m run args w Gd E. destruct (C27_exact l Gd) as (m' & E' & Kf & Kin). rewrite E in E'. injection E' as <-.
  assert (U : forall x, unknown m x = true <-> stands_for l x [] /\ ~ offered l x).
  { intro x. unfold unknown. pose proof (members_stand l m x Gd E) as St. unfold members in St. split.
    - intro H. apply andb_true_iff in H as [H H3]. apply andb_true_iff in H as [H1 H2]. apply (proj1 (is_nil_spec _)) in H1. apply (proj1 (is_nil_spec _)) in H3. rewrite H3, H1 in St. split; [exact St|].
      intros (c & ps & p & I & Ip & R). destruct (Kin x c ps p I Ip R) as (i & G). rewrite G in H2. discriminate H2.
    - intros [Sn No]. pose proof (stands_unique l x _ _ Sn St) as X. destruct (set_members m x) as [|a s]; [|discriminate X]. rewrite <- X. cbn [is_nil andb]. rewrite andb_true_r.
      destruct (mget x m) as [i|] eqn:G; [|reflexivity]. exfalso. destruct (Kf x i G) as (p & b & (l1 & c & ps1 & ps2 & l2 & El & R & _) & _). apply No. exists c, (ps1 ++ p :: ps2), p. split; [rewrite El; apply in_elt|]. split; [apply in_elt|exact R]. }
  unfold install_cmd. split.
  - intros (x & I & Sn & No). assert (X : existsb (unknown m) args = true) by (apply existsb_exists; exists x; split; [exact I|apply U; split; [exact Sn|exact No]]). rewrite X. reflexivity.
  - intro H. destruct (existsb (unknown m) args) eqn:X; [|reflexivity]. exfalso. apply existsb_exists in X as (x & I & X). apply U in X as [Sn No]. destruct (H x I) as [K|K]; [exact (K Sn)|exact (No K)].
Qed.
Section Installed.
  Variables (junk : bool) (machine : str) (re : str -> str -> option bool) (sh : str -> fs -> fs * bool) (root url : str) (repo : list (str * ent)) (sha : str -> str) (key : Type) (pem : str -> option key).
  Variables (verify : key -> str -> str -> bool) (unpack : str -> option archive) (jb : Z) (arch : str -> apkg) (fuel : nat) (host : disk) (force scripts : bool) (conf : option str) (groups : list str) (s : fstate) (w : world).
  Definition the_command (m : list (str * irec)) (args : list str) : option (option stop * world) :=
    install_cmd m (fun rs => cards_install junk machine re sh root url repo sha key pem verify unpack jb fuel host force scripts conf rs groups s w) args w.
  (** After a command that succeeded every package that an argument stands for is installed or was known under that name already; an argument that stands
      for none is itself installed. *)
  Theorem C101_installed : forall l m args w', good_depots l -> parse_repo (indexes l) = Ok m ->
    trusted url repo sha key pem verify unpack arch s -> inv (w_db w) -> the_command m args = Some (None, w') ->
    (forall x k n, In x args -> stands_for l x k -> In n k -> installed (w_db w') n \/ known (w_db w) n) /\
    (forall x, In x args -> stands_for l x [] -> offered l x /\ installed (w_db w') x).
  Proof.
    intros l m args w' Gd E Tr Iv H. unfold the_command, install_cmd in H. destruct (existsb (unknown m) args) eqn:X; [discriminate H|].
    destruct (C76_installed junk machine re sh root url repo sha key pem verify unpack jb arch fuel host force scripts conf (map (request_of m) args) groups s w w' Tr Iv H) as (mh & _ & _ & _ & P1 & P2). split.
    - intros x k n I St J. pose proof (stands_unique l x k _ St (members_stand l m x Gd E)) as Ek. apply (P2 k n); [|exact J]. apply in_map_iff. exists x. split; [|exact I]. unfold request_of. rewrite <- Ek. destruct k; [destruct J|reflexivity].
    - intros x I St. pose proof (stands_unique l x [] _ St (members_stand l m x Gd E)) as Ek. split.
      + destruct (C27_exact l Gd) as (m' & E' & Kf & Kin). rewrite E in E'. injection E' as <-. destruct (mget x m) as [i|] eqn:G.
        * destruct (Kf x i G) as (p & b & (l1 & c & ps1 & ps2 & l2 & El & R & _) & _). exists c, (ps1 ++ p :: ps2), p. split; [rewrite El; apply in_elt|]. split; [apply in_elt|exact R].
        * exfalso. assert (Y : existsb (unknown m) args = true); [|rewrite X in Y; discriminate Y]. apply existsb_exists. exists x. split; [exact I|]. unfold unknown. rewrite G. unfold members in Ek.
          destruct (set_members m x) as [|a y]; [|discriminate Ek]. rewrite <- Ek. reflexivity.
      + apply P1. apply in_map_iff. exists x. split; [|exact I]. unfold request_of. rewrite <- Ek. reflexivity.
  Qed.
End Installed.

(** ** a case: a set "all" of bar and foo.fr, which is for one language; foo.fr is also of a set that is called as the package bar *)
Definition s_gen (n content : str) (more : list str) : gpkg :=
  Gp (n ++ L ".cards-zst") ([("N"%char :: n); L "V1"; L "ax86_64"; L "r1"; L "B1700000000"] ++ more) (hex content) (hex content) 3.
Definition s_depot : depots := [(L "base", Some [s_gen (L "bar") (L "BAR") [L "sall"]; s_gen (L "foo.fr") (L "FR") [L "nfr"; L "sall"; L "sbar"]])].
Definition s_index : list (str * irec) := match parse_repo (indexes s_depot) with Ok m => m | _ => [] end.
Definition s_rec (n : str) : irec := match mget n s_index with Some i => i | None => blank end.
Definition s_ent (n : str) : str * ent := (n, Ent (L "/depot/c") (s_rec n)).
Definition s_repo : list (str * ent) := [s_ent (L "bar"); s_ent (L "foo.fr")].
Lemma s_parse : parse_repo (indexes s_depot) = Ok s_index.
Proof. assert (H : match parse_repo (indexes s_depot) with Ok _ => true | _ => false end = true) by (vm_compute; reflexivity). unfold s_index. destruct (parse_repo (indexes s_depot)); [reflexivity|discriminate H..]. Qed.
Lemma s_regular n c more : In (n, c, more) [(L "bar", L "BAR", [L "sall"]); (L "foo.fr", L "FR", [L "nfr"; L "sall"; L "sbar"])] -> regular (s_gen n c more) n.
Proof.
  intros [E|[E|[]]]; injection E as <- <- <-.
  all: constructor; [vm_compute; discriminate|reflexivity|cbn [s_gen gp_meta List.app]; intros s H; repeat (destruct H as [<-|H]; [split; [discriminate|intros v; discriminate]|]); destruct H
    |cbn [s_gen gp_meta List.app]; intros v H; repeat (destruct H as [H|H]; [first [discriminate H|injection H as <-; exists 1%N; vm_compute; reflexivity]|]); destruct H
    |cbn [s_gen gp_meta List.app]; intros v H; repeat (destruct H as [H|H]; [first [discriminate H|injection H as <-; cbn [length]; lia]|]); destruct H
    |cbn [s_gen gp_meta List.app]; intros H; repeat (destruct H as [H|H]; [discriminate H|]); destruct H].
Qed.
Lemma s_good : good_depots s_depot.
Proof.
  intros coll o [E|[]]. injection E as <- <-. split; [discriminate|]. intros ps E. injection E as <-. split.
  - intros p [<-|[<-|[]]]; eexists; apply s_regular; cbn [In]; auto.
  - apply Forall_forall. intros x I. apply good_lineb_ok. assert (H : forallb good_lineb (flat_map gen_lines [s_gen (L "bar") (L "BAR") [L "sall"]; s_gen (L "foo.fr") (L "FR") [L "nfr"; L "sall"; L "sbar"]]) = true) by (vm_compute; reflexivity).
    exact (proj1 (forallb_forall _ _) H x I).
Qed.
Lemma s_stands x k : members s_index x = k -> stands_for s_depot x k.
Proof. intros <-. apply members_stand; [exact s_good|exact s_parse]. Qed.
Lemma s_cert n e c sg : mget n s_repo = Some e -> decode (i_text "I" (e_rec e)) = Ok sg -> t_verify tt sg (t_sha c) = true ->
  (n = L "bar" /\ c = L "BAR") \/ (n = L "foo.fr" /\ c = L "FR").
Proof.
  intros He H5 H6. apply (proj1 (seqb_eq sg c)) in H6. subst sg. apply mget_In in He. cbn [s_repo In] in He.
  destruct He as [He|[He|[]]]; injection He as <- <-; vm_compute in H5; injection H5 as <-; auto.
Qed.
Lemma s_trusted files net : trusted t_url s_repo t_sha unit t_pem t_verify t_unpack t_arch (Fs files net).
Proof.
  constructor.
  - discriminate.
  - split; intros n m e f He Hf K; apply mget_In in He, Hf; cbn [s_repo In] in He, Hf; destruct He as [He|[He|[]]]; injection He as <- <-; destruct Hf as [Hf|[Hf|[]]]; injection Hf as <- <-; try reflexivity; vm_compute in K; discriminate K.
  - intros n e pk k sg c He _ _ Hd Hv. destruct k. destruct (s_cert n e c sg He Hd Hv) as [[-> ->]|[-> ->]]; (eexists; split; [vm_compute; reflexivity|vm_compute; reflexivity]).
  - exact (tr_name _ _ _ _ _ _ _ _ _ (t_trusted files net)).
  - intros n e He. apply mget_In in He. cbn [s_repo In] in He. destruct He as [He|[He|[]]]; injection He as <- <-; vm_compute; reflexivity.
  - intros n Hn v ->. apply Hn. reflexivity.
Qed.
Definition s_install (args : list str) (s : fstate) (w : world) : option (option stop * world) :=
  the_command false mach pfx quiet rt t_url s_repo t_sha unit t_pem t_verify t_unpack 0 20 (w_db w) false false None [] s w s_index args.
Example C101_case : good_depots s_depot /\ parse_repo (indexes s_depot) = Ok s_index /\ trusted t_url s_repo t_sha unit t_pem t_verify t_unpack t_arch (Fs (f_files t_start) [Some (Some (L "BAR")); Some (Some (L "FR"))]) /\ inv (w_db w_empty) /\
  stands_for s_depot (L "all") [L "bar"; L "foo.fr"] /\ stands_for s_depot (L "base") [L "bar"] /\ stands_for s_depot (L "foo.fr") [] /\ stands_for s_depot (L "nobody") [] /\
  exists w', s_install [L "all"; L "foo.fr"] (Fs (f_files t_start) [Some (Some (L "BAR")); Some (Some (L "FR"))]) w_empty = Some (None, w') /\ map fst (w_db w') = [L "bar"; L "foo.fr"].
Proof.
  split; [exact s_good|]. split; [exact s_parse|]. split; [apply s_trusted|]. split; [exact inv_empty|]. split; [apply s_stands; vm_compute; reflexivity|]. split; [apply s_stands; vm_compute; reflexivity|].
  split; [apply s_stands; vm_compute; reflexivity|]. split; [apply s_stands; vm_compute; reflexivity|]. eexists. split; [vm_compute; reflexivity|vm_compute; reflexivity].
Qed.
(** The package bar is offered, but there is a set of that name: 'cards install bar' succeeds and does not install bar. *)
Theorem C101_shadowed_refuted : offered s_depot (L "bar") /\ exists w', s_install [L "bar"] (Fs (f_files t_start) [Some (Some (L "FR"))]) w_empty = Some (None, w') /\ ~ installed (w_db w') (L "bar") /\ installed (w_db w') (L "foo.fr").
Proof.
  split.
  - exists (L "base"). eexists. eexists. split; [left; reflexivity|]. split; [left; reflexivity|]. apply s_regular. left. reflexivity.
  - eexists. split; [vm_compute; reflexivity|]. split; [intros [_ H]; apply H; vm_compute; reflexivity|split; [vm_compute; discriminate|intro H; vm_compute in H; discriminate H]].
Qed.
