(** C70: the archives 'cards create' adds before it builds a port. create.cxx:172-246, pkgrepo.cxx:1003-1024.
    Simplifications: the binaries of the repository are given with the group and language written in their archives; the report lines
    in the log file and the test of the database (checkPackageNameExist, see CreateModel.v, Put) are not part of the list. *)
From Verif Require Import Base BaseProofs StrModel StrProofs Graph PortsModel PortsProofs PortsProps.
From Coq Require Import ZArith Lia.

(** ** model *)
(** create.cxx:196-208: m_dependencies; m_list (l.572-573) is the set list() collects, as in depends.cxx *)
Definition on_level (s : ports) (n : str) (k : nat) : list str := filter (fun i => level_of s i =? k) (dep_list s n).
Definition build_deps (s : ports) (n : str) : list str := flat_map (on_level s n) (seq 0 (level_of s n)).
(** a binary of the repository: name, base name, path of the archive, group and language of the archive *)
Record bin := Bin { b_name : str; b_base : str; b_path : str; b_group : str; b_nls : str }.
(** pkgrepo.cxx:1003-1024: getListOfPackagesFromGroup; a std::set of paths *)
Definition group_files (repo : list bin) (n : str) : list str :=
  if existsb (fun b => seqb (b_name b) n) repo
  then set_of (map b_path (filter (fun b => seqb (b_name b) n || seqb (b_base b) n) repo)) else [].
(** create.cxx:217-242: an archive is added if it has neither group nor language, or if its group is one of the configured ones *)
Definition is_nil (s : str) : bool := match s with [] => true | _ => false end.
Definition added (repo : list bin) (groups : list str) (p : str) : bool :=
  existsb (fun b => seqb (b_path b) p && ((is_nil (b_group b) && is_nil (b_nls b)) || smem (b_group b) groups)) repo.
(** create.cxx:209-243: "if (i == packageName) break" *)
Fixpoint before (n : str) (l : list str) : list str := match l with [] => [] | x :: t => if seqb x n then [] else x :: before n t end.
Definition port_archives (repo : list bin) (groups : list str) (i : str) : list str := filter (added repo groups) (group_files repo i).
Definition build_archives (s : ports) (repo : list bin) (groups : list str) (n : str) : list str :=
  flat_map (port_archives repo groups) (before n (build_deps s n)).

(** ** specification *)
(** [p] is the archive of the port [x] or of a package made with it *)
Definition made_with (repo : list bin) (x p : str) : Prop := exists b, In b repo /\ b_path b = p /\ (b_name b = x \/ b_base b = x).
(** it is one the user wants: the main packages, and those of the configured groups *)
Definition wanted (repo : list bin) (groups : list str) (p : str) : Prop :=
  exists b, In b repo /\ b_path b = p /\ (b_group b = [] /\ b_nls b = [] \/ In (b_group b) groups).
Definition available (repo : list bin) (x : str) : Prop := exists b, In b repo /\ b_name b = x.

(** ** proofs *)
Lemma dfs_sorted deps fuel : forall v n, ssorted v -> ssorted (dfs deps fuel v n).
Proof.
  induction fuel as [|f IH]; intros v n S; cbn [dfs]; destruct (smem n v); try exact S.
  assert (G : forall ds v, ssorted v -> ssorted (fold_left (fun v j => if seqb n j then v else dfs deps f v j) ds v)).
  { induction ds as [|d t IHt]; intros w Sw; cbn [fold_left]; [exact Sw|]. apply IHt. destruct (seqb n d); [exact Sw|apply IH, Sw]. }
  apply G. apply sins_sorted, S.
Qed.
Lemma dep_list_sorted s n : ssorted (dep_list s n).
Proof. apply dfs_sorted. constructor. Qed.
Lemma build_deps_In s n x : In x (build_deps s n) <-> In x (dep_list s n) /\ level_of s x < level_of s n.
Proof.
  unfold build_deps, on_level. rewrite in_flat_map. split.
  - intros [k [K H]]. apply filter_In in H as [H E]. apply Nat.eqb_eq in E. apply in_seq in K. split; [exact H|lia].
  - intros [H Lt]. exists (level_of s x). split; [apply in_seq; lia|]. apply filter_In. split; [exact H|apply Nat.eqb_refl].
Qed.
Lemma NoDup_join {A} (a b : list A) : NoDup a -> (forall x, In x a -> ~ In x b) -> NoDup b -> NoDup (a ++ b).
Proof.
  intros Na D Nb. induction a as [|x t IH]; cbn [app]; [exact Nb|]. inversion Na as [|? ? Hx Ht]; subst. constructor.
  - rewrite in_app_iff. intros [H|H]; [contradiction|]. exact (D x (or_introl eq_refl) H).
  - apply IH; [exact Ht|]. intros y H. apply D. right. exact H.
Qed.
Lemma NoDup_levels s n : forall len from, NoDup (flat_map (on_level s n) (seq from len)).
Proof.
  induction len as [|len IH]; intro from; cbn [seq flat_map]; [constructor|]. apply NoDup_join; [| |apply IH].
  - unfold on_level. apply NoDup_filter, ssorted_NoDup, dep_list_sorted.
  - intros x H K. apply in_flat_map in K as [k [K1 K2]]. unfold on_level in H, K2. apply filter_In in H as [_ H]. apply filter_In in K2 as [_ K2]. apply Nat.eqb_eq in H, K2. apply in_seq in K1. lia.
Qed.
Lemma before_all n l : ~ In n l -> before n l = l.
Proof.
  induction l as [|x t IH]; intro N; cbn [before]; [reflexivity|]. destruct (seqb x n) eqn:E.
  - apply seqb_eq in E. subst x. exfalso. apply N. left. reflexivity.
  - f_equal. apply IH. intro H. apply N. right. exact H.
Qed.
Lemma order_levels s n d x : In d (build_deps s n) -> In x (build_deps s n) -> level_of s d < level_of s x ->
  exists a b c, build_deps s n = a ++ d :: b ++ x :: c.
Proof.
  intros Hd Hx Lt. apply build_deps_In in Hd as [Hd Ld], Hx as [Hx Lx]. unfold build_deps.
  assert (E : seq 0 (level_of s n) = seq 0 (level_of s d) ++ level_of s d :: seq (S (level_of s d)) (level_of s x - S (level_of s d)) ++ level_of s x :: seq (S (level_of s x)) (level_of s n - S (level_of s x))).
  { replace (level_of s n) with (level_of s d + S ((level_of s x - S (level_of s d)) + S (level_of s n - S (level_of s x)))) at 1 by lia.
    rewrite seq_app. f_equal. cbn [seq Nat.add]. f_equal. rewrite seq_app. f_equal. cbn [seq]. replace (S (level_of s d) + (level_of s x - S (level_of s d))) with (level_of s x) by lia. reflexivity. }
  rewrite E. rewrite flat_map_app. cbn [flat_map]. rewrite flat_map_app. cbn [flat_map].
  assert (Jd : In d (on_level s n (level_of s d))) by (apply filter_In; split; [exact Hd|apply Nat.eqb_refl]).
  assert (Jx : In x (on_level s n (level_of s x))) by (apply filter_In; split; [exact Hx|apply Nat.eqb_refl]).
  apply in_split in Jd as [d1 [d2 Ed]], Jx as [x1 [x2 Ex]]. rewrite Ed, Ex.
  exists (flat_map (on_level s n) (seq 0 (level_of s d)) ++ d1).
  exists (d2 ++ flat_map (on_level s n) (seq (S (level_of s d)) (level_of s x - S (level_of s d))) ++ x1).
  exists (x2 ++ flat_map (on_level s n) (seq (S (level_of s x)) (level_of s n - S (level_of s x)))).
  repeat rewrite <- app_assoc. reflexivity.
Qed.
Lemma plain_writes l : (forall m e, writes l m e -> ~ In "."%char e /\ In e (map fst l)) -> forall a b, chain (writes l) a b <-> chain (needs l) a b.
Proof.
  intros P a b. split; intro H.
  - induction H as [|a d b H K IH]; [apply chain_refl|]. destruct (str_eq_dec d a) as [->|N]; [exact IH|]. destruct (P a d H) as [P1 P2]. apply (chain_step _ a d b); [|exact IH]. destruct H as [ds [R Id]]. exists ds, d. split; [exact R|]. split; [exact Id|]. split; [left; auto|]. auto.
  - induction H as [|a d b H K IH]; [apply chain_refl|]. apply (chain_step _ a d b); [|exact IH]. destruct H as [ds [e [R [Id [De _]]]]]. exists ds. split; [exact R|].
    destruct (P a e (ex_intro _ ds (conj R Id))) as [P1 _]. destruct De as [[-> _]|[y [-> _]]]; [exact Id|]. exfalso. apply P1. apply in_app_iff. right. left. reflexivity.
Qed.
Lemma group_files_In repo x p : In p (group_files repo x) <-> available repo x /\ made_with repo x p.
Proof.
  unfold group_files, available, made_with. destruct (existsb (fun b => seqb (b_name b) x) repo) eqn:E.
  - apply existsb_exists in E as [b0 [I0 E0]]. apply seqb_eq in E0. rewrite set_of_In, in_map_iff. split.
    + intros [b [Eb H]]. apply filter_In in H as [H K]. split; [eauto|]. exists b. split; [exact H|]. split; [exact Eb|]. apply orb_true_iff in K as [K|K]; apply seqb_eq in K; auto.
    + intros [_ [b [H [Eb K]]]]. exists b. split; [exact Eb|]. apply filter_In. split; [exact H|]. apply orb_true_iff. destruct K as [K|K]; [left|right]; apply seqb_eq, K.
  - split; [intros []|]. intros [[b [H K]] _]. exfalso. assert (X : existsb (fun b => seqb (b_name b) x) repo = true) by (apply existsb_exists; exists b; split; [exact H|apply seqb_eq, K]). congruence.
Qed.
Lemma added_wanted repo groups p : added repo groups p = true <-> wanted repo groups p.
Proof.
  unfold added, wanted. rewrite existsb_exists. split.
  - intros [b [H K]]. apply andb_true_iff in K as [K1 K2]. apply seqb_eq in K1. exists b. split; [exact H|]. split; [exact K1|]. apply orb_true_iff in K2 as [K2|K2]; [|right; apply smem_In, K2].
    apply andb_true_iff in K2 as [A B]. left. split; [destruct (b_group b); [reflexivity|discriminate A]|destruct (b_nls b); [reflexivity|discriminate B]].
  - intros [b [H [E K]]]. exists b. split; [exact H|]. apply andb_true_iff. split; [apply seqb_eq, E|]. apply orb_true_iff. destruct K as [[A B]|K]; [left; rewrite A, B; reflexivity|right; apply smem_In, K].
Qed.
Lemma port_archives_In repo groups x p : In p (port_archives repo groups x) <-> available repo x /\ made_with repo x p /\ wanted repo groups p.
Proof. unfold port_archives. rewrite filter_In, group_files_In, added_wanted. tauto. Qed.

(** ** C70 *)
(** The ports installed before the build of [n]: no port twice, exactly the ports [n] depends on directly or indirectly, each after
    everything it depends on itself. Partial: nothing [n] reaches is on a cycle, and the recipes name ports by their plain names. *)
Theorem C70_order_partial : forall l s n, tree l = Some s -> In n (map fst l) -> (forall c, chain (needs l) n c -> ~ on_cycle l c) ->
  (forall m e, writes l m e -> ~ In "."%char e /\ In e (map fst l)) ->
  NoDup (build_deps s n) /\
  (forall x, In x (build_deps s n) <-> chain (needs l) n x /\ x <> n) /\
  (forall x d, In x (build_deps s n) -> needs l x d -> exists a b c, build_deps s n = a ++ d :: b ++ x :: c).
Proof.
  intros l s n T I A P. pose proof (acyclic_done l s n T I A) as D.
  assert (M : forall x, In x (build_deps s n) <-> chain (needs l) n x /\ x <> n).
  { intro x. rewrite build_deps_In, (dep_list_spec l s n T), (plain_writes l P). split.
    - intros [H Lt]. split; [exact H|]. intros ->. lia.
    - intros [H N]. split; [exact H|]. inversion H as [|? d ? Hd K]; subst; [contradiction|]. destruct (done_dep l s n d T D Hd) as [Dd L1]. destruct (done_chain l s d x T K Dd) as [_ L2]. lia. }
  split; [apply NoDup_levels|]. split; [exact M|]. intros x d Hx H. pose proof Hx as Hx'. apply M in Hx as [Cx Nx]. destruct (done_chain l s n x T Cx D) as [Dx _]. destruct (done_dep l s x d T Dx H) as [Dd Lt].
  apply order_levels; [|exact Hx'|exact Lt]. apply M. split; [apply (chain_trans _ n x d Cx), (chain_step _ x d d H), chain_refl|]. intros ->. apply (A n (chain_refl _ n)). inversion Cx as [|? e ? He K]; subst; [contradiction|].
  exists e. split; [exact He|]. apply (chain_trans _ e x n K). apply (chain_step _ x n n H), chain_refl.
Qed.
(** The archives added: those of the ports [n] depends on that the user wants; the archives of a port come after the archives of
    every port it depends on. *)
Theorem C70_archives_partial : forall l s n repo groups, tree l = Some s -> In n (map fst l) -> (forall c, chain (needs l) n c -> ~ on_cycle l c) ->
  (forall m e, writes l m e -> ~ In "."%char e /\ In e (map fst l)) ->
  (forall p, In p (build_archives s repo groups n) <-> exists x, chain (needs l) n x /\ x <> n /\ available repo x /\ made_with repo x p /\ wanted repo groups p) /\
  (forall x d, chain (needs l) n x -> x <> n -> needs l x d -> exists a b c dl xl, build_archives s repo groups n = a ++ dl ++ b ++ xl ++ c /\
     (forall p, In p dl <-> available repo d /\ made_with repo d p /\ wanted repo groups p) /\
     (forall p, In p xl <-> available repo x /\ made_with repo x p /\ wanted repo groups p)).
Proof.
  intros l s n repo groups T I A P. destruct (C70_order_partial l s n T I A P) as (_ & M & O). unfold build_archives. rewrite before_all by (rewrite M; tauto). split.
  - intro p. rewrite in_flat_map. split.
    + intros [x [H K]]. apply M in H as [H N]. apply port_archives_In in K as (K1 & K2 & K3). exists x. auto.
    + intros [x (H & N & K1 & K2 & K3)]. exists x. split; [apply M; auto|apply port_archives_In; auto].
  - intros x d H N K. destruct (O x d (proj2 (M x) (conj H N)) K) as (a & b & c & E). rewrite E. rewrite flat_map_app. cbn [flat_map]. rewrite flat_map_app. cbn [flat_map].
    exists (flat_map (port_archives repo groups) a), (flat_map (port_archives repo groups) b), (flat_map (port_archives repo groups) c), (port_archives repo groups d), (port_archives repo groups x).
    split; [reflexivity|]. split; intro p; apply port_archives_In.
Qed.
(** A port on a cycle, or depending on one, is built with none of its dependencies. *)
Theorem C70_cycle_refuted : forall l s n c, tree l = Some s -> chain (needs l) n c -> on_cycle l c -> build_deps s n = [].
Proof. intros l s n c T H K. unfold build_deps. rewrite (C25_cycle_refuted l s n c T H K). reflexivity. Qed.
(** A dependency written with the suffix of a group (b.lib): level 0, so it is installed first of all and what b needs not at all. *)
Definition suffix_ports : list (str * list str) := [(L "a", [L "b.lib"]); (L "b", [L "c"]); (L "c", [])].
Theorem C70_suffix_refuted : exists s, tree suffix_ports = Some s /\ needs suffix_ports (L "a") (L "b") /\ needs suffix_ports (L "b") (L "c") /\ build_deps s (L "a") = [L "b.lib"].
Proof.
  eexists. split; [vm_compute; reflexivity|]. split; [|split; [|vm_compute; reflexivity]].
  - exists [L "b.lib"], (L "b.lib"). split; [exists [], (skipn 1 suffix_ports); split; [reflexivity|intro H; vm_compute in H; repeat (destruct H as [H|H]; [discriminate H|]); destruct H]|].
    split; [left; reflexivity|]. split; [apply designates_cut; reflexivity|]. split; [vm_compute; tauto|discriminate].
  - exists [L "c"], (L "c"). split; [exists (firstn 1 suffix_ports), (skipn 2 suffix_ports); split; [reflexivity|intro H; vm_compute in H; repeat (destruct H as [H|H]; [discriminate H|]); destruct H]|].
    split; [left; reflexivity|]. split; [apply designates_cut; reflexivity|]. split; [vm_compute; tauto|discriminate].
Qed.
(** A package made for a language and in no group (archive.cxx:289-308) is never added, whatever groups are configured. *)
Theorem C70_language_never : forall repo groups p, (forall b, In b repo -> b_path b = p -> b_group b = [] /\ b_nls b <> []) -> ~ In [] groups -> ~ wanted repo groups p.
Proof. intros repo groups p H G [b [I [E [[_ K]|K]]]]; destruct (H b I E) as [A B]; [contradiction|]. rewrite A in K. contradiction. Qed.

(** ** the hypotheses are met *)
Definition ok_ports : list (str * list str) := [(L "a", [L "b"; L "c"]); (L "b", [L "c"]); (L "c", []); (L "d", [L "a"])].
Definition ok_repo : list bin :=
  [Bin (L "b") (L "b") (L "/r/b.tar") [] []; Bin (L "b.lib") (L "b") (L "/r/b.lib.tar") (L "lib") []; Bin (L "b.doc") (L "b") (L "/r/b.doc.tar") (L "doc") [];
   Bin (L "b.fr") (L "b") (L "/r/b.fr.tar") [] (L "fr"); Bin (L "c") (L "c") (L "/r/c.tar") [] []].
Lemma ok_writes m e : writes ok_ports m e -> In (m, e) [(L "a", L "b"); (L "a", L "c"); (L "b", L "c"); (L "d", L "a")].
Proof.
  intros [ds [[a [b [E _]]] I]]. assert (H : In (m, ds) ok_ports) by (rewrite E; apply in_app_iff; right; left; reflexivity).
  destruct H as [H|[H|[H|[H|[]]]]]; injection H as <- <-; cbn [In] in I; repeat (destruct I as [<-|I]; [cbn [In]; tauto|]); destruct I.
Qed.
Example C70_witness : exists s, tree ok_ports = Some s /\ (forall c, chain (needs ok_ports) (L "a") c -> ~ on_cycle ok_ports c) /\
  (forall m e, writes ok_ports m e -> ~ In "."%char e /\ In e (map fst ok_ports)) /\
  build_deps s (L "a") = [L "c"; L "b"] /\ build_archives s ok_repo [L "lib"] (L "a") = [L "/r/c.tar"; L "/r/b.lib.tar"; L "/r/b.tar"].
Proof.
  eexists. split; [vm_compute; reflexivity|].
  assert (W : forall m e, writes ok_ports m e -> ~ In "."%char e /\ In e (map fst ok_ports)).
  { intros m e H. apply ok_writes in H. destruct H as [H|[H|[H|[H|[]]]]]; injection H as <- <-; (split; [intro K; vm_compute in K; repeat (destruct K as [K|K]; [discriminate K|]); destruct K|vm_compute; tauto]). }
  split; [|split; [exact W|split; vm_compute; reflexivity]].
  intros c _ [d [H K]]. 
  set (rk := fun x : str => if seqb x (L "d") then 3 else if seqb x (L "a") then 2 else if seqb x (L "b") then 1 else 0).
  assert (R : forall x y, needs ok_ports x y -> rk y < rk x).
  { intros x y [ds [e (Rc & Ie & De & _ & _)]]. assert (X : writes ok_ports x e) by (exists ds; auto). destruct (W x e X) as [Nd _]. apply ok_writes in X. destruct De as [[<- _]|[z [-> _]]]; [|exfalso; apply Nd, in_app_iff; right; left; reflexivity].
    destruct X as [X|[X|[X|[X|[]]]]]; injection X as <- <-; vm_compute; lia. }
  assert (C : forall x y, chain (needs ok_ports) x y -> rk y <= rk x) by (intros x y Q; induction Q as [|x z y Q1 Q2 IH]; [lia|pose proof (R x z Q1); lia]).
  pose proof (R c d H). pose proof (C d c K). lia.
Qed.
