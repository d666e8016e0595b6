(** C71-C73: the listings of a ports tree: 'cards level' (level.cxx), the order in which a collection is built (pkgfile.cxx:293-325),
    'cards deptree' (deptree.cxx), 'cards dependent' (dependent.cxx).
    Simplifications: an output is a list of tuples instead of text; [coll] gives the collection of a port. *)
From Verif Require Import Base BaseProofs StrModel StrProofs Graph PortsModel PortsProofs PortsProps.
From Coq Require Import ZArith Lia.

(** ** model *)
Definition at_level (s : ports) (k : nat) : list str := filter (fun n => level_of s n =? k) (keys s).
(** level.cxx:8-26: level by level until one is empty; None: still running *)
Fixpoint print_levels (fuel k : nat) (s : ports) : option (list (nat * str)) :=
  match fuel with
  | 0 => None
  | S f => match at_level s k with
           | [] => Some []
           | l => option_map (app (map (pair k) l)) (print_levels f (S k) s)
           end
  end.
Definition level_lines (s : ports) : option (list (nat * str)) := print_levels (S (length s)) 0 s.
(** pkgfile.cxx:52-80: m_badDependencies: the name looked for and the port *)
Definition bad_deps (s : ports) : list (str * str) :=
  flat_map (fun e => map (fun d => (d, fst e)) (filter (fun d => negb (smem d (keys s))) (map dep_port (q_deps (snd e))))) s.
(** pkgfile.cxx:298-313: levelMax *)
Fixpoint first_gap (fuel k : nat) (s : ports) : option nat :=
  match fuel with 0 => None | S f => match at_level s k with [] => Some k | _ => first_gap f (S k) s end end.
(** pkgfile.cxx:314-324; the vector is empty at the first call, and 'cards create' calls it once *)
Definition of_coll (coll : str -> str) (c : str) (s : ports) (k : nat) : list str := filter (fun n => seqb (coll n) c) (at_level s k).
Definition coll_order (coll : str -> str) (c : str) (s : ports) : option (list str) :=
  option_map (fun m => flat_map (of_coll coll c s) (seq 0 (S m))) (first_gap (S (length s)) 0 s).
(** deptree.cxx:4-30: the lines (depth, name, "-->") and m_list; a dependency on itself ends the loop over the dependencies *)
Definition line := (nat * str * bool)%type.
Fixpoint before_self (n : str) (l : list str) : list str := match l with [] => [] | x :: t => if seqb x n then [] else x :: before_self n t end.
Definition has_deps (s : ports) (n : str) : bool := match raw_deps s n with [] => false | _ => true end.
Fixpoint dtree (s : ports) (fuel : nat) (n : str) (depth : nat) (st : list str * list line) : list str * list line :=
  let '(v, out) := st in
  if smem n v then (v, out ++ [(depth, n, has_deps s n)])
  else match fuel with
       | 0 => st
       | S f => fold_left (fun st d => dtree s f d (S depth) st) (before_self n (raw_deps s n)) (v ++ [n], out ++ [(depth, n, false)])
       end.
Definition deptree_lines (s : ports) (n : str) : list line := snd (dtree s (S (S (length (names_of s)))) n 0 ([], [])).
(** dependent.cxx:5-19: the ports shown (the text adds collection, version and release) *)
Definition dependents (s : ports) (n : str) : list str := set_of (map fst (filter (fun e => existsb (seqb n) (q_deps (snd e))) s)).

(** ** levels are filled without gaps *)
Lemma level_pred l s n k : tree l = Some s -> level_of s n = S k -> exists d, needs l n d /\ level_of s d = k.
Proof.
  intros T E. unfold level_of in E. destruct (mget n s) as [q|] eqn:G; [|discriminate E]. destruct (tree_end l s T) as [lv [V _]].
  destruct (Z.lt_ge_cases (q_count q) 0) as [Q|Q].
  - destruct (v_done _ _ V n q G Q) as [_ [_ [_ P]]]. destruct P as [P|[d [r [Id [Gr Lr]]]]]; [lia|]. exists d. split; [apply (idx_spec l s n q T G), Id|]. unfold level_of. rewrite Gr. lia.
  - destruct (v_open _ _ V n q G Q) as [_ [P _]]. lia.
Qed.
Lemma at_level_In l s k n : tree l = Some s -> In n (at_level s k) <-> In n (map fst l) /\ level_of s n = k.
Proof.
  intro T. unfold at_level. rewrite filter_In, Nat.eqb_eq. destruct (tree_end l s T) as [lv [_ [K _]]]. rewrite K, read_keys. tauto.
Qed.
Lemma level_below l s n k : tree l = Some s -> In n (map fst l) -> k <= level_of s n -> exists m, In m (at_level s k).
Proof.
  intros T. remember (level_of s n) as j eqn:J. revert n J. induction j as [|j IH]; intros n J I Le.
  - exists n. apply (at_level_In l s k n T). split; [exact I|lia].
  - destruct (Nat.eq_dec k (S j)) as [->|N]; [exists n; apply (at_level_In l s _ n T); auto|]. symmetry in J. destruct (level_pred l s n j T J) as [d [H E]]. apply (IH d); [auto|exact (needs_dst l n d H)|lia].
Qed.
Lemma gap_end l s fuel : tree l = Some s -> forall k m, first_gap fuel k s = Some m -> k <= m /\ at_level s m = [] /\ forall j, k <= j < m -> at_level s j <> [].
Proof.
  intro T. induction fuel as [|f IH]; intros k m E; cbn [first_gap] in E; [discriminate E|]. destruct (at_level s k) as [|x t] eqn:A.
  - injection E as <-. split; [lia|]. split; [exact A|]. intros j J. lia.
  - destruct (IH (S k) m E) as (B & C & D). split; [lia|]. split; [exact C|]. intros j J. destruct (Nat.eq_dec j k) as [->|N]; [rewrite A; discriminate|apply D; lia].
Qed.
(** every level used is inhabited, so there are at most as many levels as ports *)
Lemma levels_count s : forall m, (forall j, j < m -> at_level s j <> []) -> m <= length s.
Proof.
  intros m H. assert (G : exists ns : list str, length ns = m /\ NoDup ns /\ incl ns (keys s) /\ forall n, In n ns -> level_of s n < m).
  { induction m as [|m IH]; [exists []; split; [reflexivity|]; split; [constructor|]; split; intros x []|]. destruct IH as (ns & A & B & C & D); [intros j J; apply H; lia|].
    destruct (at_level s m) as [|x t] eqn:E; [exfalso; apply (H m); [lia|exact E]|]. assert (I : In x (at_level s m)) by (rewrite E; left; reflexivity). apply filter_In in I as [I1 I2]. apply Nat.eqb_eq in I2.
    exists (x :: ns). split; [cbn; lia|]. split; [constructor; [intro K; apply D in K; lia|exact B]|]. split; [intros y [<-|K]; [exact I1|apply C, K]|]. intros y [<-|K]; [lia|apply D in K; lia]. }
  destruct G as (ns & A & B & C & _). rewrite <- A. unfold keys in C. rewrite <- (map_length fst s). apply NoDup_incl_length; assumption.
Qed.
Lemma gap_total s : forall fuel k, (forall j, j < k -> at_level s j <> []) -> length s < fuel + k -> exists m, first_gap fuel k s = Some m.
Proof.
  induction fuel as [|f IH]; intros k P L.
  - exfalso. pose proof (levels_count s k P). lia.
  - cbn [first_gap]. destruct (at_level s k) as [|x t] eqn:A; [eauto|]. apply IH; [|lia]. intros j J. destruct (Nat.eq_dec j k) as [->|N]; [rewrite A; discriminate|apply P; lia].
Qed.
Lemma gap_all l s m n : tree l = Some s -> first_gap (S (length s)) 0 s = Some m -> In n (map fst l) -> level_of s n < m.
Proof.
  intros T E I. destruct (gap_end l s _ T 0 m E) as (_ & A & _). destruct (Nat.lt_ge_cases (level_of s n) m) as [L|L]; [exact L|]. exfalso. destruct (level_below l s n m T I L) as [x H]. rewrite A in H. destruct H.
Qed.
Lemma print_gap s : forall fuel k m, first_gap fuel k s = Some m -> print_levels fuel k s = Some (flat_map (fun j => map (pair j) (at_level s j)) (seq k (m - k))) /\ k <= m.
Proof.
  induction fuel as [|f IH]; intros k m E; cbn [first_gap print_levels] in *; [discriminate E|]. destruct (at_level s k) as [|x t] eqn:A.
  - injection E as <-. rewrite Nat.sub_diag. split; [reflexivity|lia].
  - destruct (IH (S k) m E) as [P L]. rewrite P. cbn [option_map]. split; [|lia]. f_equal. replace (m - k) with (S (m - S k)) by lia. cbn [seq flat_map]. rewrite A. reflexivity.
Qed.
Lemma NoDup_split_app {A} (a b : list A) : NoDup a -> (forall x, In x a -> ~ In x b) -> NoDup b -> NoDup (a ++ b).
Proof.
  intros Na D Nb. induction a as [|x t IH]; cbn [app]; [exact Nb|]. inversion Na as [|? ? Hx Ht]; subst. constructor.
  - rewrite in_app_iff. intros [H|H]; [contradiction|]. exact (D x (or_introl eq_refl) H).
  - apply IH; [exact Ht|]. intros y H. apply D. right. exact H.
Qed.
Lemma NoDup_by_level {A} (g : nat -> list A) (lv : A -> nat) : (forall k, NoDup (g k)) -> (forall k x, In x (g k) -> lv x = k) -> forall len from, NoDup (flat_map g (seq from len)).
Proof.
  intros N H. induction len as [|len IH]; intro from; cbn [seq flat_map]; [constructor|]. apply NoDup_split_app; [apply N| |apply IH]. intros x I K. apply in_flat_map in K as [k [K1 K2]]. apply H in I, K2. apply in_seq in K1. lia.
Qed.
Lemma at_level_NoDup l s k : tree l = Some s -> NoDup (at_level s k).
Proof. intro T. destruct (tree_end l s T) as [lv [V _]]. apply NoDup_filter, ssorted_NoDup, (v_sorted _ _ V). Qed.
Lemma ordered_levels {A} (g : nat -> list A) (lv : A -> nat) len d x : (forall k y, In y (g k) -> lv y = k) -> In d (flat_map g (seq 0 len)) -> In x (flat_map g (seq 0 len)) -> lv d < lv x ->
  exists a b c, flat_map g (seq 0 len) = a ++ d :: b ++ x :: c.
Proof.
  intros H Hd Hx Lt. apply in_flat_map in Hd as [i [Ii Hd]], Hx as [j [Ij Hx]]. pose proof (H i d Hd) as Ei. pose proof (H j x Hx) as Ej. subst i j. apply in_seq in Ii, Ij.
  assert (E : seq 0 len = seq 0 (lv d) ++ lv d :: seq (S (lv d)) (lv x - S (lv d)) ++ lv x :: seq (S (lv x)) (len - S (lv x))).
  { replace len with (lv d + S ((lv x - S (lv d)) + S (len - S (lv x)))) at 1 by lia. rewrite seq_app. f_equal. cbn [seq Nat.add]. f_equal. rewrite seq_app. f_equal. cbn [seq]. replace (S (lv d) + (lv x - S (lv d))) with (lv x) by lia. reflexivity. }
  rewrite E. rewrite flat_map_app. cbn [flat_map]. rewrite flat_map_app. cbn [flat_map]. apply in_split in Hd as [d1 [d2 Ed]], Hx as [x1 [x2 Ex]]. rewrite Ed, Ex.
  exists (flat_map g (seq 0 (lv d)) ++ d1), (d2 ++ flat_map g (seq (S (lv d)) (lv x - S (lv d))) ++ x1), (x2 ++ flat_map g (seq (S (lv x)) (len - S (lv x)))). repeat rewrite <- app_assoc. reflexivity.
Qed.

(** ** C71 *)
(** 'cards level' ends, and shows every port exactly once, with its level, the levels ascending. *)
Theorem C71_levels : forall l s, tree l = Some s -> exists out, level_lines s = Some out /\ NoDup (map snd out) /\
  (forall k n, In (k, n) out <-> In n (map fst l) /\ level_of s n = k) /\
  (forall a k n b k' n' c, out = a ++ (k, n) :: b ++ (k', n') :: c -> k <= k').
Proof.
  intros l s T. destruct (gap_total s (S (length s)) 0) as [m E]; [intros j J; lia|lia|]. destruct (print_gap s _ 0 m E) as [P _]. rewrite Nat.sub_0_r in P. exists (flat_map (fun j => map (pair j) (at_level s j)) (seq 0 m)). split; [exact P|].
  assert (M : forall k n, In (k, n) (flat_map (fun j => map (pair j) (at_level s j)) (seq 0 m)) <-> In n (map fst l) /\ level_of s n = k).
  { intros k n. rewrite in_flat_map. split.
    - intros [j [_ H]]. apply in_map_iff in H as [x [Ex Hx]]. injection Ex as -> ->. apply (at_level_In l s k n T), Hx.
    - intros [I K]. exists k. split; [apply in_seq; pose proof (gap_all l s m n T E I); lia|]. apply in_map_iff. exists n. split; [reflexivity|]. apply (at_level_In l s k n T). auto. }
  split; [|split; [exact M|]].
  - rewrite flat_map_concat_map, concat_map, map_map, <- flat_map_concat_map. apply (NoDup_by_level _ (level_of s)).
    + intro k. rewrite map_map, map_id. apply (at_level_NoDup l s k T).
    + intros k x H. rewrite map_map, map_id in H. apply (at_level_In l s k x T) in H. tauto.
  - clear. generalize 0 as f. induction m as [|m IH]; intros f a k n b k' n' c E; cbn [seq flat_map] in E; [destruct a; discriminate E|].
    assert (G : forall x y, In (x, y) (map (pair f) (at_level s f)) -> x = f) by (intros x y H; apply in_map_iff in H as [z [Ez _]]; congruence).
    assert (G2 : forall x y, In (x, y) (flat_map (fun j => map (pair j) (at_level s j)) (seq (S f) m)) -> S f <= x) by (intros x y H; apply in_flat_map in H as [j [J H]]; apply in_map_iff in H as [z [Ez _]]; injection Ez as <- _; apply in_seq in J; lia).
    set (X := map (pair f) (at_level s f)) in *. clearbody X. revert a E. induction X as [|[x y] t IHt]; intros a E; cbn [app] in E.
    + exact (IH (S f) a k n b k' n' c E).
    + destruct a as [|e a]; cbn [app] in E.
      * injection E as -> -> E. assert (k = f) by (apply (G k n); left; reflexivity). subst k. assert (I : In (k', n') (t ++ flat_map (fun j => map (pair j) (at_level s j)) (seq (S f) m))) by (rewrite E; apply in_app_iff; right; left; reflexivity).
        apply in_app_iff in I as [I|I]; [rewrite (G k' n' (or_intror I)); lia|apply G2 in I; lia].
      * injection E as _ E. apply (IHt (fun x0 y0 H => G x0 y0 (or_intror H)) a E).
Qed.
(** and then a warning for every dependency that designates no port, and for no other *)
Theorem C71_warnings : forall l s, tree l = Some s -> forall d n, In (d, n) (bad_deps s) <-> exists ds e, recipe l n ds /\ In e ds /\ designates e d /\ ~ In d (map fst l).
Proof.
  intros l s T d n. unfold bad_deps. rewrite in_flat_map. destruct (tree_end l s T) as [lv [V [K _]]]. split.
  - intros [[x q] [I H]]. apply in_map_iff in H as [y [Ey H]]. cbn [fst snd] in *. injection Ey as -> ->. apply filter_In in H as [H N]. apply in_map_iff in H as [e [De He]]. apply negb_true_iff in N.
    assert (G : mget n s = Some q) by (apply In_mget; [exact (ssorted_NoDup _ (v_sorted _ _ V))|exact I]).
    assert (W : writes l n e) by (apply (raw_spec l s T); unfold raw_deps; rewrite G; exact He). destruct W as [ds [R Ie]]. exists ds, e. split; [exact R|]. split; [exact Ie|]. split; [apply designates_cut, De|]. rewrite <- read_keys, <- K, <- smem_In. congruence.
  - intros (ds & e & R & Ie & De & N). assert (W : In e (raw_deps s n)) by (apply (raw_spec l s T); exists ds; auto). unfold raw_deps in W. destruct (mget n s) as [q|] eqn:G; [|destruct W]. exists (n, q). split; [apply mget_In, G|].
    apply in_map_iff. exists d. split; [reflexivity|]. apply filter_In. split; [apply in_map_iff; exists e; split; [apply designates_cut, De|exact W]|]. apply negb_true_iff. destruct (smem d (keys s)) eqn:B; [|reflexivity]. exfalso. apply N. apply smem_In in B. rewrite K, read_keys in B. exact B.
Qed.
(** A collection is built completely, no port twice, each port after the ports of the collection it depends on,
    directly or indirectly. *)
Theorem C71_collection : forall l s coll c, tree l = Some s -> exists out, coll_order coll c s = Some out /\ NoDup out /\
  (forall n, In n out <-> In n (map fst l) /\ coll n = c) /\
  (forall n d, In n out -> In d out -> chain (needs l) n d -> d <> n -> (forall x, chain (needs l) n x -> ~ on_cycle l x) -> exists a b e, out = a ++ d :: b ++ n :: e).
Proof.
  intros l s coll c T. destruct (gap_total s (S (length s)) 0) as [m E]; [intros j J; lia|lia|]. unfold coll_order. rewrite E. cbn [option_map]. eexists. split; [reflexivity|].
  assert (Lv : forall k y, In y (of_coll coll c s k) -> level_of s y = k) by (intros k y H; apply filter_In in H as [H _]; apply (at_level_In l s k y T) in H; tauto).
  split; [apply (NoDup_by_level _ (level_of s)); [intro k; apply NoDup_filter, (at_level_NoDup l s k T)|exact Lv]|]. split.
  - intro n. rewrite in_flat_map. split.
    + intros [k [_ H]]. apply filter_In in H as [H B]. apply (at_level_In l s k n T) in H. apply seqb_eq in B. tauto.
    + intros [I B]. exists (level_of s n). split; [apply in_seq; pose proof (gap_all l s m n T E I); lia|]. apply filter_In. split; [apply (at_level_In l s _ n T); auto|apply seqb_eq, B].
  - intros n d Hn Hd H Nd A. apply (ordered_levels _ (level_of s)); [exact Lv|exact Hd|exact Hn|]. inversion H as [|? z ? H1 H2]; subst; [contradiction|].
    destruct (done_dep l s n z T) as [Dz Lz]; [apply (acyclic_done l s n T); [exact (needs_src l n z H1)|exact A]|exact H1|]. pose proof (proj2 (done_chain l s z d T H2 Dz)). lia.
Qed.
Example C71_witness : exists s, tree ex_tree = Some s /\ level_lines s = Some [(0, L "glibc"); (0, L "x"); (0, L "y"); (0, L "z"); (1, L "zlib"); (2, L "openssl"); (3, L "curl")] /\
  bad_deps s = [(L "absent", L "curl")] /\ coll_order (fun n => if seqb n (L "zlib") then L "base" else L "cli") (L "cli") s = Some [L "glibc"; L "x"; L "y"; L "z"; L "openssl"; L "curl"].
Proof. eexists. split; [vm_compute; reflexivity|]. split; [vm_compute; reflexivity|]. split; vm_compute; reflexivity. Qed.

(** ** C73 *)
(** 'cards dependent' shows exactly the ports whose recipe writes that name *)
Theorem C73_dependents : forall l s n, tree l = Some s -> forall x, In x (dependents s n) <-> writes l x n.
Proof.
  intros l s n T x. unfold dependents. rewrite set_of_In, in_map_iff, <- (raw_spec l s T). destruct (tree_end l s T) as [lv [V _]]. unfold raw_deps. split.
  - intros [[y q] [Ey H]]. cbn [fst] in Ey. subst y. apply filter_In in H as [I H]. cbn [snd] in H. rewrite (In_mget x q s (ssorted_NoDup _ (v_sorted _ _ V)) I). apply existsb_exists in H as [z [Iz B]]. apply seqb_eq in B. subst z. exact Iz.
  - destruct (mget x s) as [q|] eqn:G; [|intros []]. intro H. exists (x, q). split; [reflexivity|]. apply filter_In. split; [apply mget_In, G|]. apply existsb_exists. exists n. split; [exact H|apply seqb_refl].
Qed.
(** so a port that depends on n through one of its groups (n.lib) is not shown *)
Theorem C73_suffix_refuted : exists s, tree [(L "a", [L "b.lib"]); (L "b", [])] = Some s /\ needs [(L "a", [L "b.lib"]); (L "b", [])] (L "a") (L "b") /\ dependents s (L "b") = [].
Proof.
  eexists. split; [vm_compute; reflexivity|]. split; [|vm_compute; reflexivity]. exists [L "b.lib"], (L "b.lib"). split; [exists [], [(L "b", [])]; split; [reflexivity|intro H; vm_compute in H; repeat (destruct H as [H|H]; [discriminate H|]); destruct H]|].
  split; [left; reflexivity|]. split; [apply designates_cut; reflexivity|]. split; [vm_compute; tauto|discriminate].
Qed.
(** when the recipes name ports by their plain names: exactly the ports that depend on it *)
Theorem C73_plain_partial : forall l s n, tree l = Some s -> In n (map fst l) -> (forall m e, writes l m e -> ~ In "."%char e) -> forall x, x <> n -> (In x (dependents s n) <-> needs l x n).
Proof.
  intros l s n T I P x N. rewrite (C73_dependents l s n T). split.
  - intros [ds [R H]]. exists ds, n. split; [exact R|]. split; [exact H|]. split; [left; split; [reflexivity|apply (P x n); exists ds; auto]|]. auto.
  - intros (ds & e & R & H & De & _). exists ds. split; [exact R|]. destruct De as [[-> _]|[y [-> _]]]; [exact H|]. exfalso. apply (P x (n ++ "."%char :: y)); [exists ds; auto|]. apply in_app_iff. right. left. reflexivity.
Qed.

(** ** C72 *)
(** a chain of [k] dependencies *)
Inductive path (R : str -> str -> Prop) : nat -> str -> str -> Prop :=
| path_here n : path R 0 n n
| path_step k n d m : R n d -> path R k d m -> path R (S k) n m.
Section Dtree.
  Variable s : ports.
  Let deps (n : str) : list str := before_self n (raw_deps s n).
  Variable U : list str.
  Hypothesis closed : forall n d, In n U -> In d (deps n) -> In d U.
  Definition edges (ns : list str) : nat := fold_right (fun x a => length (deps x) + a) 0 ns.
  Lemma edges_app a b : edges (a ++ b) = edges a + edges b.
  Proof. unfold edges. induction a as [|x t IH]; cbn [app fold_right]; [reflexivity|]. rewrite IH. lia. Qed.
  Definition edge (n d : str) : Prop := In d (deps n).
  (** what one call adds *)
  Definition adds (n : str) (depth : nat) (v v' : list str) (out out' : list line) : Prop := exists nv ls, v' = v ++ nv /\ out' = out ++ ls /\ NoDup nv /\ (forall x, In x nv -> ~ In x v) /\ In n v' /\
    (forall k x b, In (k, x, b) ls -> exists j, k = depth + j /\ path edge j n x /\ In x v') /\
    (forall x, In x nv -> (exists k b, In (k, x, b) ls) /\ forall e, In e (deps x) -> In e v' /\ exists k b b', In (k, x, b) ls /\ In (S k, e, b') ls) /\
    length ls = 1 + edges nv /\ (exists b, In (depth, n, b) ls).
  Lemma left_snoc v n : In n U -> smem n v = false -> left U (v ++ [n]) < left U v.
  Proof.
    intros I H. pose proof (left_less U v n I H) as L1. pose proof (left_mono U (sins n v) (v ++ [n])) as L2. assert (incl (sins n v) (v ++ [n])) by (intros x X; apply sins_In in X as [->|X]; apply in_app_iff; [right; left; reflexivity|left; exact X]). specialize (L2 H0). lia.
  Qed.
  Lemma dtree_spec fuel : forall n depth v out, In n U -> left U v < fuel -> adds n depth v (fst (dtree s fuel n depth (v, out))) out (snd (dtree s fuel n depth (v, out))).
  Proof.
    induction fuel as [|f IH]; intros n depth v out I Lt; [lia|]. cbn [dtree]. destruct (smem n v) eqn:B.
    { cbn [fst snd]. exists [], [(depth, n, has_deps s n)]. split; [symmetry; apply app_nil_r|]. split; [reflexivity|]. split; [constructor|]. split; [intros x []|]. split; [apply smem_In, B|]. split.
      - intros k x b [E|[]]. injection E as <- <- _. exists 0. split; [lia|]. split; [apply path_here|apply smem_In, B].
      - split; [intros x []|]. split; [reflexivity|]. eexists. left. reflexivity. }
    assert (Bn : ~ In n v) by (intro K; apply smem_In in K; congruence).
    fold (deps n).
    assert (G : forall ds w o, (forall d, In d ds -> In d (deps n)) -> incl (v ++ [n]) w ->
      let st := fold_left (fun st d => dtree s f d (S depth) st) ds (w, o) in exists nv ls, fst st = w ++ nv /\ snd st = o ++ ls /\ NoDup nv /\ (forall x, In x nv -> ~ In x w) /\
      (forall d, In d ds -> In d (fst st) /\ exists b, In (S depth, d, b) ls) /\
      (forall k x b, In (k, x, b) ls -> exists j d, k = S depth + j /\ In d ds /\ path edge j d x /\ In x (fst st)) /\
      (forall x, In x nv -> (exists k b, In (k, x, b) ls) /\ forall e, In e (deps x) -> In e (fst st) /\ exists k b b', In (k, x, b) ls /\ In (S k, e, b') ls) /\
      length ls = length ds + edges nv).
    { induction ds as [|d t IHt]; intros w o Hd W; cbn [fold_left].
      - cbv zeta. exists [], []. cbn [fst snd]. rewrite !app_nil_r. split; [reflexivity|]. split; [reflexivity|]. split; [constructor|]. split; [intros x []|]. split; [intros x []|]. split; [intros k x b []|]. split; [intros x []|reflexivity].
      - assert (Id : In d U) by (apply (closed n); [exact I|apply Hd; left; reflexivity]).
        assert (Lw : left U w < f). { pose proof (left_mono U (v ++ [n]) w W). pose proof (left_snoc v n I B). lia. }
        pose proof (IH d (S depth) w o Id Lw) as A. destruct (dtree s f d (S depth) (w, o)) as [w1 o1]. cbn [fst snd] in A. destruct A as (nv1 & ls1 & Ew & Eo & N1 & D1 & In1 & P1 & X1 & C1 & F1).
        assert (W1 : incl (v ++ [n]) w1) by (intros x Hx; rewrite Ew; apply in_app_iff; left; apply W, Hx).
        specialize (IHt w1 o1 (fun x Hx => Hd x (or_intror Hx)) W1). cbv zeta in IHt. set (st := fold_left (fun st d0 => dtree s f d0 (S depth) st) t (w1, o1)) in *. cbv zeta.
        destruct IHt as (nv2 & ls2 & Ew2 & Eo2 & N2 & D2 & In2 & P2 & X2 & C2). exists (nv1 ++ nv2), (ls1 ++ ls2).
        assert (Sub : incl w1 (fst st)) by (rewrite Ew2; intros x Hx; apply in_app_iff; left; exact Hx).
        split; [rewrite Ew2, Ew, app_assoc; reflexivity|]. split; [rewrite Eo2, Eo, app_assoc; reflexivity|]. split.
        { apply NoDup_split_app; [exact N1| |exact N2]. intros x Hx Hx2. apply (D2 x Hx2). rewrite Ew. apply in_app_iff. right. exact Hx. }
        split. { intros x Hx. apply in_app_iff in Hx as [Hx|Hx]; [exact (D1 x Hx)|]. intro K. apply (D2 x Hx). rewrite Ew. apply in_app_iff. left. exact K. }
        split. { intros x [<-|Hx].
          - split; [apply Sub, In1|]. destruct F1 as [b Hb]. exists b. apply in_app_iff. left. exact Hb.
          - destruct (In2 x Hx) as [Y [b Hb]]. split; [exact Y|]. exists b. apply in_app_iff. right. exact Hb. }
        split. { intros k x b Hx. apply in_app_iff in Hx as [Hx|Hx].
          - destruct (P1 k x b Hx) as (j & Ej & Pj & Yj). exists j, d. split; [exact Ej|]. split; [left; reflexivity|]. split; [exact Pj|apply Sub, Yj].
          - destruct (P2 k x b Hx) as (j & d' & Ej & Id' & Pj & Yj). exists j, d'. split; [exact Ej|]. split; [right; exact Id'|]. auto. }
        split. { intros x Hx. apply in_app_iff in Hx as [Hx|Hx].
          - destruct (X1 x Hx) as [[k [b Y1]] Y2]. split; [exists k, b; apply in_app_iff; left; exact Y1|]. intros e He. destruct (Y2 e He) as [Z1 (k' & b1 & b2 & Z2 & Z3)]. split; [apply Sub, Z1|]. exists k', b1, b2. split; apply in_app_iff; left; assumption.
          - destruct (X2 x Hx) as [[k [b Y1]] Y2]. split; [exists k, b; apply in_app_iff; right; exact Y1|]. intros e He. destruct (Y2 e He) as [Z1 (k' & b1 & b2 & Z2 & Z3)]. split; [exact Z1|]. exists k', b1, b2. split; apply in_app_iff; right; assumption. }
        rewrite app_length, edges_app. cbn [length]. lia. }
    specialize (G (deps n) (v ++ [n]) (out ++ [(depth, n, false)]) (fun d H => H) (incl_refl _)). cbv zeta in G. set (st := fold_left (fun st d => dtree s f d (S depth) st) (deps n) (v ++ [n], out ++ [(depth, n, false)])) in *.
    destruct G as (nv & ls & Ev & Eo & N & D & In' & P & X & C). exists (n :: nv), ((depth, n, false) :: ls).
    split; [rewrite Ev, <- app_assoc; reflexivity|]. split; [rewrite Eo, <- app_assoc; reflexivity|]. split.
    { constructor; [|exact N]. intro K. apply (D n K). apply in_app_iff. right. left. reflexivity. }
    split. { intros x [<-|Hx]; [exact Bn|]. intro K. apply (D x Hx). apply in_app_iff. left. exact K. }
    split. { rewrite Ev. apply in_app_iff. left. apply in_app_iff. right. left. reflexivity. }
    split. { intros k x b [E|Hx].
      - injection E as <- <- _. exists 0. split; [lia|]. split; [apply path_here|]. rewrite Ev. apply in_app_iff. left. apply in_app_iff. right. left. reflexivity.
      - destruct (P k x b Hx) as (j & d & Ej & Id & Pj & Yj). exists (S j). split; [lia|]. split; [|exact Yj]. apply (path_step edge j n d x); [exact Id|exact Pj]. }
    split. { intros x [<-|Hx].
      - split; [exists depth, false; left; reflexivity|]. intros e He. destruct (In' e He) as [Y [b Hb]]. split; [exact Y|]. exists depth, false, b. split; [left; reflexivity|right; exact Hb].
      - destruct (X x Hx) as [[k [b Y1]] Y2]. split; [exists k, b; right; exact Y1|]. intros e He. destruct (Y2 e He) as [Z1 (k' & b1 & b2 & Z2 & Z3)]. split; [exact Z1|]. exists k', b1, b2. split; right; assumption. }
    split; [cbn [length edges fold_right]; fold (edges nv); lia|]. exists false. left. reflexivity.
  Qed.
End Dtree.
Lemma before_self_incl n l : incl (before_self n l) l.
Proof. induction l as [|x t IH]; cbn [before_self]; [intros y []|]. destruct (seqb x n); [intros y []|]. intros y [<-|H]; [left; reflexivity|right; apply IH, H]. Qed.
Lemma before_self_all n l : ~ In n l -> before_self n l = l.
Proof.
  induction l as [|x t IH]; intro N; cbn [before_self]; [reflexivity|]. destruct (seqb x n) eqn:E; [apply seqb_eq in E; subst x; exfalso; apply N; left; reflexivity|]. f_equal. apply IH. intro H. apply N. right. exact H.
Qed.
Lemma path_mono (R Q : str -> str -> Prop) : (forall a b, R a b -> Q a b) -> forall k a b, path R k a b -> path Q k a b.
Proof. intros H k a b P. induction P; [apply path_here|]. eapply path_step; eauto. Qed.
Lemma path_chain R k a b : path R k a b -> chain R a b.
Proof. intro P. induction P; [apply chain_refl|]. eapply chain_step; eauto. Qed.
Lemma deptree_adds s n : adds s n 0 [] (fst (dtree s (S (S (length (names_of s)))) n 0 ([], []))) [] (deptree_lines s n).
Proof.
  unfold deptree_lines. apply (dtree_spec s (n :: names_of s)).
  - intros a d _ H. right. apply before_self_incl in H. unfold raw_deps in H. destruct (mget a s) as [q|] eqn:G; [|destruct H]. unfold names_of. apply in_app_iff. right. apply in_flat_map. exists (a, q). split; [apply mget_In, G|exact H].
  - left. reflexivity.
  - unfold left. pose proof (filter_length_le (fun x => negb (smem x [])) (n :: names_of s)). cbn [length] in *. lia.
Qed.
(** Every line shown is a chain of dependencies of the length shown. *)
Theorem C72_depths : forall l s n, tree l = Some s -> forall k x b, In (k, x, b) (deptree_lines s n) -> path (writes l) k n x.
Proof.
  intros l s n T k x b H. destruct (deptree_adds s n) as (nv & ls & _ & E & _ & _ & _ & P & _). cbn [app] in E. rewrite E in H. destruct (P k x b H) as (j & -> & Pj & _). cbn [Nat.add]. revert Pj. apply path_mono. intros a d Ha. apply (raw_spec l s T). exact (before_self_incl a _ d Ha).
Qed.
(** When no port writes itself among its dependencies: every direct or indirect dependency is shown; below each name all its
    dependencies, one step deeper; each dependency of each port once. *)
Theorem C72_tree_partial : forall l s n, tree l = Some s -> (forall m, chain (writes l) n m -> ~ writes l m m) ->
  (forall x, (exists k b, In (k, x, b) (deptree_lines s n)) <-> chain (writes l) n x) /\
  (forall x e, chain (writes l) n x -> writes l x e -> exists k b b', In (k, x, b) (deptree_lines s n) /\ In (S k, e, b') (deptree_lines s n)) /\
  (exists ns, NoDup ns /\ (forall x, In x ns <-> chain (writes l) n x) /\ length (deptree_lines s n) = 1 + fold_right (fun x a => length (raw_deps s x) + a) 0 ns).
Proof.
  intros l s n T Ns. destruct (deptree_adds s n) as (nv & ls & Ev & E & N & _ & In0 & P & X & C & F). cbn [app] in Ev, E. rewrite E. rewrite Ev in In0, P, X.
  assert (Ch1 : forall x, In x nv -> chain (writes l) n x).
  { intros x H. destruct (X x H) as [[k [b Y]] _]. destruct (P k x b Y) as (j & _ & Pj & _). apply (path_chain _ j). revert Pj. apply path_mono. intros a d Ha. apply (raw_spec l s T). exact (before_self_incl a _ d Ha). }
  assert (B : forall x, In x nv -> before_self x (raw_deps s x) = raw_deps s x) by (intros x I; apply before_self_all; intro H; apply (Ns x (Ch1 x I)), (raw_spec l s T), H).
  assert (Ch : forall x, In x nv <-> chain (writes l) n x).
  { intro x. split; [apply Ch1|]. intro H. assert (G : forall a b, chain (writes l) a b -> In a nv -> In b nv). { intros a b Q. induction Q as [|a d b Q1 Q2 IH]; intro I; [exact I|]. apply IH. apply (proj2 (X a I)). rewrite (B a I). apply (raw_spec l s T), Q1. }
    exact (G n x H In0). }
  split; [|split].
  - intro x. split; [intros (k & b & H); destruct (P k x b H) as (_ & _ & _ & Y); apply Ch, Y|intro H; apply Ch in H; exact (proj1 (X x H))].
  - intros x e H W. apply Ch in H. apply (proj2 (X x H)). rewrite (B x H). apply (raw_spec l s T), W.
  - exists nv. split; [exact N|]. split; [exact Ch|]. rewrite C. f_equal. clear - B. unfold edges. induction nv as [|x t IH]; cbn [fold_right]; [reflexivity|]. rewrite (IH (fun y H => B y (or_intror H))), (B x (or_introl eq_refl)). reflexivity.
Qed.
(** A port that names itself among its dependencies: those sorted behind it are left out. *)
Theorem C72_self_refuted : exists s, tree [(L "a", []); (L "b", [L "a"; L "b"; L "c"]); (L "c", [])] = Some s /\ deptree_lines s (L "b") = [(0, L "b", false); (1, L "a", false)].
Proof. eexists. split; [vm_compute; reflexivity|]. vm_compute. reflexivity. Qed.
Definition ex_deep : list (str * list str) := [(L "a", [L "b"; L "c"]); (L "b", [L "c"]); (L "c", [L "d"]); (L "d", [])].
Example C72_witness : exists s, tree ex_deep = Some s /\ (forall m, ~ writes ex_deep m m) /\
  deptree_lines s (L "a") = [(0, L "a", false); (1, L "b", false); (2, L "c", false); (3, L "d", false); (1, L "c", true)].
Proof.
  eexists. split; [vm_compute; reflexivity|]. split; [|vm_compute; reflexivity]. intros m [ds [[a [b [E _]]] I]]. assert (H : In (m, ds) ex_deep) by (rewrite E; apply in_app_iff; right; left; reflexivity).
  destruct H as [H|[H|[H|[H|[]]]]]; injection H as <- <-; cbn [In] in I; repeat (destruct I as [I|I]; [discriminate I|]); destruct I.
Qed.
