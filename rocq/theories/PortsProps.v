(** C25, C26: build levels and the dependency listing of a ports tree.
    A ports tree is the list of recipes in the order they are read: name of the port, names it depends on. *)
From Verif Require Import Base BaseProofs StrModel StrProofs Graph PortsModel PortsProofs.
From Coq Require Import ZArith Lia.

(** ** specification *)
(** the recipe of [n]: the last one read under that name (two collections may hold a port of the same name) *)
Definition recipe (l : list (str * list str)) (n : str) (ds : list str) : Prop := exists a b, l = a ++ (n, ds) :: b /\ ~ In n (map fst b).
(** the dependency [e] written in a recipe designates the port [d]: foo.lib, foo.dev and foo all designate foo *)
Definition designates (e d : str) : Prop := (e = d /\ ~ In "."%char e) \/ exists x, e = d ++ "."%char :: x /\ ~ In "."%char x.
(** the port [n] depends on the port [d] *)
Definition needs (l : list (str * list str)) (n d : str) : Prop := exists ds e, recipe l n ds /\ In e ds /\ designates e d /\ In d (map fst l) /\ d <> n.
Inductive chain (R : str -> str -> Prop) : str -> str -> Prop :=
| chain_refl n : chain R n n
| chain_step n d m : R n d -> chain R d m -> chain R n m.
(** [n] is on a cycle of dependencies *)
Definition on_cycle l n : Prop := exists d, needs l n d /\ chain (needs l) d n.

(** ** proofs *)
Lemma designates_cut e d : designates e d <-> dep_port e = d.
Proof.
  unfold designates, dep_port. split.
  - intros [[-> H]|[x [-> H]]]; [apply get_value_before_last_none, H|apply get_value_before_last_found, H].
  - intro H. destruct (in_dec Ascii.ascii_dec "."%char e) as [I|N].
    + right. assert (G : exists a b, e = a ++ "."%char :: b /\ ~ In "."%char b).
      { clear H. induction e as [|c t IH]; [destruct I|]. destruct (in_dec Ascii.ascii_dec "."%char t) as [J|J].
        - destruct (IH J) as [a [b [E B]]]. exists (c :: a), b. split; [cbn; congruence|exact B].
        - destruct I as [->|I]; [|contradiction]. exists [], t. split; [reflexivity|exact J]. }
      destruct G as [a [b [-> B]]]. rewrite get_value_before_last_found in H by exact B. subst d. exists b. split; [reflexivity|exact B].
    + left. rewrite get_value_before_last_none in H by exact N. split; [exact H|exact N].
Qed.
Lemma read_keys l n : In n (keys (read_ports l)) <-> In n (map fst l).
Proof.
  unfold read_ports. assert (G : forall l m, In n (keys (fold_left (fun m e => mset (fst e) (fresh_port (set_of (snd e))) m) l m)) <-> In n (keys m) \/ In n (map fst l)).
  { clear. induction l as [|[k ds] t IH]; intro m; cbn [fold_left map fst snd].
    - split; [auto|intros [H|[]]; exact H].
    - rewrite IH, mset_keys, sins_In. cbn. split; [intros [[->|H]|H]; auto|intros [H|[->|H]]; auto]. }
  rewrite G. cbn. split; [intros [[]|H]; exact H|auto].
Qed.
Lemma read_get l n p : mget n (read_ports l) = Some p <-> exists ds, recipe l n ds /\ p = fresh_port (set_of ds).
Proof.
  unfold read_ports. induction l as [|[k ds] t IH] using rev_ind.
  - cbn. split; [discriminate|]. intros [ds [[a [b [E _]]] _]]. destruct a; discriminate.
  - rewrite fold_left_app. cbn [fold_left fst snd]. rewrite mget_mset. destruct (seqb n k) eqn:B.
    + apply seqb_eq in B. subst k. split.
      * intro E. injection E as <-. exists ds. split; [|reflexivity]. exists t, []. split; [reflexivity|intros []].
      * intros [ds' [[a [b [E N]]] ->]]. destruct b as [|e b _] using rev_ind.
        -- apply app_inj_tail in E as [_ E]. congruence.
        -- exfalso. rewrite app_comm_cons, app_assoc in E. apply app_inj_tail in E as [_ E]. subst e. apply N. rewrite map_app. apply in_app_iff. right. left. reflexivity.
    + apply seqb_neq in B. rewrite IH. split; intros [ds' [[a [b [E N]]] ->]]; exists ds'.
      * split; [|reflexivity]. exists a, (b ++ [(k, ds)]). split; [subst t; rewrite <- app_assoc; reflexivity|]. rewrite map_app, in_app_iff. cbn. intros [H|[H|[]]]; [contradiction|congruence].
      * split; [|reflexivity]. destruct b as [|e b _] using rev_ind.
        -- apply app_inj_tail in E as [_ E]. congruence.
        -- rewrite app_comm_cons, app_assoc in E. apply app_inj_tail in E as [E _]. exists a, b. split; [exact E|]. intro H. apply N. rewrite map_app. apply in_app_iff. left. exact H.
Qed.
(** the dependencies the program keeps for a port are those of the specification *)
Lemma idx_spec l s n q : tree l = Some s -> mget n s = Some q -> forall d, In d (q_idx q) <-> needs l n d.
Proof.
  intros T G d. destruct (tree_end l s T) as [lv [V [K [_ D]]]].
  assert (I : In n (keys (read_ports l))) by (rewrite <- K; exact (mget_keys n q s G)). apply keys_mget in I as [p Gp].
  destruct (D n p Gp) as [q' [G' [E _]]]. rewrite G in G'. injection G' as <-. rewrite E. unfold known_deps. rewrite filter_In, andb_true_iff, smem_In, negb_true_iff, read_keys.
  apply read_get in Gp as [ds [R ->]]. cbn [q_deps fresh_port]. rewrite in_map_iff. split.
  - intros [[e [<- Ie]] [H1 H2]]. rewrite set_of_In in Ie. exists ds, e. split; [exact R|]. split; [exact Ie|]. split; [apply designates_cut; reflexivity|]. split; [exact H1|apply seqb_neq, H2].
  - intros [ds' [e [R' [Ie [De [H1 H2]]]]]]. apply designates_cut in De. split; [|split; [exact H1|apply seqb_neq, H2]].
    assert (ds' = ds). { destruct R as [a [b [-> N]]], R' as [a' [b' [E' N']]]. clear -N N' E'. revert a' E'. induction a as [|x a IH]; intros [|y a'] E'; cbn in E'.
      - congruence.
      - injection E' as _ E'. exfalso. apply N. rewrite E', map_app. apply in_app_iff. right. left. reflexivity.
      - injection E' as _ E'. exfalso. apply N'. rewrite <- E', map_app. apply in_app_iff. right. left. reflexivity.
      - injection E' as _ E'. exact (IH a' E'). }
    subst ds'. exists e. split; [exact De|]. rewrite set_of_In. exact Ie.
Qed.
Lemma tree_names l s n : tree l = Some s -> (In n (map fst l) <-> exists q, mget n s = Some q).
Proof.
  intro T. destruct (tree_end l s T) as [lv [_ [K _]]]. rewrite <- read_keys, <- K. split; [apply keys_mget|intros [q G]; exact (mget_keys n q s G)].
Qed.
Lemma needs_src l n d : needs l n d -> In n (map fst l).
Proof. intros [ds [e [[a [b [-> _]]] _]]]. rewrite map_app. apply in_app_iff. right. left. reflexivity. Qed.
Lemma needs_dst l n d : needs l n d -> In d (map fst l).
Proof. intros [ds [e [_ [_ [_ [H _]]]]]]. exact H. Qed.
Definition idxs (s : ports) (n : str) : list str := match mget n s with Some q => q_idx q | None => [] end.
Lemma idxs_spec l s : tree l = Some s -> forall n d, In d (idxs s n) <-> needs l n d.
Proof.
  intros T n d. unfold idxs. destruct (mget n s) as [q|] eqn:G; [exact (idx_spec l s n q T G d)|]. split; [intros []|]. intro H. apply needs_src, (tree_names l s n T) in H as [q G']. congruence.
Qed.
Lemma chain_trans R a b c : chain R a b -> chain R b c -> chain R a c.
Proof. intro H. induction H; auto. intro K. eapply chain_step; eauto. Qed.
Lemma chain_reach (f : str -> list str) R : (forall n d, In d (f n) <-> R n d) -> forall n m, chain R n m <-> reach f n m.
Proof.
  intros E n m. split; intro H.
  - induction H as [|n d m H K IH]; [apply reach_refl|]. apply (reach_step f n d m); [apply E, H|exact IH].
  - induction H as [|n d m H K IH]; [apply chain_refl|]. apply (chain_step R n d m); [apply E, H|exact IH].
Qed.
Definition isdone (s : ports) (n : str) : Prop := exists q, mget n s = Some q /\ (q_count q < 0)%Z.
Lemma done_dep l s n d : tree l = Some s -> isdone s n -> needs l n d -> isdone s d /\ level_of s d < level_of s n.
Proof.
  intros T [q [G C]] H. destruct (tree_end l s T) as [lv [V _]]. apply (idx_spec l s n q T G) in H. destruct (v_done _ _ V n q G C) as [_ [_ [P _]]]. destruct (P d H) as [r [Gr [Cr Lr]]].
  split; [exists r; auto|]. unfold level_of. rewrite G, Gr. exact Lr.
Qed.
Lemma done_chain l s n m : tree l = Some s -> chain (needs l) n m -> isdone s n -> isdone s m /\ level_of s m <= level_of s n.
Proof.
  intros T H. induction H as [|n d m H K IH]; intro D; [auto|]. destruct (done_dep l s n d T D H) as [D1 L1]. destruct (IH D1) as [D2 L2]. split; [exact D2|lia].
Qed.
Lemma not_done_dep l s n : tree l = Some s -> In n (map fst l) -> ~ isdone s n -> exists d, needs l n d /\ ~ isdone s d.
Proof.
  intros T I N. apply (tree_names l s n T) in I as [q G]. destruct (tree_end l s T) as [lv [V [_ [Z0 _]]]]. pose proof (Z0 n q G) as Z1.
  assert (P : (0 <= q_count q)%Z). { destruct (Z.lt_ge_cases (q_count q) 0) as [K|K]; [|exact K]. exfalso. apply N. exists q. auto. }
  destruct (v_open _ _ V n q G P) as [C _]. destruct (open_deps s q) as [|d t] eqn:O; [cbn in C; lia|]. assert (Id : In d (open_deps s q)) by (rewrite O; left; reflexivity).
  apply filter_In in Id as [Id Nd]. exists d. split; [apply (idx_spec l s n q T G), Id|]. intros [r [Gr Cr]]. apply negb_true_iff in Nd. unfold donep in Nd. rewrite Gr in Nd. apply Z.ltb_ge in Nd. lia.
Qed.
Lemma isdone_dec s n : isdone s n \/ ~ isdone s n.
Proof.
  unfold isdone. destruct (mget n s) as [q|]; [|right; intros [q [E _]]; discriminate]. destruct (Z.lt_ge_cases (q_count q) 0) as [K|K]; [left; eauto|]. right. intros [q' [E C]]. injection E as <-. lia.
Qed.
Lemma acyclic_done l s n : tree l = Some s -> In n (map fst l) -> (forall c, chain (needs l) n c -> ~ on_cycle l c) -> isdone s n.
Proof.
  intros T I A. pose proof (idxs_spec l s T) as Sp.
  set (U := n :: map fst l). assert (Cl : forall x d, In x U -> In d (idxs s x) -> In d U) by (intros x d _ H; apply Sp in H; right; exact (needs_dst l x d H)).
  set (C := closure (idxs s) (S (length U)) [n]).
  assert (Cs : forall x, In x C <-> chain (needs l) n x).
  { intro x. unfold C. rewrite (closure_spec (idxs s) U Cl); [|intros y [<-|[]]; left; reflexivity|lia]. rewrite (chain_reach _ _ Sp). split; [intros [r [[<-|[]] R]]; exact R|intro R; exists n; split; [left; reflexivity|exact R]]. }
  set (f := fun x => if smem x C then idxs s x else []).
  assert (Fr : forall a b, reach f a b -> chain (needs l) a b).
  { intros a b H. induction H as [|a d b H K IH]; [apply chain_refl|]. apply (chain_step _ a d b); [|exact IH]. unfold f in H. destruct (smem a C); [apply Sp, H|destruct H]. }
  destruct (acyclic_rank f U) as [rank Rk].
  - intros x d Ix H. unfold f in H. destruct (smem x C); [exact (Cl x d Ix H)|destruct H].
  - intros x d _ H K. unfold f in H. destruct (smem x C) eqn:E; [|destruct H]. apply smem_In, Cs in E. apply (A x E). exists d. split; [apply Sp, H|exact (Fr d x K)].
  - assert (G : forall k x, rank x < k -> chain (needs l) n x -> In x (map fst l) -> isdone s x).
    { induction k as [|k IH]; intros x Lx Hx Ix; [lia|]. destruct (isdone_dec s x) as [D|D]; [exact D|]. exfalso. destruct (not_done_dep l s x T Ix D) as [d [H Nd]]. apply Nd. apply IH.
      - assert (Kd : In d (f x)) by (unfold f; rewrite (proj2 (smem_In x C)); [apply Sp, H|apply Cs, Hx]). pose proof (Rk x d (or_intror Ix) Kd). lia.
      - apply (chain_trans _ n x d Hx). apply (chain_step _ x d d H (chain_refl _ d)).
      - exact (needs_dst l x d H). }
    apply (G (S (rank n)) n); [lia|apply chain_refl|exact I].
Qed.

(** ** C25 *)
Theorem C25_terminates : forall l, exists s, tree l = Some s.
Proof. exact tree_total. Qed.
(** a port that reaches no dependency cycle: its level is one more than the greatest level of the ports it depends on *)
Theorem C25_levels_partial : forall l s n, tree l = Some s -> In n (map fst l) -> (forall c, chain (needs l) n c -> ~ on_cycle l c) ->
  (forall d, needs l n d -> level_of s d < level_of s n) /\
  (forall k, level_of s n = S k -> exists d, needs l n d /\ level_of s d = k) /\
  (level_of s n = 0 -> forall d, ~ needs l n d).
Proof.
  intros l s n T I A. pose proof (acyclic_done l s n T I A) as D. split; [intros d H; exact (proj2 (done_dep l s n d T D H))|]. split.
  - intros k E. destruct D as [q [G C]]. destruct (tree_end l s T) as [lv [V _]]. destruct (v_done _ _ V n q G C) as [_ [_ [_ P]]]. unfold level_of in E. rewrite G in E. destruct P as [P|[d [r [Id [Gr Lr]]]]]; [lia|].
    exists d. split; [apply (idx_spec l s n q T G), Id|]. unfold level_of. rewrite Gr. lia.
  - intros E d H. pose proof (proj2 (done_dep l s n d T D H)). lia.
Qed.
(** a port on a cycle, or depending on one, has level 0: on a tree with a cycle the levels never respect the dependencies *)
Theorem C25_cycle_refuted : forall l s n c, tree l = Some s -> chain (needs l) n c -> on_cycle l c -> level_of s n = 0.
Proof.
  intros l s n c T H [d [Hd K]]. unfold level_of. destruct (mget n s) as [q|] eqn:G; [|reflexivity]. destruct (tree_end l s T) as [lv [V _]].
  destruct (Z.lt_ge_cases (q_count q) 0) as [Q|Q]; [|exact (proj1 (proj2 (v_open _ _ V n q G Q)))]. exfalso. assert (D : isdone s n) by (exists q; auto).
  destruct (done_chain l s n c T H D) as [Dc _]. destruct (done_dep l s c d T Dc Hd) as [Dd L1]. destruct (done_chain l s d c T K Dd) as [_ L2]. lia.
Qed.
(** a port whose own name has a dot: the dependency is cut and not found *)
Example C25_dotted_refuted : exists s, tree [(L "b.1", [L "c"]); (L "c", []); (L "a", [L "b.1"])] = Some s /\ level_of s (L "a") = 0 /\ level_of s (L "b.1") = 1.
Proof. eexists. split; [vm_compute; reflexivity|]. split; reflexivity. Qed.
Definition ex_tree : list (str * list str) :=
  [(L "glibc", []); (L "zlib", [L "glibc"]); (L "openssl", [L "zlib.lib"; L "glibc"]); (L "curl", [L "openssl.dev"; L "absent"; L "curl"]); (L "x", [L "y"]); (L "y", [L "x"]); (L "z", [L "x"])].
Example ex_levels : exists s, tree ex_tree = Some s /\ map (fun n => level_of s n) [L "glibc"; L "zlib"; L "openssl"; L "curl"; L "x"; L "y"; L "z"] = [0; 1; 2; 3; 0; 0; 0].
Proof. eexists. split; [vm_compute; reflexivity|]. reflexivity. Qed.
Example ex_needs : needs ex_tree (L "curl") (L "openssl") /\ ~ needs ex_tree (L "curl") (L "curl") /\ on_cycle ex_tree (L "x").
Proof.
  split; [|split].
  - exists [L "openssl.dev"; L "absent"; L "curl"], (L "openssl.dev"). split; [exists (firstn 3 ex_tree), (skipn 4 ex_tree); split; [reflexivity|intro H; vm_compute in H; repeat (destruct H as [H|H]; [discriminate H|]); destruct H]|].
    split; [left; reflexivity|]. split; [apply designates_cut; reflexivity|]. split; [vm_compute; tauto|discriminate].
  - intros [ds [e [_ [_ [_ [_ H]]]]]]. apply H. reflexivity.
  - exists (L "y"). split.
    + exists [L "y"], (L "y"). split; [exists (firstn 4 ex_tree), (skipn 5 ex_tree); split; [reflexivity|intro H; vm_compute in H; repeat (destruct H as [H|H]; [discriminate H|]); destruct H]|].
      split; [left; reflexivity|]. split; [apply designates_cut; reflexivity|]. split; [vm_compute; tauto|discriminate].
    + apply (chain_step _ (L "y") (L "x")); [|apply chain_refl]. exists [L "x"], (L "x"). split; [exists (firstn 5 ex_tree), (skipn 6 ex_tree); split; [reflexivity|intro H; vm_compute in H; repeat (destruct H as [H|H]; [discriminate H|]); destruct H]|].
      split; [left; reflexivity|]. split; [apply designates_cut; reflexivity|]. split; [vm_compute; tauto|discriminate].
Qed.

(** ** C26 *)
(** the dependencies as they are written in the recipe *)
Definition writes (l : list (str * list str)) (n e : str) : Prop := exists ds, recipe l n ds /\ In e ds.
Lemma raw_spec l s : tree l = Some s -> forall n e, In e (raw_deps s n) <-> writes l n e.
Proof.
  intros T n e. destruct (tree_end l s T) as [lv [_ [K [_ D]]]]. unfold raw_deps, writes. destruct (mget n (read_ports l)) as [p|] eqn:G.
  - destruct (D n p G) as [q [Gq [_ E]]]. rewrite Gq, E. apply read_get in G as [ds [R ->]]. cbn [q_deps fresh_port]. rewrite set_of_In. split; [eauto|].
    intros [ds' [R' I]]. assert (X : mget n (read_ports l) = Some (fresh_port (set_of ds))) by (apply read_get; eauto). assert (Y : mget n (read_ports l) = Some (fresh_port (set_of ds'))) by (apply read_get; eauto).
    rewrite X in Y. injection Y as Y. rewrite <- set_of_In. rewrite Y. apply set_of_In. exact I.
  - assert (mget n s = None) as ->.
    { apply mget_None. rewrite K. apply mget_None, G. }
    split; [intros []|]. intros [ds [R _]]. assert (Y : mget n (read_ports l) = Some (fresh_port (set_of ds))) by (apply read_get; eauto). congruence.
Qed.
Lemma dep_list_spec l s n : tree l = Some s -> forall x, In x (dep_list s n) <-> chain (writes l) n x.
Proof.
  intros T x. pose proof (raw_spec l s T) as Sp. rewrite (chain_reach _ _ Sp). set (U := n :: names_of s).
  assert (Cl : forall a d, In a U -> In d (raw_deps s a) -> In d U).
  { intros a d _ H. right. unfold raw_deps in H. destruct (mget a s) as [q|] eqn:G; [|destruct H]. unfold names_of. apply in_app_iff. right. apply in_flat_map. exists (a, q). split; [apply mget_In, G|exact H]. }
  change (dep_list s n) with (closure (raw_deps s) (S (length U)) [n]). rewrite (closure_spec _ U Cl); [|intros y [<-|[]]; left; reflexivity|lia].
  split; [intros [r [[<-|[]] R]]; exact R|intro R; exists n; split; [left; reflexivity|exact R]].
Qed.
Lemma level_known l s n : tree l = Some s -> forall k, level_of s n = S k -> In n (map fst l).
Proof. intros T k E. unfold level_of in E. destruct (mget n s) as [q|] eqn:G; [|discriminate]. apply (tree_names l s n T). eauto. Qed.
(** the names listed are those reachable through the dependencies as written, and of a level below the argument's *)
Theorem C26_listing : forall l s n, tree l = Some s -> forall k x, In (k, x) (print_deps s n) <->
  (k = level_of s n /\ x = n) \/ (chain (writes l) n x /\ level_of s x = k /\ k < level_of s n).
Proof.
  intros l s n T k x. unfold print_deps. rewrite in_app_iff, in_flat_map. split.
  - intros [[k' [Ik H]]|[H|[]]].
    + apply in_map_iff in H as [y [E Hy]]. injection E as -> ->. apply filter_In in Hy as [Hy Ly]. apply in_seq in Ik. apply Nat.eqb_eq in Ly. right. split; [apply (dep_list_spec l s n T), Hy|]. split; [exact Ly|lia].
    + injection H as <- <-. auto.
  - intros [[-> ->]|[H [E Lt]]]; [right; left; reflexivity|]. left. exists k. split; [apply in_seq; lia|]. apply in_map_iff. exists x. split; [reflexivity|]. apply filter_In. split; [apply (dep_list_spec l s n T), H|apply Nat.eqb_eq, E].
Qed.
(** when the recipes name ports by their plain names and nothing reachable is on a cycle: exactly the ports reachable by dependencies,
    and below them every name reachable that is no port (level 0) *)
Theorem C26_reachability_partial : forall l s n, tree l = Some s -> In n (map fst l) -> (forall c, chain (needs l) n c -> ~ on_cycle l c) ->
  (forall m e, writes l m e -> ~ In "."%char e /\ In e (map fst l)) ->
  forall x, (exists k, In (k, x) (print_deps s n)) <-> chain (needs l) n x.
Proof.
  intros l s n T I A P x.
  assert (W : forall a b, chain (writes l) a b -> chain (needs l) a b).
  { intros a b H. induction H as [|a d b H K IH]; [apply chain_refl|]. destruct (str_eq_dec d a) as [->|N]; [exact IH|]. destruct (P a d H) as [P1 P2]. apply (chain_step _ a d b); [|exact IH]. destruct H as [ds [R Id]]. exists ds, d. split; [exact R|]. split; [exact Id|]. split; [left; auto|]. auto. }
  assert (W' : forall a b, chain (needs l) a b -> chain (writes l) a b).
  { intros a b H. induction H as [|a d b H K IH]; [apply chain_refl|]. apply (chain_step _ a d b); [|exact IH]. destruct H as [ds [e [R [Id [De _]]]]]. exists ds. split; [exact R|].
    destruct (P a e (ex_intro _ ds (conj R Id))) as [P1 _]. destruct De as [[-> _]|[y [-> _]]]; [exact Id|]. exfalso. apply P1. apply in_app_iff. right. left. reflexivity. }
  split.
  - intros [k H]. apply (C26_listing l s n T) in H as [[_ ->]|[H _]]; [apply chain_refl|apply W, H].
  - intro H. destruct (str_eq_dec x n) as [->|N].
    + exists (level_of s n). apply (C26_listing l s n T). auto.
    + exists (level_of s x). apply (C26_listing l s n T). right. split; [apply W', H|]. split; [reflexivity|]. pose proof (acyclic_done l s n T I A) as D. inversion H as [|? d ? Hd K]; subst; [contradiction|].
      destruct (done_dep l s n d T D Hd) as [Dd L1]. destruct (done_chain l s d x T K Dd) as [_ L2]. lia.
Qed.
(** on a cycle only the argument itself is printed *)
Theorem C26_cycle_refuted : forall l s n c, tree l = Some s -> chain (needs l) n c -> on_cycle l c -> print_deps s n = [(0, n)].
Proof. intros l s n c T H K. unfold print_deps. rewrite (C25_cycle_refuted l s n c T H K). reflexivity. Qed.
(** a dependency written with a suffix is listed under that name, with level 0, and what it depends on is left out *)
Example C26_suffix_refuted : exists s, tree [(L "a", [L "b.lib"]); (L "b", [L "c"]); (L "c", [])] = Some s /\
  print_deps s (L "a") = [(0, L "b.lib"); (2, L "a")].
Proof. eexists. split; [vm_compute; reflexivity|]. vm_compute. reflexivity. Qed.
Example C26_example : exists s, tree [(L "a", [L "b"; L "c"]); (L "b", [L "c"]); (L "c", []); (L "d", [L "a"])] = Some s /\
  print_deps s (L "a") = [(0, L "c"); (1, L "b"); (2, L "a")].
Proof. eexists. split; [vm_compute; reflexivity|]. vm_compute. reflexivity. Qed.
