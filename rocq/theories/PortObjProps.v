(** C112: what an object over the ports answers, over any sequence of questions in any changing world. *)
From Verif Require Import Base BaseProofs StrModel StrSpec StrProofs Graph FsModel FsProofs MetaModel MetaExact ConfModel RecipeModel RecipeProps RecipeExact PortsModel PortsProofs PortsProps PortsLists PortObjModel.
From Coq Require Import ZArith Lia.
Open Scope nat_scope.

Section Ports.
Variable cfg : list dirurl.
Notation ask := (pcall cfg).
Notation run := (pcalls cfg).

(** ** specification *)
(** what object [o] answers when it is asked [q] while the directories are as in [w] *)
Definition panswer (q : pquery) (w : pworld) (o : pobj) : res pans := snd (ask q w o).
(** the question is about this name, and has the object look it up *)
Definition looks_up (q : pquery) : option str := match q with PVersion n | Place n | PRelease n | Level n => Some n | _ => None end.
Definition named_by (h : list (pquery * pworld)) (n : str) : Prop := exists q w, In (q, w) h /\ looks_up q = Some n.
(** the question needs the recipes *)
Definition needs_ports (q : pquery) : Prop := forall d, q <> Is_dir d.
(** the directories hold no port *)
Definition no_ports (w : pworld) : Prop := forall d es n c, In d cfg -> w_dir w (u_coll d) = Some es -> In (n, Some c) es -> exists t, n = "."%char :: t.
(** the directories hold the ports [m], at least one *)
Definition holds (w : pworld) (m : list (str * RecipeModel.port)) : Prop := ports_read (recipes cfg w) = Ok m /\ m <> [].
(** nothing was asked by name, and there was no port yet *)
Definition early (h : list (pquery * pworld)) : Prop := forall q w, In (q, w) h -> (looks_up q = None /\ no_ports w) \/ exists d, q = Is_dir d.
(** the object has been asked [h0] while there were no ports, then [q] with the ports [m] in place, then [h] in any worlds *)
Definition looked_at (m : list (str * RecipeModel.port)) (h0 : list (pquery * pworld)) (q : pquery) (h : list (pquery * pworld)) (o : pobj) : Prop :=
  exists w0, early h0 /\ needs_ports q /\ holds w0 m /\ o = run (h0 ++ (q, w0) :: h) new_pobj.
(** what was asked since there are ports *)
Definition since (q : pquery) (h : list (pquery * pworld)) (n : str) : Prop := looks_up q = Some n \/ named_by h n.

(** ** proofs *)
Definition base_coll (m : list (str * RecipeModel.port)) (n : str) : str := match mget n m with Some p => p_coll p | None => [] end.
Definition orders (m : list (str * RecipeModel.port)) (s : ports) (c : str) : list str := match coll_order (base_coll m) c s with Some l => l | None => [] end.
Definition listed (q : pquery) (m : list (str * RecipeModel.port)) (s : ports) : list str := match q with Order c => orders m s c | _ => [] end.
Record pheld (m : list (str * RecipeModel.port)) (s : ports) (T : str -> Prop) (o : pobj) : Prop := PH {
  h_keys : keys (o_tree o) = keys (o_recs o);
  h_sorted : ssorted (keys (o_recs o));
  h_recs : forall n p, mget n m = Some p -> mget n (o_recs o) = Some (Some p);
  h_new : forall n, mget n m = None -> (T n /\ mget n (o_recs o) = Some None) \/ (~ T n /\ mget n (o_recs o) = None);
  h_level : forall n, level_of (o_tree o) n = level_of s n;
  h_bad : o_bad o = map (bad_line (base_coll m)) (bad_deps s);
  h_floor : at_level (o_tree o) 0 <> [];
  h_order : forall c, c <> [] -> coll_order (coll_in (o_recs o)) c (o_tree o) = coll_order (base_coll m) c s
}.
Lemma some_recs_get m n : mget n (some_recs m) = option_map Some (mget n m).
Proof. induction m as [|[k p] m IH]; [reflexivity|]. cbn [some_recs map fst snd mget]. destruct (seqb n k); [reflexivity|exact IH]. Qed.
Lemma some_recs_keys m : keys (some_recs m) = keys m.
Proof. unfold keys, some_recs. rewrite map_map. reflexivity. Qed.
Lemma coll_base m n : coll_in (some_recs m) n = base_coll m n.
Proof. unfold coll_in, base_coll. rewrite some_recs_get. destruct (mget n m); reflexivity. Qed.
Lemma needs_in_names m : map fst (needs_in m) = keys m.
Proof. unfold needs_in. rewrite map_map. reflexivity. Qed.
Lemma of_coll_ext f g c s k : (forall n, f n = g n) -> of_coll f c s k = of_coll g c s k.
Proof. intro E. unfold of_coll. apply filter_ext. intro n. rewrite E. reflexivity. Qed.
Lemma coll_order_ext f g c s : (forall n, f n = g n) -> coll_order f c s = coll_order g c s.
Proof. intro E. unfold coll_order. destruct (first_gap _ 0 s) as [k|]; [|reflexivity]. cbn [option_map]. f_equal. rewrite !flat_map_concat_map. f_equal. apply map_ext. intro j. apply of_coll_ext, E. Qed.
Lemma recipes_sorted l : forall info fnd m m', ssorted (keys m) -> read_recipes l (info, fnd, m) = Ok m' -> ssorted (keys m').
Proof.
  induction l as [|[[c n] t] l IH]; intros info fnd m m' S E; cbn [read_recipes] in E; [injection E as <-; exact S|]. destruct (read_recipe c n t (info, fnd, m)) as [[[i f] m1]| |] eqn:R; [|discriminate E|discriminate E].
  apply (IH i f m1 m'); [|exact E]. unfold read_recipe in R. destruct t as [t|].
  - destruct (parse_lines t) as [ls|]; [|discriminate R]. destruct (split_strtok_set _ _) as [d|]; [|discriminate R]. injection R as _ _ <-. apply mset_keys_sorted, S.
  - injection R as _ _ <-. apply mset_keys_sorted, S.
Qed.
Lemma read_sorted l m : ports_read l = Ok m -> ssorted (keys m).
Proof. intro E. apply (recipes_sorted l _ _ [] m) in E; [exact E|constructor]. Qed.
Lemma tree_keys m s : ssorted (keys m) -> tree (needs_in m) = Some s -> keys s = keys m.
Proof.
  intros S T. destruct (tree_end _ s T) as [lv [V [K _]]]. apply ssorted_ext; [exact (v_sorted _ _ V)|exact S|]. intro n. rewrite K, read_keys, needs_in_names. tauto.
Qed.

(** *** one name added *)
Lemma sins_filter (f : str -> bool) n l : f n = false -> filter f (sins n l) = filter f l.
Proof.
  intro F. induction l as [|x l IH]; cbn [sins filter]; [rewrite F; reflexivity|]. destruct (sltb n x); cbn [filter]; [rewrite F; reflexivity|]. destruct (sltb x n); cbn [filter]; [rewrite IH; reflexivity|reflexivity].
Qed.
Lemma sins_filter2 (f g : str -> bool) n l : g n = false -> filter g (filter f (sins n l)) = filter g (filter f l).
Proof.
  intro F. assert (E : forall l, filter g (filter f l) = filter (fun x => f x && g x) l).
  { clear l. induction l as [|x l IH]; [reflexivity|]. cbn [filter]. destruct (f x); cbn [filter andb]; [destruct (g x); rewrite IH; reflexivity|exact IH]. }
  rewrite !E. apply sins_filter. rewrite F. apply andb_false_r.
Qed.
Lemma gap_same s s' : (forall k, at_level s' k = [] <-> at_level s k = []) -> forall f k, first_gap f k s' = first_gap f k s.
Proof.
  intro H. induction f as [|f IH]; intro k; [reflexivity|]. cbn [first_gap]. specialize (H k). destruct (at_level s' k) as [|a l] eqn:A, (at_level s k) as [|b l'] eqn:B.
  - reflexivity.
  - pose proof (proj1 H eq_refl) as X. discriminate X.
  - pose proof (proj2 H eq_refl) as X. discriminate X.
  - apply IH.
Qed.
Lemma gap_unique s : forall f1 f2 k a b, first_gap f1 k s = Some a -> first_gap f2 k s = Some b -> a = b.
Proof.
  induction f1 as [|f1 IH]; intros [|f2] k a b A B; cbn [first_gap] in A, B; [discriminate A|discriminate A|discriminate B|]. destruct (at_level s k); [congruence|exact (IH f2 (S k) a b A B)].
Qed.
Lemma order_same f f' c s s' : (forall k, at_level s' k = [] <-> at_level s k = []) -> (forall k, of_coll f' c s' k = of_coll f c s k) -> coll_order f' c s' = coll_order f c s.
Proof.
  intros G O. unfold coll_order. destruct (gap_total s (S (length s)) 0) as [a A]; [intros j J; lia|lia|]. destruct (gap_total s' (S (length s')) 0) as [b B]; [intros j J; lia|lia|].
  rewrite A, B. pose proof B as B'. rewrite (gap_same s s' G) in B'. pose proof (gap_unique s _ _ 0 a b A B') as E. subst b. cbn [option_map]. f_equal. rewrite !flat_map_concat_map. f_equal. apply map_ext. exact O.
Qed.
Lemma get_none {A} n (m : list (str * A)) : ~ In n (keys m) -> mget n m = None.
Proof. intro N. destruct (mget n m) as [x|] eqn:G; [|reflexivity]. destruct (N (mget_keys n x m G)). Qed.
Lemma pheld_touch m s T o n : pheld m s T o -> pheld m s (fun x => T x \/ x = n) (touch_port n o).
Proof.
  intro H. destruct H as [K St R Nw Lv B F O]. unfold touch_port. destruct (mget n (o_recs o)) as [r|] eqn:G.
  - split; try assumption. intros x E. destruct (Nw x E) as [[X1 X2]|[X1 X2]]; [left; auto|]. right. split; [|exact X2]. intros [X| ->]; [auto|]. congruence.
  - assert (Gt : mget n (o_tree o) = None) by (apply get_none; rewrite K; apply mget_None; exact G).
    assert (Ls : forall x, level_of (mset n (fresh_port []) (o_tree o)) x = level_of (o_tree o) x).
    { intro x. unfold level_of. rewrite mget_mset. destruct (seqb_spec x n) as [->|N]; [rewrite Gt; reflexivity|reflexivity]. }
    assert (L0 : level_of (o_tree o) n = 0) by (unfold level_of; rewrite Gt; reflexivity).
    assert (As : forall k, at_level (mset n (fresh_port []) (o_tree o)) k = filter (fun x => level_of (o_tree o) x =? k) (sins n (keys (o_tree o)))).
    { intro k. unfold at_level. rewrite mset_keys. apply filter_ext. intro x. rewrite Ls. reflexivity. }
    assert (Gm : mget n m = None) by (destruct (mget n m) as [p|] eqn:E; [apply R in E; congruence|reflexivity]).
    assert (F' : at_level (mset n (fresh_port []) (o_tree o)) 0 <> []).
    { rewrite As. intro E. assert (I : In n []) by (rewrite <- E; apply filter_In; split; [apply sins_In; left; reflexivity|rewrite L0; reflexivity]). destruct I. }
    split; cbn [o_recs o_tree o_bad o_list].
    + rewrite !mset_keys, K. reflexivity.
    + apply mset_keys_sorted, St.
    + intros x p E. rewrite mget_mset. destruct (seqb_spec x n) as [->|N]; [congruence|]. apply R, E.
    + intros x E. rewrite mget_mset. destruct (seqb_spec x n) as [->|N]; [left; auto|]. destruct (Nw x E) as [[X1 X2]|[X1 X2]]; [left; auto|]. right. split; [|exact X2]. intros [X|X]; [auto|congruence].
    + intro x. rewrite Ls. apply Lv.
    + exact B.
    + exact F'.
    + intros c Nc. rewrite <- (O c Nc). apply order_same.
      * intro k. destruct k as [|k]; [split; intro X; [destruct (F' X)|destruct (F X)]|]. rewrite As, sins_filter; [reflexivity|]. rewrite L0. reflexivity.
      * intro k. unfold of_coll. rewrite As. assert (E : forall x, seqb (coll_in (mset n None (o_recs o)) x) c = seqb (coll_in (o_recs o) x) c).
        { intro x. unfold coll_in. rewrite mget_mset. destruct (seqb_spec x n) as [->|N]; [rewrite G; reflexivity|reflexivity]. }
        rewrite (filter_ext _ _ E). apply sins_filter2. unfold coll_in. rewrite G. apply seqb_neq. intro X. apply Nc. symmetry. exact X.
Qed.
Lemma pheld_ext m s (T U : str -> Prop) o : (forall n, T n <-> U n) -> pheld m s T o -> pheld m s U o.
Proof. intros E [K St R Nw Lv B F O]. split; try assumption. intros n X. destruct (Nw n X) as [[A C]|[A C]]; [left|right]; (split; [|exact C]); rewrite <- E; exact A. Qed.
Lemma pheld_list m s T o l : pheld m s T o -> pheld m s T (PO (o_recs o) (o_tree o) l (o_bad o)).
Proof. intros [K St R Nw Lv B F O]. split; assumption. Qed.

(** *** the reading *)
Lemma load_held w m s l : holds w m -> tree (needs_in m) = Some s ->
  load_ports cfg w (PO [] [] l []) = (PO (some_recs m) s l (map (bad_line (coll_in (some_recs m))) (bad_deps s)), Ok tt).
Proof. intros [E _] T. unfold load_ports. cbn [o_recs o_list o_bad app]. rewrite E, T. reflexivity. Qed.
Lemma first_held w m s l : holds w m -> tree (needs_in m) = Some s -> pheld m s (fun _ => False) (PO (some_recs m) s l (map (bad_line (coll_in (some_recs m))) (bad_deps s))).
Proof.
  intros [E N] T. pose proof (read_sorted _ _ E) as S. split; cbn [o_recs o_tree o_bad o_list].
  - rewrite some_recs_keys. apply tree_keys; assumption.
  - rewrite some_recs_keys. exact S.
  - intros n p G. rewrite some_recs_get, G. reflexivity.
  - intros n G. right. split; [tauto|]. rewrite some_recs_get, G. reflexivity.
  - reflexivity.
  - apply map_ext. intro e. unfold bad_line. rewrite coll_base. reflexivity.
  - destruct m as [|[n p] m]; [destruct (N eq_refl)|]. intro X. destruct (level_below _ s n 0 T) as [x I]; [rewrite needs_in_names; left; reflexivity|lia|]. rewrite X in I. destruct I.
  - intros c _. apply coll_order_ext. apply coll_base.
Qed.
Lemma pheld_recs m s T o : pheld m s T o -> o_recs o <> [].
Proof. intros H E. apply (h_floor _ _ _ _ H). unfold at_level. rewrite (h_keys _ _ _ _ H), E. reflexivity. Qed.
Lemma load_kept m s T o w : pheld m s T o -> load_ports cfg w o = (o, Ok tt).
Proof. intro H. pose proof (pheld_recs _ _ _ _ H) as N. unfold load_ports. destruct (o_recs o); [destruct (N eq_refl)|reflexivity]. Qed.
Definition with_name (q : pquery) (T : str -> Prop) : str -> Prop := fun x => T x \/ looks_up q = Some x.
Definition good_coll (q : pquery) : Prop := q <> Order [].
Lemma ask_held m s T o q : pheld m s T o -> pheld m s (with_name q T) (fst (ask_port q o)).
Proof.
  intro H. unfold with_name. destruct q; cbn [ask_port fst looks_up];
    try (apply (pheld_ext m s T); [intro x; split; [auto|intros [X|X]; [exact X|discriminate X]]|]; first [exact H|apply pheld_list, H]);
    (apply (pheld_ext m s (fun x => T x \/ x = n)); [intro x; split; (intros [X|X]; [left; exact X|right; congruence])|]; apply pheld_touch, H).
Qed.
Lemma ask_list m s T o q : pheld m s T o -> good_coll q -> o_list (fst (ask_port q o)) = o_list o ++ listed q m s.
Proof.
  intros H G. assert (Tl : forall n, o_list (touch_port n o) = o_list o) by (intro n; unfold touch_port; destruct (mget n (o_recs o)); reflexivity).
  destruct q; cbn [ask_port fst listed o_list]; rewrite ?Tl, ?app_nil_r; try reflexivity. f_equal. unfold build_order, orders. rewrite (h_order _ _ _ _ H); [reflexivity|]. intros ->. apply G. reflexivity.
Qed.
Lemma pcall_held m s T o q w : pheld m s T o -> ask q w o = match q with Is_dir d => (o, Ok (PBool (match w_dir w d with Some _ => true | None => false end))) | _ => (fst (ask_port q o), Ok (snd (ask_port q o))) end.
Proof. intro H. unfold pcall. rewrite (load_kept m s T o w H). destruct q; reflexivity. Qed.
Lemma pcall_held_fst m s T o q w : pheld m s T o -> fst (ask q w o) = fst (ask_port q o).
Proof. intro H. rewrite (pcall_held m s T o q w H). destruct q; reflexivity. Qed.
Lemma calls_held m s : forall h T o, pheld m s T o -> pheld m s (fun x => T x \/ named_by h x) (run h o).
Proof.
  induction h as [|[q w] h IH]; intros T o H; cbn [pcalls].
  - apply (pheld_ext m s T); [|exact H]. intro n. split; [auto|]. intros [X|(q & w & [] & _)]. exact X.
  - rewrite (pcall_held_fst m s T o q w H). apply (pheld_ext m s (fun x => with_name q T x \/ named_by h x)); [|apply IH, ask_held, H].
    intro n. unfold with_name. split.
    + intros [[X|X]|(q' & w' & I & X)]; [left; exact X| |]; right; [exists q, w|exists q', w']; (split; [|exact X]); [left; reflexivity|right; exact I].
    + intros [X|(q' & w' & [I|I] & X)]; [left; left; exact X| |]; [injection I as <- <-; left; right; exact X|right; exists q', w'; auto].
Qed.
Lemma calls_list m s : forall h T o, pheld m s T o -> Forall (fun e => good_coll (fst e)) h -> o_list (run h o) = o_list o ++ flat_map (fun e => listed (fst e) m s) h.
Proof.
  induction h as [|[q w] h IH]; intros T o H G; cbn [pcalls flat_map]; [rewrite app_nil_r; reflexivity|]. inversion G as [|? ? G1 G2]; subst. cbn [fst] in *.
  rewrite (pcall_held_fst m s T o q w H), (IH _ _ (ask_held m s T o q H) G2), (ask_list m s T o q H G1), app_assoc. reflexivity.
Qed.
Lemma no_ports_recipes w : no_ports w -> recipes cfg w = [].
Proof.
  intro N. unfold recipes. assert (A : forall d, In d cfg -> dir_recipes w d = []).
  { intros d I. unfold dir_recipes. destruct (w_dir w (u_coll d)) as [es|] eqn:E; [|reflexivity]. assert (F : filter is_port es = []); [|rewrite F; reflexivity]. specialize (N d es).
    assert (P : forall n c, In (n, Some c) es -> exists t, n = "."%char :: t) by (intros n c; apply N; assumption). clear - P. induction es as [|[n [c|]] es IH]; [reflexivity| |].
    - destruct (P n c (or_introl eq_refl)) as [t ->]. cbn [filter is_port]. apply IH. intros n' c' I'. apply (P n' c'). right. exact I'.
    - cbn [filter]. destruct (is_port (n, None)) eqn:X; [destruct n as [|[[] [] [] [] [] [] [] []] n]; discriminate X|]. apply IH. intros n' c' I'. apply (P n' c'). right. exact I'. }
  revert A. generalize cfg as l. induction l as [|d l IH]; intro A; [reflexivity|]. cbn [flat_map]. rewrite (A d (or_introl eq_refl)), IH; [reflexivity|]. intros x I. apply A. right. exact I.
Qed.
Lemma load_none w : no_ports w -> load_ports cfg w new_pobj = (new_pobj, Ok tt).
Proof. intro N. unfold load_ports, new_pobj. cbn [o_recs]. rewrite (no_ports_recipes w N). reflexivity. Qed.
Lemma quiet_call q w : looks_up q = None /\ no_ports w \/ (exists d, q = Is_dir d) -> fst (ask q w new_pobj) = new_pobj.
Proof.
  intros [[Q N]|[d ->]]; [|reflexivity]. unfold pcall. rewrite (load_none w N). destruct q; try discriminate Q; reflexivity.
Qed.
Lemma early_new h : early h -> run h new_pobj = new_pobj.
Proof.
  induction h as [|[q w] h IH]; intro E; [reflexivity|]. cbn [pcalls]. rewrite (quiet_call q w); [|apply E; left; reflexivity]. apply IH. intros q' w' I. apply E. right. exact I.
Qed.
Lemma calls_app a b o : run (a ++ b) o = run b (run a o).
Proof. revert o. induction a as [|[q w] a IH]; intro o; [reflexivity|]. cbn [app pcalls]. apply IH. Qed.
Lemma looked_held m h0 q h o s : looked_at m h0 q h o -> tree (needs_in m) = Some s -> pheld m s (since q h) o /\
  (Forall (fun e => good_coll (fst e)) h -> good_coll q -> o_list o = listed q m s ++ flat_map (fun e => listed (fst e) m s) h).
Proof.
  intros (w0 & E & Q & H & ->) T. rewrite calls_app, (early_new h0 E). cbn [pcalls].
  assert (C : fst (ask q w0 new_pobj) = fst (ask_port q (PO (some_recs m) s [] (map (bad_line (coll_in (some_recs m))) (bad_deps s))))).
  { unfold pcall. change new_pobj with (PO [] [] [] []). rewrite (load_held w0 m s [] H T). destruct q; try reflexivity. destruct (Q d eq_refl). }
  rewrite C. pose proof (first_held w0 m s [] H T) as P. set (o1 := PO _ _ _ _) in *. pose proof (ask_held m s _ o1 q P) as P1. split.
  - apply (pheld_ext m s (fun x => with_name q (fun _ => False) x \/ named_by h x)); [|apply calls_held, P1]. intro n. unfold with_name, since. tauto.
  - intros G Gq. rewrite (calls_list m s h _ _ P1 G), (ask_list m s _ o1 q P Gq). reflexivity.
Qed.

(** *** ports that were there at the first look *)
Theorem C112_known m h0 q h o n p w : looked_at m h0 q h o -> mget n m = Some p ->
  panswer (Known n) w o = Ok (PBool true) /\ panswer (PVersion n) w o = Ok (PText (p_vals p (L "version"))) /\ panswer (Place n) w o = Ok (PText (p_coll p ++ L "/" ++ n)) /\
  panswer (PRelease n) w o = Ok (PNum (Some (atoi_u16 (p_vals p (L "release"))))) /\ panswer (Needs n) w o = Ok (PSet (p_deps p)).
Proof.
  intros A G. destruct (tree_total (needs_in m)) as [s T]. destruct (looked_held m h0 q h o s A T) as [H _]. unfold panswer. rewrite !(pcall_held m s _ o _ w H). cbn [snd ask_port].
  unfold says, coll_in, look_port. rewrite (h_recs _ _ _ _ H n p G). repeat split; reflexivity.
Qed.
(** *** names that were not *)
Theorem C112_unknown m h0 q h o n w : looked_at m h0 q h o -> mget n m = None ->
  (exists b, panswer (Known n) w o = Ok (PBool b) /\ (b = true <-> since q h n)) /\ panswer (PVersion n) w o = Ok (PText []) /\ panswer (Place n) w o = Ok (PText (L "/" ++ n)) /\
  panswer (PRelease n) w o = Ok (PNum None) /\ panswer (Level n) w o = Ok (PNum (Some 0%N)) /\ panswer (Needs n) w o = Ok (PSet []).
Proof.
  intros A G. destruct (tree_total (needs_in m)) as [s T]. destruct (looked_held m h0 q h o s A T) as [H _]. unfold panswer. rewrite !(pcall_held m s _ o _ w H). cbn [snd ask_port].
  assert (L0 : level_of (o_tree o) n = 0).
  { rewrite (h_level _ _ _ _ H). unfold level_of. rewrite get_none; [reflexivity|]. destruct A as (w0 & _ & _ & [E _] & _). rewrite (tree_keys m s (read_sorted _ _ E) T). apply mget_None. exact G. }
  rewrite L0. unfold says, coll_in, look_port. destruct (h_new _ _ _ _ H n G) as [[S X]|[S X]]; rewrite X; (split; [eexists; split; [reflexivity|]|]).
  - split; auto.
  - repeat split; reflexivity.
  - split; [discriminate|contradiction].
  - repeat split; reflexivity.
Qed.
(** *** the levels *)
Theorem C112_levels m h0 q h o : looked_at m h0 q h o -> exists lev : str -> nat, (forall n w, panswer (Level n) w o = Ok (PNum (Some (N.of_nat (lev n))))) /\
  (forall n, mget n m <> None -> (forall c, chain (needs (needs_in m)) n c -> ~ on_cycle (needs_in m) c) ->
     (forall d, needs (needs_in m) n d -> lev d < lev n) /\ (forall k, lev n = S k -> exists d, needs (needs_in m) n d /\ lev d = k)) /\
  (forall n c, chain (needs (needs_in m)) n c -> on_cycle (needs_in m) c -> lev n = 0).
Proof.
  intro A. destruct (tree_total (needs_in m)) as [s T]. destruct (looked_held m h0 q h o s A T) as [H _]. exists (level_of s). split; [|split].
  - intros n w. unfold panswer. rewrite (pcall_held m s _ o _ w H). cbn [snd ask_port]. rewrite (h_level _ _ _ _ H). reflexivity.
  - intros n I C. assert (I' : In n (map fst (needs_in m))) by (rewrite needs_in_names; destruct (mget n m) as [p|] eqn:G; [exact (mget_keys n p m G)|destruct (I eq_refl)]).
    destruct (C25_levels_partial _ s n T I' C) as (X & Y & _). split; [exact X|exact Y].
  - intros n c X Y. exact (C25_cycle_refuted _ s n c T X Y).
Qed.
(** *** the whole list *)
Theorem C112_ports m h0 q h o w : looked_at m h0 q h o -> exists l, panswer Ports w o = Ok (PPorts l) /\ NoDup (map (fun e => fst (fst e)) l) /\
  (forall n p k, In (n, Some p, k) l <-> mget n m = Some p /\ panswer (Level n) w o = Ok (PNum (Some (N.of_nat k)))) /\
  (forall n k, In (n, None, k) l <-> mget n m = None /\ since q h n /\ k = 0).
Proof.
  intro A. destruct (tree_total (needs_in m)) as [s T]. destruct (looked_held m h0 q h o s A T) as [H _]. unfold panswer. rewrite (pcall_held m s _ o _ w H). cbn [snd ask_port].
  set (f := fun e : str * option RecipeModel.port => (fst e, snd e, level_of (o_tree o) (fst e))). eexists. split; [reflexivity|].
  pose proof (ssorted_NoDup _ (h_sorted _ _ _ _ H)) as Nd.
  assert (In' : forall n r k, In (n, r, k) (map f (o_recs o)) <-> mget n (o_recs o) = Some r /\ k = level_of (o_tree o) n).
  { intros n r k. rewrite in_map_iff. split.
    - intros [[n' r'] [E I]]. unfold f in E. cbn [fst snd] in E. injection E as <- <- <-. split; [|reflexivity]. apply In_mget; assumption.
    - intros [G ->]. exists (n, r). split; [reflexivity|apply mget_In, G]. }
  assert (Lv : forall n k, snd (ask (Level n) w o) = Ok (PNum (Some (N.of_nat k))) <-> k = level_of (o_tree o) n).
  { intros n k. rewrite (pcall_held m s _ o _ w H). cbn [snd ask_port]. split; [intro E; injection E as E; apply Nat2N.inj; symmetry; exact E|intros ->; reflexivity]. }
  split; [|split].
  - rewrite map_map. exact Nd.
  - intros n p k. rewrite In'. rewrite Lv. split; intros [X Y]; (split; [|exact Y]).
    + destruct (mget n m) as [p'|] eqn:G; [pose proof (h_recs _ _ _ _ H n p' G); congruence|]. destruct (h_new _ _ _ _ H n G) as [[_ Z]|[_ Z]]; congruence.
    + apply (h_recs _ _ _ _ H), X.
  - intros n k. rewrite In'. assert (L0 : mget n m = None -> level_of (o_tree o) n = 0).
    { intro G. rewrite (h_level _ _ _ _ H). unfold level_of. rewrite get_none; [reflexivity|]. destruct A as (w0 & _ & _ & [E _] & _). rewrite (tree_keys m s (read_sorted _ _ E) T). apply mget_None. exact G. }
    split.
    + intros [X ->]. destruct (mget n m) as [p'|] eqn:G; [pose proof (h_recs _ _ _ _ H n p' G); congruence|]. split; [reflexivity|]. destruct (h_new _ _ _ _ H n G) as [[Z _]|[_ Z]]; [|congruence]. split; [exact Z|apply L0; reflexivity].
    + intros (G & S & ->). split; [|symmetry; apply L0, G]. destruct (h_new _ _ _ _ H n G) as [[_ Z]|[Z _]]; [exact Z|contradiction].
Qed.
(** *** the warnings *)
Theorem C112_warnings m h0 q h o w : looked_at m h0 q h o -> exists l, panswer Warnings w o = Ok (PList l) /\
  forall x, In x l <-> exists n p e d, mget n m = Some p /\ In e (p_deps p) /\ designates e d /\ mget d m = None /\
    x = L "WARNING " ++ d ++ L " from " ++ n ++ L " (" ++ p_coll p ++ L ") " ++ L " NOT FOUND ...".
Proof.
  intro A. destruct (tree_total (needs_in m)) as [s T]. destruct (looked_held m h0 q h o s A T) as [H _]. unfold panswer. rewrite (pcall_held m s _ o _ w H). cbn [snd ask_port]. eexists. split; [reflexivity|].
  intro x. rewrite (h_bad _ _ _ _ H), in_map_iff. destruct A as (w0 & _ & _ & [E _] & _). pose proof (ssorted_NoDup _ (read_sorted _ _ E)) as Nd.
  assert (Rc : forall n ds, recipe (needs_in m) n ds <-> exists p, mget n m = Some p /\ ds = p_deps p).
  { intros n ds. split.
    - intros (a & b & X & _). assert (I : In (n, ds) (needs_in m)) by (rewrite X; apply in_elt). unfold needs_in in I. apply in_map_iff in I as [[n' p] [Y I]]. cbn [fst snd] in Y. injection Y as <- <-. exists p. split; [|reflexivity]. apply In_mget; assumption.
    - intros (p & G & ->). apply mget_In in G. apply in_split in G as [a [b ->]]. exists (needs_in a), (needs_in b). split; [unfold needs_in; rewrite map_app; reflexivity|]. rewrite needs_in_names. unfold keys in Nd. rewrite map_app in Nd. cbn [map fst] in Nd. apply NoDup_remove_2 in Nd. intro I. apply Nd. apply in_app_iff. right. exact I. }
  split.
  - intros [[d n] [<- I]]. apply (C71_warnings _ s T) in I. destruct I as (ds & e & R & Ie & De & Nk). apply Rc in R as (p & G & ->). exists n, p, e, d. split; [exact G|]. split; [exact Ie|]. split; [exact De|]. rewrite needs_in_names in Nk.
    split; [apply get_none, Nk|]. unfold bad_line. cbn [fst snd]. unfold base_coll. rewrite G. reflexivity.
  - intros (n & p & e & d & G & Ie & De & Nk & ->). exists (d, n). split; [unfold bad_line; cbn [fst snd]; unfold base_coll; rewrite G; reflexivity|]. apply (C71_warnings _ s T). exists (p_deps p), e. split; [apply Rc; exists p; auto|]. split; [exact Ie|]. split; [exact De|]. rewrite needs_in_names. apply mget_None. exact Nk.
Qed.
(** *** the order in which a collection is built; what was listed before comes first *)
Theorem C112_order m h0 q h o w c : looked_at m h0 q h o -> (forall w', ~ In (Order [], w') h) -> q <> Order [] -> c <> [] -> exists order : str -> list str,
  panswer (Order c) w o = Ok (PList (flat_map (fun e => match e with Order x => order x | _ => [] end) (q :: map fst h) ++ order c)) /\
  forall x, NoDup (order x) /\ (forall n, In n (order x) <-> exists p, mget n m = Some p /\ p_coll p = x) /\
    (forall n d, In n (order x) -> In d (order x) -> chain (needs (needs_in m)) n d -> d <> n -> (forall y, chain (needs (needs_in m)) n y -> ~ on_cycle (needs_in m) y) -> exists a b e, order x = a ++ d :: b ++ n :: e).
Proof.
  intros A G Gq Nc. destruct (tree_total (needs_in m)) as [s T]. destruct (looked_held m h0 q h o s A T) as [H Ll]. exists (orders m s). split.
  - unfold panswer. rewrite (pcall_held m s _ o _ w H). cbn [snd ask_port]. rewrite Ll; [|apply Forall_forall; intros [q' w'] I; cbn [fst]; intros ->; exact (G w' I)|exact Gq]. f_equal. f_equal. f_equal.
    + cbn [flat_map]. f_equal. rewrite flat_map_concat_map, flat_map_concat_map, map_map. reflexivity.
    + unfold build_order, orders. rewrite (h_order _ _ _ _ H c Nc). reflexivity.
  - intro x. destruct (C71_collection _ s (base_coll m) x T) as (out & E & N1 & N2 & N3). unfold orders. rewrite E. split; [exact N1|]. split; [|exact N3]. intro n. rewrite N2, needs_in_names. unfold base_coll. split.
    + intros [I E']. apply keys_mget in I as [p I]. rewrite I in E'. exists p. auto.
    + intros (p & I & E'). rewrite I. split; [exact (mget_keys n p m I)|exact E'].
Qed.
(** *** the first question that finds ports is answered from them *)
Theorem C112_first m h0 q w0 : early h0 -> holds w0 m -> looked_at m h0 Ports [] (run (h0 ++ [(Ports, w0)]) new_pobj) /\
  panswer q w0 (run h0 new_pobj) = panswer q w0 (run (h0 ++ [(Ports, w0)]) new_pobj).
Proof.
  intros E H. split; [exists w0; split; [exact E|]; split; [intros d X; discriminate X|]; split; [exact H|reflexivity]|]. rewrite calls_app, (early_new h0 E). cbn [pcalls]. destruct (tree_total (needs_in m)) as [s T].
  pose proof (load_held w0 m s [] H T) as Ld. pose proof (first_held w0 m s [] H T) as P. change (PO [] [] [] []) with new_pobj in Ld. set (o1 := PO _ _ _ _) in *. assert (O1 : fst (ask Ports w0 new_pobj) = o1) by (unfold pcall; rewrite Ld; reflexivity). rewrite O1.
  unfold panswer, pcall. rewrite Ld, (load_kept m s _ o1 w0 P). destruct q; reflexivity.
Qed.

(** ** a name asked for before there were ports *)
Record stuck (T : str -> Prop) (o : pobj) : Prop := ST { k_keys : keys (o_tree o) = keys (o_recs o); k_names : forall n, (T n /\ mget n (o_recs o) = Some None) \/ (~ T n /\ mget n (o_recs o) = None);
  k_level : forall n, level_of (o_tree o) n = 0; k_any : o_recs o <> []; k_list : o_list o = []; k_bad : o_bad o = [] }.
Lemma touch_stuck T n o : stuck T o \/ (o = new_pobj /\ forall x, ~ T x) -> stuck (fun x => T x \/ x = n) (touch_port n o).
Proof.
  intros [[K Nm Lv An Li B]|[-> Nt]].
  - unfold touch_port. destruct (mget n (o_recs o)) as [r|] eqn:G.
    + split; try assumption. intro x. destruct (Nm x) as [[X Y]|[X Y]]; [left; auto|]. right. split; [|exact Y]. intros [Z| ->]; [auto|congruence].
    + split; cbn [o_recs o_tree o_list o_bad]; try assumption.
      * rewrite !mset_keys, K. reflexivity.
      * intro x. rewrite mget_mset. destruct (seqb_spec x n) as [->|N]; [left; auto|]. destruct (Nm x) as [[X Y]|[X Y]]; [left; auto|]. right. split; [|exact Y]. intros [Z|Z]; auto.
      * intro x. unfold level_of. rewrite mget_mset. destruct (seqb_spec x n) as [->|N]; [reflexivity|]. apply Lv.
      * intro E. assert (X : mget n (mset n None (o_recs o)) = @None (option RecipeModel.port)) by (rewrite E; reflexivity). rewrite mget_mset, seqb_refl in X. discriminate X.
  - unfold touch_port. cbn [new_pobj o_recs mget o_tree o_list o_bad]. split; cbn [o_recs o_tree o_list o_bad mset].
    + reflexivity.
    + intro x. cbn [mget]. destruct (seqb_spec x n) as [->|N]; [left; auto|]. right. split; [|reflexivity]. intros [Z|Z]; [exact (Nt x Z)|exact (N Z)].
    + intro x. unfold level_of. cbn [mget]. destruct (seqb x n); reflexivity.
    + discriminate.
    + reflexivity.
    + reflexivity.
Qed.
Lemma stuck_ext (T U : str -> Prop) o : (forall n, T n <-> U n) -> stuck T o -> stuck U o.
Proof. intros E [K Nm Lv An Li B]. split; try assumption. intro n. destruct (Nm n) as [[X Y]|[X Y]]; [left|right]; (split; [|exact Y]); rewrite <- E; exact X. Qed.
Lemma stuck_order T o c : stuck T o -> c <> [] -> build_order c o = [].
Proof.
  intros [K Nm Lv An Li B] N. unfold build_order, coll_order. destruct (first_gap _ 0 (o_tree o)) as [k|]; [|reflexivity]. cbn [option_map]. assert (O : forall j, of_coll (coll_in (o_recs o)) c (o_tree o) j = []).
  { intro j. unfold of_coll. induction (at_level (o_tree o) j) as [|x l IH]; [reflexivity|]. cbn [filter]. assert (X : seqb (coll_in (o_recs o) x) c = false); [|rewrite X; exact IH]. apply seqb_neq. unfold coll_in. destruct (Nm x) as [[_ ->]|[_ ->]]; intro Y; apply N; symmetry; exact Y. }
  induction (seq 0 (S k)) as [|j l IH]; [reflexivity|]. cbn [flat_map]. rewrite O. exact IH.
Qed.
Lemma stuck_load T o w : stuck T o -> load_ports cfg w o = (o, Ok tt).
Proof. intros [K Nm Lv An Li B]. unfold load_ports. destruct (o_recs o); [destruct (An eq_refl)|reflexivity]. Qed.
Lemma stuck_call T o q w : stuck T o -> good_coll q -> stuck (with_name q T) (fst (ask q w o)).
Proof.
  intros H G. unfold pcall, with_name. rewrite (stuck_load T o w H). destruct q; cbn [fst ask_port looks_up];
    try (apply (stuck_ext T); [intro x; split; [auto|intros [X|X]; [exact X|discriminate X]]|]);
    try (apply (stuck_ext (fun x => T x \/ x = n)); [intro x; split; (intros [X|X]; [left; exact X|right; congruence])|apply touch_stuck; left; exact H]); try exact H.
  assert (E : build_order c o = []) by (apply (stuck_order T o c H); intros ->; apply G; reflexivity). destruct H as [K Nm Lv An Li B]. split; try assumption. cbn [o_list]. rewrite E, Li. reflexivity.
Qed.
Lemma stuck_calls : forall h T o, stuck T o -> Forall (fun e => good_coll (fst e)) h -> stuck (fun x => T x \/ named_by h x) (run h o).
Proof.
  induction h as [|[q w] h IH]; intros T o H G; cbn [pcalls].
  - apply (stuck_ext T); [|exact H]. intro n. split; [auto|]. intros [X|(q & w & [] & _)]. exact X.
  - inversion G as [|? ? G1 G2]; subst. apply (stuck_ext (fun x => with_name q T x \/ named_by h x)); [|apply IH; [apply stuck_call; assumption|exact G2]].
    intro n. unfold with_name. split.
    + intros [[X|X]|(q' & w' & I & X)]; [left; exact X| |]; right; [exists q, w|exists q', w']; (split; [|exact X]); [left; reflexivity|right; exact I].
    + intros [X|(q' & w' & [I|I] & X)]; [left; left; exact X| |]; [injection I as <- <-; left; right; exact X|right; exists q', w'; auto].
Qed.
(** Asked about a name before there is a port, the object never reads: whatever ports there are later, it knows nothing but the names asked for. *)
Theorem C112_stuck h0 q w1 n0 h w n c : early h0 -> looks_up q = Some n0 -> no_ports w1 -> (forall w', ~ In (Order [], w') h) -> c <> [] ->
  let o := run (h0 ++ (q, w1) :: h) new_pobj in
  (exists b, panswer (Known n) w o = Ok (PBool b) /\ (b = true <-> since q h n)) /\
  panswer (PVersion n) w o = Ok (PText []) /\ panswer (Place n) w o = Ok (PText (L "/" ++ n)) /\ panswer (PRelease n) w o = Ok (PNum None) /\ panswer (Level n) w o = Ok (PNum (Some 0%N)) /\
  panswer (Needs n) w o = Ok (PSet []) /\ panswer Warnings w o = Ok (PList []) /\ panswer (Order c) w o = Ok (PList []).
Proof.
  intros E Q N G Nc o. assert (S : stuck (since q h) o).
  { unfold o. rewrite calls_app, (early_new h0 E). cbn [pcalls]. assert (C : fst (ask q w1 new_pobj) = touch_port n0 new_pobj).
    { unfold pcall. rewrite (load_none w1 N). destruct q; cbn [looks_up] in Q; try discriminate Q; injection Q as ->; reflexivity. }
    rewrite C. apply (stuck_ext (fun x => (False \/ x = n0) \/ named_by h x)); [|apply stuck_calls; [apply touch_stuck; right; split; [reflexivity|intros x []]|apply Forall_forall; intros [q' w'] I; cbn [fst]; intros ->; exact (G w' I)]].
    intro x. unfold since. rewrite Q. split; [intros [[[]| ->]|X]; auto|intros [X|X]; [injection X as ->; auto|auto]]. }
  clearbody o. unfold panswer, pcall. rewrite (stuck_load _ o w S). pose proof S as S'. destruct S as [K Nm Lv An Li B]. cbn [snd ask_port]. rewrite (Lv n), B, Li, (stuck_order _ o c S' Nc). unfold says, coll_in, look_port.
  destruct (Nm n) as [[X Y]|[X Y]]; rewrite Y; (split; [eexists; split; [reflexivity|]|repeat split; reflexivity]).
  - split; auto.
  - split; [discriminate|contradiction].
Qed.
(** *** a directory is looked for at every call *)
Theorem C112_dir d w o : panswer (Is_dir d) w o = Ok (PBool (match w_dir w d with Some _ => true | None => false end)) /\ fst (ask (Is_dir d) w o) = o.
Proof. split; reflexivity. Qed.
End Ports.
