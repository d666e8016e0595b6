(** Facts about 'cards remove'. *)
From Verif Require Import Base BaseProofs StrModel StrSpec StrProofs RulesModel FsModel FsSpec FsProofs MetaModel MetaSpec MetaProofs DbModel DbSpec DbLoad DbOps DbRun DbInv DbFacts DbProps RemoveProps AddRun Graph RemoveCmd.

(** ** vocabulary *)
Definition installed (d : disk) (n : str) : Prop := nodot n /\ mget n d <> None.
(** the META line [s] states the dependency [k]: R, the name, ten characters of date (a malformed short line is taken whole) *)
Definition dep_line (s k : str) : Prop := (exists t, length t = 10 /\ s = "R"%char :: k ++ t) \/ (length s <= 10 /\ s = "R"%char :: k).
Definition needs (d : disk) (n k : str) : Prop := exists s, meta_has d n s /\ dep_line s k.
(** nothing of the package is left in the database (hidden files of the directory are never touched by removals) *)
Definition gone (d : disk) (n : str) : Prop := forall dir x, mget n d = Some dir -> nodot x -> mget x dir = None.
(** direct or indirect need of installed packages *)
Inductive needs_all (d : disk) : str -> str -> Prop :=
| na_refl n : needs_all d n n
| na_step n k m : nodot n -> needs d n k -> needs_all d k m -> needs_all d n m.

Lemma has_tag_spec c s : has_tag c s = true <-> exists v, s = c :: v.
Proof.
  destruct s as [|x v]; cbn; [split; [discriminate|intros [v H]; discriminate]|]. split; [intro H; apply ceqb_eq in H; subst; eauto|intros [w H]; inversion H; apply ceqb_refl].
Qed.
Lemma dep_line_spec s k : dep_line s k <-> has_tag "R" s = true /\ dep_name s = k.
Proof.
  unfold dep_line, dep_name. rewrite has_tag_spec. split.
  - intros [[t [T ->]]|[Le ->]].
    + split; [eauto|]. cbn [List.length skipn]. rewrite app_length, T. replace (S (length k + 10) <? 11) with false by (symmetry; apply Nat.ltb_ge; lia).
      replace (S (length k + 10) - 11) with (length k) by lia. rewrite firstn_app, Nat.sub_diag, firstn_O, app_nil_r, firstn_all. reflexivity.
    + split; [eauto|]. replace (_ <? 11) with true by (symmetry; apply Nat.ltb_lt; lia). reflexivity.
  - intros [[v ->] E]. destruct (length ("R"%char :: v) <? 11) eqn:B.
    + apply Nat.ltb_lt in B. right. split; [lia|]. cbn [skipn] in E. congruence.
    + apply Nat.ltb_ge in B. left. cbn [skipn] in E. exists (skipn (length ("R"%char :: v) - 11) v). split.
      * rewrite skipn_length. cbn [List.length] in *. lia.
      * rewrite <- E, firstn_skipn. reflexivity.
Qed.
Lemma disk_lines_In d n s : In s (disk_lines d n) <-> meta_has d n s.
Proof.
  unfold disk_lines, meta_has. destruct (mget n d) as [dir|] eqn:G; [|split; [intros []|intros [? [? [? [H _]]]]; congruence]].
  destruct (mget (L "META") dir) as [t|] eqn:M; [|split; [intros []|intros [? [? [? [H [H' _]]]]]; congruence]].
  unfold parse_set. destruct (parse_lines t) as [ls|] eqn:P; cbn [option_map].
  - rewrite set_of_In. split; [intro I; exists dir, t, ls; auto|]. intros [dir' [t' [ls' [H1 [H2 [H3 H4]]]]]]. congruence.
  - split; [intros []|]. intros [dir' [t' [ls' [H1 [H2 [H3 H4]]]]]]. congruence.
Qed.
Lemma disk_deps_In d n k : In k (disk_deps d n) <-> needs d n k.
Proof.
  unfold disk_deps, needs. rewrite set_of_In, in_map_iff. split.
  - intros [s [E I]]. apply filter_In in I as [I T]. exists s. split; [apply disk_lines_In, I|]. apply dep_line_spec. auto.
  - intros [s [M D]]. apply dep_line_spec in D as [T E]. exists s. split; [exact E|]. apply filter_In. split; [apply disk_lines_In, M|exact T].
Qed.
(** what the loaded records say *)
Lemma load_installed junk d m n : load junk d = Ok m -> (In n (keys (m_pkgs m)) <-> installed d n).
Proof.
  intro E. unfold installed. split.
  - intro I. apply in_map_iff in I as [[n' r] [Hn I]]. cbn in Hn. subst n'. pose proof (load_keys _ _ _ E) as SS.
    apply (In_mget n r (m_pkgs m) (ssorted_NoDup _ SS)) in I. apply load_spec in E as [_ [P _]]. apply P in I as [N [dir [G _]]]. split; [refine (proj1 (nondot_spec n) N)|congruence].
  - intros [N G]. destruct (load_record junk d m n E (proj2 (nondot_spec n) N) G) as [r H]. apply mget_In in H. apply (in_map fst) in H. exact H.
Qed.
Lemma load_deps junk d m n r k : load junk d = Ok m -> mget n (m_pkgs m) = Some r -> ((exists t, In (k, t) (r_deps r)) <-> needs d n k).
Proof.
  intros E G. apply load_spec in E as [_ [P _]]. apply P in G as [_ [dir [G Lp]]].
  apply load_pkg_ok in Lp as [ls [c [r0 [M [_ [Em ->]]]]]]. cbn [r_deps with_files]. rewrite (meta_fold _ _ n (step_deps n) _ _ _ Em).
  assert (Ls : ls = disk_lines d n).
  { unfold disk_lines. rewrite G. destruct (mget (L "META") dir) as [t|]; [|exact M]. rewrite M. reflexivity. }
  assert (Hl : forall s, In s ls -> has_tag "R" s = true -> exists t, dep_of_line s = Ok (dep_name s, t)).
  { intros s I T. assert (X : forall l r1 r2, meta_lines n r1 l = Ok r2 -> In s l -> 10 <= length s).
    { induction l as [|y l IH]; intros r1 r2 E I'; [destruct I'|]. cbn in E. apply rbind_ok in E as [r3 [E1 E2]]. destruct I' as [->|I']; [|eapply IH; eauto].
      apply has_tag_spec in T as [v ->]. unfold meta_line in E1. cbn [ceqb Ascii.eqb Bool.eqb] in E1. 
      change (rbind (dep_of_line ("R"%char :: v)) (fun d => Ok (with_deps (dins d (r_deps r1)) r1)) = Ok r3) in E1. apply rbind_ok in E1 as [dd [E1 _]]. unfold dep_of_line in E1.
      destruct (length ("R"%char :: v) <? 10) eqn:B; [discriminate|]. apply Nat.ltb_ge in B. exact B. }
    pose proof (X ls _ _ Em I) as Le. unfold dep_of_line. replace (length s <? 10) with false by (symmetry; apply Nat.ltb_ge; exact Le). eexists. reflexivity. }
  cbn [start_rec with_auto with_release empty_rec r_deps]. split.
  - intros [t I]. apply deps_fold in I as [[]|[s [I [T D]]]]. exists s. rewrite Ls in I. split; [apply disk_lines_In, I|]. apply dep_line_spec. split; [exact T|].
    destruct (Hl s) as [t' H]; [rewrite Ls; exact I|exact T|]. congruence.
  - intros [s [I D]]. apply disk_lines_In in I. rewrite <- Ls in I. apply dep_line_spec in D as [T D]. destruct (Hl s I T) as [t H]. exists t. apply deps_fold. right. exists s. rewrite <- D. auto.
Qed.
Lemma in_use_spec junk d m i : load junk d = Ok m -> (in_use m i = true <-> exists n, installed d n /\ needs d n i).
Proof.
  intro E. unfold in_use. rewrite existsb_exists. pose proof (load_keys _ _ _ E) as SS. split.
  - intros [[n r] [I H]]. cbn in H. apply existsb_exists in H as [[k t] [Ik H]]. cbn in H. apply seqb_eq in H. subst k. exists n.
    split; [apply (load_installed junk d m n E); apply (in_map fst) in I; exact I|]. apply (In_mget n r (m_pkgs m) (ssorted_NoDup _ SS)) in I. apply (load_deps junk d m n r i E I). eauto.
  - intros [n [In_ Nd]]. apply (load_installed junk d m n E) in In_. apply in_map_iff in In_ as [[n' r] [Hn I]]. cbn in Hn. subst n'. exists (n, r). split; [exact I|].
    apply (In_mget n r (m_pkgs m) (ssorted_NoDup _ SS)) in I. apply (load_deps junk d m n r i E I) in Nd as [t T]. apply existsb_exists. exists (i, t). split; [exact T|apply seqb_refl].
Qed.
(** ** the closure *)
Lemma needed_spec names d m : forall x, In x (needed names d m) <-> exists r, In r (manual m) /\ reach (graph names d) r x.
Proof.
  apply closure_spec with (U := universe names d m).
  - intros n k _ I. unfold graph in I. destruct (smem n names) eqn:S; [|destruct I]. apply smem_In in S. unfold universe. rewrite !in_app_iff. right. right.
    apply in_flat_map. exists n. auto.
  - intros x X. unfold manual in X. apply in_map_iff in X as [p [<- X]]. apply filter_In in X as [X _]. unfold universe. apply in_app_iff. left. apply in_map, X.
  - lia.
Qed.
Lemma reach_needs names d : (forall n, In n names <-> installed d n) -> forall a b, reach (graph names d) a b <-> needs_all d a b.
Proof.
  intro H. intros a b. split; intro R.
  - induction R as [n|n k m I R IH]; [constructor|]. unfold graph in I. destruct (smem n names) eqn:S; [|destruct I]. apply smem_In, H in S.
    apply disk_deps_In in I. econstructor; [apply S|exact I|exact IH].
  - induction R as [n|n k m N I R IH]; [constructor|]. apply reach_step with k; [|exact IH]. unfold graph.
    assert (S : smem n names = true). { apply smem_In, H. split; [exact N|]. destruct I as [s [[dir [c [ls [G _]]]] _]]. rewrite G. discriminate. }
    rewrite S. apply disk_deps_In, I.
Qed.
Lemma manual_spec junk d m n : load junk d = Ok m -> (In n (manual m) <-> installed d n /\ ~ automatic d n).
Proof.
  intro E. pose proof (load_keys _ _ _ E) as SS. unfold manual. rewrite in_map_iff. split.
  - intros [[n' r] [Hn I]]. cbn in Hn. subst n'. apply filter_In in I as [I B]. cbn in B. apply negb_true_iff in B.
    split; [apply (load_installed junk d m n E); apply (in_map fst) in I; exact I|]. apply (In_mget n r (m_pkgs m) (ssorted_NoDup _ SS)) in I.
    intro A. apply (load_auto junk d m n r E I) in A. congruence.
  - intros [I A]. apply (load_installed junk d m n E) in I. apply in_map_iff in I as [[n' r] [Hn I]]. cbn in Hn. subst n'. exists (n, r). split; [reflexivity|].
    apply filter_In. split; [exact I|]. cbn. apply negb_true_iff. apply (In_mget n r (m_pkgs m) (ssorted_NoDup _ SS)) in I.
    destruct (r_auto r) eqn:B; [|reflexivity]. exfalso. apply A, (load_auto junk d m n r E I), B.
Qed.
(** ** one removal touches one entry of the database *)
Lemma rm_run_db junk sh root s conf name w m : match rm_run junk sh root s conf name w m with
  | Ret _ w' m' => (forall n, n <> name -> mget n (w_db w') = mget n (w_db w)) /\ (forall n, n <> name -> mget n (m_pkgs m') = mget n (m_pkgs m)) /\
                   (forall n, n <> name -> mget n (m_alias m') = mget n (m_alias m)) /\ gone (w_db w') name
  | Stop _ w' => w_db w' = w_db w
  end.
Proof.
  unfold rm_run. destruct (read_rules_file conf); [|reflexivity]. destruct (negb (name_exists m name)); [reflexivity|].
  cbv zeta.
  set (pre := match mget name (w_db w) with Some d => mget (L "PRER") d | None => None end).
  set (post := match mget name (w_db w) with Some d => mget (L "POSTR") d | None => None end).
  destruct (if s then match pre with Some s0 => match sh s0 (w_fs w) with (g, true) => inr (World g (w_db w)) | (g, false) => inl (World g (w_db w)) end | None => inr w end else inr w) as [w1|w1] eqn:E.
  - destruct s; [|discriminate]. destruct pre as [t|]; [|discriminate]. destruct (sh t (w_fs w)) as [g [|]]; inversion E; reflexivity.
  - assert (D1 : w_db w1 = w_db w) by (destruct s; [|inversion E; reflexivity]; destruct pre as [t|]; [|inversion E; reflexivity]; destruct (sh t (w_fs w)) as [g [|]]; inversion E; reflexivity).
    unfold remove_files. set (w2 := World _ _). set (m2 := Mem _ _ _). cbv beta iota zeta. set (w3 := if s then match post with Some s0 => _ | None => w2 end else w2).
    assert (D3 : w_db w3 = w_db w) by (unfold w3; destruct s; [destruct post|]; exact D1).
    unfold remove_refs. rewrite D3. destruct (mget name (w_db w)) as [dir|] eqn:G; [|exact D3]. cbn [w_db m_pkgs m_alias].
    split; [|split; [|split]].
    + intros n N. destruct (filter _ dir); [rewrite mget_mdel|rewrite mget_mset]; rewrite (proj2 (seqb_neq n name) N); reflexivity.
    + intros n N. destruct (mget name (m_pkgs m2)); [|rewrite mget_mset, (proj2 (seqb_neq n name) N)]; unfold m2; cbn [m_pkgs]; rewrite mget_mdel, (proj2 (seqb_neq n name) N); reflexivity.
    + intros n N. unfold m2. cbn [m_alias]. rewrite mget_mdel, (proj2 (seqb_neq n name) N). reflexivity.
    + intros dr x Gd Nx. destruct (mget x dr) as [c|] eqn:F; [|reflexivity]. exfalso. destruct (filter (fun e => negb (nondot (fst e))) dir) as [|e lf] eqn:Fl.
      * rewrite mget_mdel, seqb_refl in Gd. discriminate.
      * rewrite mget_mset, seqb_refl in Gd. inversion Gd; subst dr. rewrite <- Fl in F. apply mget_In in F. apply filter_In in F as [_ F]. cbn [fst] in F. rewrite (proj2 (nondot_spec x) Nx) in F. discriminate.
Qed.
Lemma rm_names_db junk sh root s conf l : forall w m, match rm_names junk sh root s conf l w m with
  | RRet w' m' => (forall n, ~ In n l -> mget n (w_db w') = mget n (w_db w)) /\ (forall n, In n l -> gone (w_db w') n)
  | RStop _ w' => (forall n, ~ In n l -> mget n (w_db w') = mget n (w_db w))
  end.
Proof.
  induction l as [|y l IH]; intros w m; cbn [rm_names]; [split; [auto|intros n []]|].
  pose proof (rm_run_db junk sh root s conf y w m) as Hr. destruct (rm_run junk sh root s conf y w m) as [u w' m'|e w']; [|cbv beta iota in Hr; intros n _; rewrite Hr; reflexivity].
  destruct Hr as [R1 [_ [_ R3]]]. specialize (IH w' m'). destruct (rm_names junk sh root s conf l w' m') as [w2 m2|e w2].
  - destruct IH as [A B]. split; [intros n N; rewrite A by (intro; apply N; right; assumption); apply R1; intros ->; apply N; left; reflexivity|].
    intros n I. destruct (in_dec str_eq_dec n l) as [I'|N']; [exact (B n I')|]. destruct I as [<-|I]; [|contradiction].
    intros dir x G. rewrite (A y N') in G. exact (R3 dir x G).
  - intros n N. rewrite IH by (intro; apply N; right; assumption). apply R1. intros ->. apply N. left. reflexivity.
Qed.
(** ** sets of pairs *)
Lemma pltb_total x y : pltb x y = false -> pltb y x = false -> x = y.
Proof.
  destruct x as [a b], y as [c d]. unfold pltb. cbn [fst snd]. intros H1 H2. destruct (sltb a c) eqn:E1; [discriminate|]. destruct (sltb c a) eqn:E2; [discriminate|].
  assert (Ha : a = c) by (destruct (sltb_total a c) as [H|[H|H]]; congruence). assert (Hb : b = d) by (destruct (sltb_total b d) as [H|[H|H]]; congruence). congruence.
Qed.
Lemma pins_In x y s : In y (pins x s) <-> y = x \/ In y s.
Proof.
  induction s as [|z t IH]; cbn [pins In]; [intuition|]. destruct (pltb x z) eqn:E1; [cbn [In]; intuition|]. destruct (pltb z x) eqn:E2; [cbn [In]; rewrite IH; intuition|].
  pose proof (pltb_total x z E1 E2). subst z. cbn [In]. intuition.
Qed.
Lemma fold_pins {A} (g : A -> bool) (h : A -> str * str) l p : forall acc,
  In p (fold_left (fun acc j => if g j then pins (h j) acc else acc) l acc) <-> In p acc \/ exists j, In j l /\ g j = true /\ p = h j.
Proof.
  induction l as [|j l IH]; intro acc; cbn [fold_left]; [split; [auto|intros [H|[j [[] _]]]; exact H]|]. rewrite IH. destruct (g j) eqn:G.
  - rewrite pins_In. split.
    + intros [[->|H]|[k [I H]]]; [right; exists j; cbn; auto|left; exact H|right; exists k; cbn; tauto].
    + intros [H|[k [[->|I] [K E]]]]; [auto|left; left; exact E|right; exists k; auto].
  - split; [intros [H|[k [I H]]]; [auto|right; exists k; cbn; tauto]|]. intros [H|[k [[->|I] [K E]]]]; [auto|congruence|right; exists k; auto].
Qed.
Lemma siblings_In groups m l p : In p (add_siblings groups m l) <->
  In p l \/ (name_exists m (fst p) = true /\ exists g j, In g (real_groups groups) /\ In j l /\ p = (sibling (fst j) g, snd j)).
Proof.
  unfold add_siblings.
  assert (G : forall gs acc, In p (fold_left (fun acc g => fold_left (fun acc j => pins (sibling (fst j) g, snd j) acc) l acc) gs acc) <->
    In p acc \/ exists g j, In g gs /\ In j l /\ p = (sibling (fst j) g, snd j)).
  { induction gs as [|g gs IH]; intro acc; cbn [fold_left]; [split; [auto|intros [H|[g [j [[] _]]]]; exact H]|]. rewrite IH.
    pose proof (fold_pins (fun _ => true) (fun j => (sibling (fst j) g, snd j)) l p acc) as F. cbn beta iota in F. rewrite F. split.
    - intros [[H|[j [I [_ E]]]]|[g' [j [I H]]]]; [auto|right; exists g, j; cbn; auto|right; exists g', j; cbn; tauto].
    - intros [H|[g' [j [[->|I] [J E]]]]]; [auto|left; right; exists j; auto|right; exists g', j; auto]. }
  pose proof (fold_pins (fun p => name_exists m (fst p)) (fun p => p) (fold_left (fun acc g => fold_left (fun acc j => pins (sibling (fst j) g, snd j) acc) l acc) (real_groups groups) []) p l) as F.
  rewrite F. split.
  - intros [H|[q [I [Ne ->]]]]; [auto|]. right. split; [exact Ne|]. apply G in I as [[]|I]. exact I.
  - intros [H|[Ne [g [j [I [J ->]]]]]]; [auto|]. right. eexists. split; [|split; [exact Ne|reflexivity]]. apply G. right. exists g, j. auto.
Qed.
Lemma with_siblings_In groups m l n : In n (with_siblings groups m l) <->
  In n l \/ (name_exists m n = true /\ exists g j, In g (real_groups groups) /\ In j l /\ n = sibling j g).
Proof.
  unfold with_siblings.
  assert (F0 : forall (A : Type) (g : A -> bool) (h : A -> str) k acc, In n (fold_left (fun acc j => if g j then sins (h j) acc else acc) k acc) <-> In n acc \/ exists j, In j k /\ g j = true /\ n = h j).
  { intros A g h k. induction k as [|j k IH]; intro acc; cbn [fold_left]; [split; [auto|intros [H|[j [[] _]]]; exact H]|]. rewrite IH. destruct (g j) eqn:G.
    - rewrite sins_In. split; [intros [[->|H]|[q [I H]]]; [right; exists j; cbn; auto|auto|right; exists q; cbn; tauto]|].
      intros [H|[q [[->|I] [K E]]]]; [auto|left; left; exact E|right; exists q; auto].
    - split; [intros [H|[q [I H]]]; [auto|right; exists q; cbn; tauto]|]. intros [H|[q [[->|I] [K E]]]]; [auto|congruence|right; exists q; auto]. }
  assert (G : forall gs acc, In n (fold_left (fun acc g => fold_left (fun acc j => sins (sibling j g) acc) l acc) gs acc) <->
    In n acc \/ exists g j, In g gs /\ In j l /\ n = sibling j g).
  { induction gs as [|g gs IH]; intro acc; cbn [fold_left]; [split; [auto|intros [H|[g [j [[] _]]]]; exact H]|]. rewrite IH.
    pose proof (F0 str (fun _ => true) (fun j => sibling j g) l acc) as F. cbn beta iota in F. rewrite F. split.
    - intros [[H|[j [I [_ E]]]]|[g' [j [I H]]]]; [auto|right; exists g, j; cbn; auto|right; exists g', j; cbn; tauto].
    - intros [H|[g' [j [[->|I] [J E]]]]]; [auto|left; right; exists j; auto|right; exists g', j; auto]. }
  pose proof (F0 str (fun p => name_exists m p) (fun p => p) (fold_left (fun acc g => fold_left (fun acc j => sins (sibling j g) acc) l acc) (real_groups groups) []) l) as F.
  rewrite F. split.
  - intros [H|[q [I [Ne ->]]]]; [auto|]. right. split; [exact Ne|]. apply G in I as [[]|I]. exact I.
  - intros [H|[Ne [g [j [I [J ->]]]]]]; [auto|]. right. eexists. split; [|split; [exact Ne|reflexivity]]. apply G. right. exists g, j. auto.
Qed.
