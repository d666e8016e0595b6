(** C94: what 'cards remove' removes, exactly. *)
From Verif Require Import Base BaseProofs StrModel StrSpec StrProofs RulesModel FsModel FsSpec FsProofs MetaModel MetaSpec MetaProofs DbModel DbSpec DbLoad DbOps DbRun DbInv DbFacts DbProps RemoveProps AddRun Graph RemoveCmd RemoveCmdProofs RemoveCmdProps DbExamples RemoveCmdExamples QueryModel QueryProps.
From Coq Require Import Lia.

(** ** specification *)
(** the database directory holds no hidden entry, no entry without a name, and no entry with hidden files *)
Definition plain_db (d : disk) : Prop := forall n dir, mget n d = Some dir -> nodot n /\ n <> [] /\ forall x, In x (keys dir) -> nodot x.
(** the package an argument stands for: of those with this name or alias the last in the order of names *)
Definition means (d : disk) (i n : str) : Prop := answers d n i /\ forall n', answers d n' i -> n' = n \/ slt n' n.
(** the argument is the collection or the group of the package *)
Definition in_class (d : disk) (i n : str) : Prop := installed d n /\ (stored d n "c" i \/ stored d n "g" i).
Definition in_set (d : disk) (i n : str) : Prop := installed d n /\ meta_has d n ("s"%char :: i).
(** a set counts only as the first argument, and only when it is no collection or group *)
Inductive chosen (d : disk) (args : list str) (n : str) : Prop :=
| by_class i : In i args -> in_class d i n -> chosen d args n
| by_first_set i rest : args = i :: rest -> (forall x, ~ in_class d i x) -> in_set d i n -> chosen d args n
| by_name i : In i args -> means d i n -> chosen d args n.
(** first: what the arguments choose, with the group packages *)
Definition asked (d : disk) (groups args : list str) (n : str) : Prop :=
  chosen d args n \/ (installed d n /\ exists x, chosen d args x /\ group_package groups x n).
(** needs, directly or not, when the packages of [S] are gone *)
Inductive chain (d : disk) (S : str -> Prop) : str -> str -> Prop :=
| ch_here n : chain d S n n
| ch_step n k m : nodot n -> ~ S n -> needs d n k -> chain d S k m -> chain d S n m.
Definition wanted_without (d : disk) (S : str -> Prop) (n : str) : Prop := exists r, installed d r /\ ~ S r /\ ~ automatic d r /\ chain d S r n.
Definition left_over (d : disk) (S : str -> Prop) (n : str) : Prop := installed d n /\ ~ S n /\ ~ wanted_without d S n.
(** then: what no manually installed package that stays needs, with the group packages of that *)
Definition removed (d : disk) (groups args : list str) (n : str) : Prop :=
  asked d groups args n \/ left_over d (asked d groups args) n \/
  (installed d n /\ exists x, left_over d (asked d groups args) x /\ group_package groups x n).

Lemma plain_name d n : plain_db d -> mget n d <> None -> nodot n /\ n <> [].
Proof. intros P G. destruct (mget n d) as [dir|] eqn:E; [|destruct (G eq_refl)]. destruct (P n dir E) as (A & B & _). auto. Qed.
(** ** the names and aliases of the loaded database *)
Lemma load_loop_alias d : forall names m m', load_loop names d m = Ok m' -> ssorted names -> (forall n, In n names -> mget n d <> None) -> forall a,
  (exists i r, In i names /\ mget i (m_pkgs m') = Some r /\ (a = i \/ In a (r_alias r)) /\ mget a (m_alias m') = Some i /\
     forall j rj, In j names -> mget j (m_pkgs m') = Some rj -> (a = j \/ In a (r_alias rj)) -> j = i \/ slt j i) \/
  ((forall j rj, In j names -> mget j (m_pkgs m') = Some rj -> ~ (a = j \/ In a (r_alias rj))) /\ mget a (m_alias m') = mget a (m_alias m)).
Proof.
  induction names as [|i t IH]; intros m m' E SS K a.
  - cbn in E. injection E as <-. right. split; [intros j rj []|reflexivity].
  - pose proof (load_loop_spec _ _ _ _ E K) as (_ & A2 & _). cbn in E. destruct (mget i d) as [dir|] eqn:G; [|exfalso; exact (K i (or_introl eq_refl) G)].
    apply rbind_ok in E as [r [Er E]]. inversion SS as [|? ? St Hi]; subst.
    destruct (A2 i (or_introl eq_refl)) as (dir' & r' & G' & Er' & Pi). rewrite G in G'. injection G' as <-. rewrite Er in Er'. injection Er' as <-.
    destruct (IH _ _ E St (fun n I => K n (or_intror I)) a) as [(j & rj & Ij & Gj & Aj & Mj & Lj)|[N Mj]].
    + left. exists j, rj. split; [right; exact Ij|]. split; [exact Gj|]. split; [exact Aj|]. split; [exact Mj|]. intros k rk [<-|Ik] Gk Ak; [right; rewrite Forall_forall in Hi; apply Hi; exact Ij|exact (Lj k rk Ik Gk Ak)].
    + cbn [m_alias] in Mj. rewrite mget_add_alias in Mj. destruct (smem a (r_alias r) || seqb a i) eqn:B.
      * left. exists i, r. split; [left; reflexivity|]. split; [exact Pi|]. split; [apply orb_true_iff in B as [B|B]; [right; apply smem_In; exact B|left; apply seqb_eq; exact B]|]. split; [exact Mj|].
        intros k rk [<-|Ik] Gk Ak; [left; reflexivity|]. exfalso. exact (N k rk Ik Gk Ak).
      * right. split; [|exact Mj]. apply orb_false_iff in B as [B1 B2]. intros j rj [<-|Ij] Gj; [|exact (N j rj Ij Gj)]. rewrite Pi in Gj. injection Gj as <-. intros [X|X]; [apply seqb_neq in B2; exact (B2 X)|].
        apply smem_In in X. rewrite X in B1. discriminate B1.
Qed.
Lemma load_means junk d m a n : load junk d = Ok m -> (mget a (m_alias m) = Some n <-> means d a n).
Proof.
  intro E. pose proof E as E0. unfold load in E.
  assert (Kn : forall n, In n (filter nondot (set_of (keys d))) -> mget n d <> None) by (intros x I; apply load_names in I; apply I).
  assert (An : forall j, answers d j a <-> In j (filter nondot (set_of (keys d))) /\ exists rj, mget j (m_pkgs m) = Some rj /\ (a = j \/ In a (r_alias rj))).
  { intro j. unfold answers. split.
    - intros [[Nj Gj] H]. split; [apply load_names; split; [exact (proj2 (nondot_spec j) Nj)|exact Gj]|]. destruct (load_record junk d m j E0 (proj2 (nondot_spec j) Nj) Gj) as [rj Rj]. exists rj. split; [exact Rj|].
      destruct H as [H|H]; [left; exact H|right; apply (load_alias junk d m j rj a E0 Rj); exact H].
    - intros [I (rj & Rj & H)]. apply load_names in I as [Nj Gj]. split; [split; [exact (proj1 (nondot_spec j) Nj)|exact Gj]|]. destruct H as [H|H]; [left; exact H|right; apply (load_alias junk d m j rj a E0 Rj); exact H]. }
  destruct (load_loop_alias d _ _ _ E (filter_sorted _ _ (set_of_sorted _)) Kn a) as [(i & r & Ii & Gi & Ai & Mi & Li)|[N Mi]].
  - assert (Hi : means d a i). { split; [apply An; split; [exact Ii|exists r; auto]|]. intros j Hj. apply An in Hj as [Ij (rj & Rj & Aj)]. exact (Li j rj Ij Rj Aj). }
    rewrite Mi. split; [intro X; injection X as <-; exact Hi|]. intros [H1 H2]. f_equal. destruct Hi as [H3 H4]. destruct (H2 i H3) as [->|X]; [reflexivity|]. destruct (H4 n H1) as [->|Y]; [reflexivity|]. exfalso. apply (slt_irrefl i). eapply slt_trans; eassumption.
  - rewrite Mi. cbn [m_alias mget]. split; [discriminate|]. intros [H1 _]. exfalso. apply An in H1 as [Ij (rj & Rj & Aj)]. exact (N n rj Ij Rj Aj).
Qed.
Lemma load_class junk d m n i : load junk d = Ok m -> (in_class d i n <-> exists r, mget n (m_pkgs m) = Some r /\ (r_coll r = i \/ r_group r = i)).
Proof.
  intro E. assert (Gr : forall r, mget n (m_pkgs m) = Some r -> stored d n "g" (r_group r)).
  { intros r G. pose proof E as E1. apply load_spec in E1 as [_ [P _]]. apply P in G as [_ [dir [G Lp]]]. apply load_pkg_ok in Lp as [ls [c [r0 [M [_ [Em ->]]]]]]. cbn [r_group with_files].
    rewrite (meta_fold _ _ n (step_group n) _ _ _ Em).
    assert (Q : exists ls0, match mget (L "META") dir with None => ls0 = [] | Some t => parse_lines t = Some ls0 end /\ ls = set_of ls0).
    { destruct (mget (L "META") dir) as [t|]; [|exists []; split; [reflexivity|subst ls; reflexivity]]. unfold parse_set in M. destruct (parse_lines t) as [l|]; [|discriminate]. exists l. split; [reflexivity|]. inversion M. reflexivity. }
    destruct Q as [ls0 [Q ->]]. exists ls0. split; [exists dir; split; assumption|].
    assert (X : forall c' A (read : str -> A) d x, field c' (set_of ls0) read d x -> field c' ls0 read d x).
    { intros c' A read d' x Y. destruct Y as [v Y1 Y2|Y]; [apply field_line|apply field_none].
      - apply set_of_In, Y1.
      - intros w W. apply Y2, set_of_In, W.
      - intros w W. apply (Y w), set_of_In, W. }
    apply X, set_field_fold, set_of_sorted. }
  split.
  - intros [I H]. apply (QueryProps.load_installed junk d m n E) in I as [r R]. exists r. split; [exact R|]. destruct H as [H|H]; [left|right]; eapply stored_unique; try exact H; [apply (load_stored junk d m n r E R)|apply Gr; exact R].
  - intros (r & R & H). split; [apply (QueryProps.load_installed junk d m n E); exists r; exact R|]. destruct H as [<-|<-]; [left; apply (load_stored junk d m n r E R)|right; apply Gr; exact R].
Qed.
Lemma load_set junk d m n i : load junk d = Ok m -> (in_set d i n <-> exists r, mget n (m_pkgs m) = Some r /\ In i (r_sets r)).
Proof.
  intro E. assert (X : forall r, mget n (m_pkgs m) = Some r -> (In i (r_sets r) <-> meta_has d n ("s"%char :: i))).
  { intros r G. pose proof E as E1. apply load_spec in E1 as [_ [P _]]. apply P in G as [_ [dir [G Lp]]].
    apply load_pkg_ok in Lp as [ls [c [r0 [M [_ [Em ->]]]]]]. cbn [r_sets with_files].
    rewrite (meta_fold _ _ n (step_sets n) _ _ _ Em), ins_field_fold. cbn [start_rec with_auto with_release empty_rec r_sets]. unfold meta_has. split.
    - intros [[]|I]. destruct (mget (L "META") dir) as [t|] eqn:Mt; [|subst ls; destruct I]. unfold parse_set in M.
      destruct (parse_lines t) as [l|] eqn:Pt; [|discriminate]. inversion M; subst. rewrite set_of_In in I. exists dir, t, l. split; [exact G|]. split; [exact Mt|]. split; [exact Pt|exact I].
    - intros [dir' [c' [l [G' [Mt [Pt I]]]]]]. rewrite G in G'. inversion G'; subst dir'. rewrite Mt in M. unfold parse_set in M. rewrite Pt in M.
      inversion M; subst. right. apply set_of_In, I. }
  split.
  - intros [I H]. apply (QueryProps.load_installed junk d m n E) in I as [r R]. exists r. split; [exact R|apply (X r R); exact H].
  - intros (r & R & H). split; [apply (QueryProps.load_installed junk d m n E); exists r; exact R|apply (X r R); exact H].
Qed.
(** ** the selection *)
Definition has (l : list (str * str)) (n : str) : Prop := exists c, In (n, c) l.
Definition follows (d : disk) (m m0 : mem) : Prop :=
  m_pkgs m0 = m_pkgs m /\ (forall a b, mget a (m_alias m0) = Some b -> b <> [] -> means d a b) /\ (forall a b, means d a b -> mget a (m_alias m0) = Some b).
Lemma by_coll_has junk d m m0 i acc n : load junk d = Ok m -> m_pkgs m0 = m_pkgs m -> (has (by_coll m0 i acc) n <-> has acc n \/ in_class d i n).
Proof.
  intros E P. rewrite (load_class junk d m n i E). unfold has, by_coll. split.
  - intros [c H]. apply fold_pins in H as [H|[[x r] (I & B & Eq)]]; [left; exists c; exact H|]. right. cbn [fst snd] in *. injection Eq as -> ->. rewrite P in I. exists r. split; [apply (load_In junk d m x r E); exact I|].
    apply orb_true_iff in B as [B|B]; apply seqb_eq in B; auto.
  - intros [[c H]|(r & R & H)]; [exists c; apply fold_pins; left; exact H|]. exists (r_coll r). apply fold_pins. right. exists (n, r). split; [rewrite P; apply (load_In junk d m n r E); exact R|]. split; [|reflexivity]. cbn [snd].
    apply orb_true_iff. destruct H as [<-|<-]; [left|right]; apply seqb_refl.
Qed.
Lemma by_set_has junk d m m0 i acc n : load junk d = Ok m -> m_pkgs m0 = m_pkgs m -> (has (by_set m0 i acc) n <-> has acc n \/ in_set d i n).
Proof.
  intros E P. rewrite (load_set junk d m n i E). unfold has, by_set. split.
  - intros [c H]. apply fold_pins in H as [H|[[x r] (I & B & Eq)]]; [left; exists c; exact H|]. right. cbn [fst snd] in *. injection Eq as -> ->. rewrite P in I. exists r. split; [apply (load_In junk d m x r E); exact I|]. apply smem_In. exact B.
  - intros [[c H]|(r & R & H)]; [exists c; apply fold_pins; left; exact H|]. exists (r_coll r). apply fold_pins. right. exists (n, r). split; [rewrite P; apply (load_In junk d m n r E); exact R|]. split; [|reflexivity]. cbn [snd]. apply smem_In. exact H.
Qed.
Lemma no_pair l : (forall n, ~ has l n) -> l = [].
Proof. destruct l as [|[n c] t]; [reflexivity|]. intro H. exfalso. apply (H n). exists c. left. reflexivity. Qed.
Lemma has_nil n : ~ has [] n. Proof. intros [c []]. Qed.
Lemma has_pins x s n : has (pins x s) n <-> n = fst x \/ has s n.
Proof.
  unfold has. split.
  - intros [c H]. apply pins_In in H as [<-|H]; [left; reflexivity|right; exists c; exact H].
  - intros [->|[c H]]; [exists (snd x); apply pins_In; left; destruct x; reflexivity|exists c; apply pins_In; right; exact H].
Qed.
Lemma sel_arg_has junk d m m0 i acc : load junk d = Ok m -> follows d m m0 ->
  follows d m (fst (sel_arg d m0 i acc)) /\ snd (sel_arg d m0 i acc) <> [] /\
  forall n, n <> [] -> (has (snd (sel_arg d m0 i acc)) n <-> has acc n \/ in_class d i n \/ means d i n \/ (acc = [] /\ (forall x, ~ in_class d i x) /\ in_set d i n)).
Proof.
  intros E (P & A1 & A2). set (acc2 := match by_coll m0 i acc with [] => by_set m0 i (by_coll m0 i acc) | _ => by_coll m0 i acc end).
  assert (H2 : forall n, has acc2 n <-> has acc n \/ in_class d i n \/ (acc = [] /\ (forall x, ~ in_class d i x) /\ in_set d i n)).
  { intro n. pose proof (fun n => by_coll_has junk d m m0 i acc n E P) as H1. unfold acc2. destruct (by_coll m0 i acc) as [|p t] eqn:B.
    - rewrite (by_set_has junk d m m0 i [] n E P). assert (Na : acc = []) by (apply no_pair; intros x Hx; apply (has_nil x); apply H1; left; exact Hx).
      assert (Nc : forall x, ~ in_class d i x) by (intros x Hx; apply (has_nil x); apply H1; right; exact Hx). split; [intros [X|X]; [destruct (has_nil _ X)|right; right; auto]|].
      intros [X|[X|(_ & _ & X)]]; [rewrite Na in X; destruct (has_nil _ X)|destruct (Nc n X)|right; exact X].
    - rewrite (H1 n). split; [tauto|]. intros [X|[X|(Na & Nc & _)]]; [left; exact X|right; exact X|]. exfalso. destruct p as [x c]. assert (Hx : has ((x, c) :: t) x) by (exists c; left; reflexivity).
      apply H1 in Hx as [Hx|Hx]; [rewrite Na in Hx; destruct (has_nil _ Hx)|exact (Nc x Hx)]. }
  assert (Np : forall x s, pins x s <> []). { intros x s Ep. assert (Hx : has (pins x s) (fst x)) by (apply has_pins; left; reflexivity). rewrite Ep in Hx. exact (has_nil _ Hx). }
  unfold sel_arg. cbv zeta. fold acc2. destruct (mget i (m_alias m0)) as [a|] eqn:Ma; cbn [fst snd].
  - split; [split; [exact P|split; [exact A1|exact A2]]|]. split; [apply Np|]. intros n Nn. rewrite has_pins, H2. cbn [fst]. split.
    + intros [->|[X|[X|X]]]; [right; right; left; exact (A1 i a Ma Nn)|left; exact X|right; left; exact X|right; right; right; exact X].
    + intros [X|[X|[X|X]]]; [tauto|tauto| |tauto]. left. rewrite (A2 _ _ X) in Ma. injection Ma as <-. reflexivity.
  - split; [split; [exact P|]; cbn [m_alias]; split|].
    + intros a b G Nb. rewrite mget_mset in G. destruct (seqb a i); [injection G as <-; destruct (Nb eq_refl)|exact (A1 a b G Nb)].
    + intros a b Mn. rewrite mget_mset. destruct (seqb a i) eqn:B; [|exact (A2 a b Mn)]. exfalso. apply seqb_eq in B. subst a. rewrite (A2 _ _ Mn) in Ma. discriminate Ma.
    + split; [apply Np|]. intros n Nn. rewrite has_pins, H2. cbn [fst]. split.
      * intros [->|[X|[X|X]]]; [destruct (Nn eq_refl)|left; exact X|right; left; exact X|right; right; right; exact X].
      * intros [X|[X|[X|X]]]; [tauto|tauto| |tauto]. exfalso. rewrite (A2 _ _ X) in Ma. discriminate Ma.
Qed.
Lemma sel_rest junk d m : load junk d = Ok m -> forall args m0 acc m1 l, sel_args d m0 args acc = inr (m1, l) -> follows d m m0 -> acc <> [] ->
  follows d m m1 /\ l <> [] /\ forall n, n <> [] -> (has l n <-> has acc n \/ exists i, In i args /\ (in_class d i n \/ means d i n)).
Proof.
  intro E. induction args as [|i t IH]; intros m0 acc m1 l H F Na; cbn [sel_args] in H.
  - injection H as <- <-. split; [exact F|]. split; [exact Na|]. intros n _. split; [auto|intros [X|[i [[] _]]]; exact X].
  - destruct (seqb i (L "base") || in_use m0 i); [discriminate H|]. destruct (sel_arg_has junk d m m0 i acc E F) as (F1 & N1 & H1). destruct (sel_arg d m0 i acc) as [m' acc'] eqn:Es. cbn [fst snd] in *.
    destruct (IH _ _ _ _ H F1 N1) as (F2 & N2 & H2). split; [exact F2|]. split; [exact N2|]. intros n Nn. rewrite (H2 n Nn), (H1 n Nn). split.
    + intros [[X|[X|[X|(X & _)]]]|(j & Ij & X)]; [left; exact X|right; exists i; split; [left; reflexivity|left; exact X]|right; exists i; split; [left; reflexivity|right; exact X]|destruct (Na X)|right; exists j; split; [right; exact Ij|exact X]].
    + intros [X|(j & [<-|Ij] & X)]; [tauto| |right; exists j; split; [exact Ij|exact X]]. destruct X as [X|X]; tauto.
Qed.
Lemma sel_all junk d m args m1 l : load junk d = Ok m -> plain_db d -> sel_args d m args [] = inr (m1, l) -> follows d m m1 /\ forall n, n <> [] -> (has l n <-> chosen d args n).
Proof.
  intros E Pd H.
  assert (F : follows d m m). { split; [reflexivity|]. split; [intros a b G _; apply (load_means junk d m a b E); exact G|intros a b G; apply (load_means junk d m a b E); exact G]. }
  destruct args as [|i t]; cbn [sel_args] in H.
  - injection H as <- <-. split; [exact F|]. intros n _. split; [intro X; destruct (has_nil _ X)|]. intros [i []|i rest X|i []]; discriminate X.
  - destruct (seqb i (L "base") || in_use m i); [discriminate H|]. destruct (sel_arg_has junk d m m i [] E F) as (F1 & N1 & H1). destruct (sel_arg d m i []) as [m' acc'] eqn:Es. cbn [fst snd] in *.
    destruct (sel_rest junk d m E t m' acc' m1 l H F1 N1) as (F2 & _ & H2). split; [exact F2|]. intros n Nn. rewrite (H2 n Nn), (H1 n Nn). split.
    + intros [[X|[X|[X|(_ & X & Y)]]]|(j & Ij & [X|X])]; [destruct (has_nil _ X)|eapply by_class; [left; reflexivity|exact X]|eapply by_name; [left; reflexivity|exact X]|eapply by_first_set; [reflexivity|exact X|exact Y]|eapply by_class; [right; exact Ij|exact X]|eapply by_name; [right; exact Ij|exact X]].
    + intros [j [<-|Ij] X|j rest Eq X Y|j [<-|Ij] X]; [tauto|right; exists j; auto| |tauto|right; exists j; auto]. injection Eq as -> ->. left. right. right. right. auto.
Qed.
(** ** the removals *)
Lemma rm_run_mem junk sh root s conf name w m w' m' : rm_run junk sh root s conf name w m = Ret tt w' m' ->
  mget name (w_db w) <> None /\ mget name (m_pkgs m') = Some (empty_rec junk) /\ (ssorted (keys (m_pkgs m)) -> ssorted (keys (m_pkgs m'))).
Proof.
  unfold rm_run. destruct (read_rules_file conf); [|discriminate]. destruct (negb (name_exists m name)); [discriminate|]. cbv zeta.
  set (pre := match mget name (w_db w) with Some d => mget (L "PRER") d | None => None end).
  set (post := match mget name (w_db w) with Some d => mget (L "POSTR") d | None => None end).
  destruct (if s then match pre with Some s0 => match sh s0 (w_fs w) with (g, true) => inr (World g (w_db w)) | (g, false) => inl (World g (w_db w)) end | None => inr w end else inr w) as [w1|w1] eqn:E; [discriminate|].
  assert (D1 : w_db w1 = w_db w) by (destruct s; [|inversion E; reflexivity]; destruct pre as [t|]; [|inversion E; reflexivity]; destruct (sh t (w_fs w)) as [g [|]]; inversion E; reflexivity).
  unfold remove_files. set (w2 := World _ _). set (m2 := Mem _ _ _). cbv beta iota zeta. set (w3 := if s then match post with Some s0 => _ | None => w2 end else w2).
  assert (D3 : w_db w3 = w_db w) by (unfold w3; destruct s; [destruct post|]; exact D1).
  unfold remove_refs. rewrite D3. destruct (mget name (w_db w)) as [dir|] eqn:G; [|discriminate]. intro H. injection H as <- <-. cbn [m_pkgs]. split; [discriminate|]. unfold m2. cbn [m_pkgs].
  rewrite mget_mdel, seqb_refl. split; [rewrite mget_mset, seqb_refl; reflexivity|]. intro SS. apply mset_keys_sorted, mdel_keys_sorted, SS.
Qed.
Definition tidy_dir (d : disk) (n : str) : Prop := forall dir, mget n d = Some dir -> forall x, In x (keys dir) -> nodot x.
Lemma rm_run_plain junk sh root s conf name w m w' m' : rm_run junk sh root s conf name w m = Ret tt w' m' -> tidy_dir (w_db w) name -> mget name (w_db w') = None.
Proof.
  unfold rm_run. destruct (read_rules_file conf); [|discriminate]. destruct (negb (name_exists m name)); [discriminate|]. cbv zeta.
  set (pre := match mget name (w_db w) with Some d => mget (L "PRER") d | None => None end).
  set (post := match mget name (w_db w) with Some d => mget (L "POSTR") d | None => None end).
  destruct (if s then match pre with Some s0 => match sh s0 (w_fs w) with (g, true) => inr (World g (w_db w)) | (g, false) => inl (World g (w_db w)) end | None => inr w end else inr w) as [w1|w1] eqn:E; [discriminate|].
  assert (D1 : w_db w1 = w_db w) by (destruct s; [|inversion E; reflexivity]; destruct pre as [t|]; [|inversion E; reflexivity]; destruct (sh t (w_fs w)) as [g [|]]; inversion E; reflexivity).
  unfold remove_files. set (w2 := World _ _). set (m2 := Mem _ _ _). cbv beta iota zeta. set (w3 := if s then match post with Some s0 => _ | None => w2 end else w2).
  assert (D3 : w_db w3 = w_db w) by (unfold w3; destruct s; [destruct post|]; exact D1).
  unfold remove_refs. rewrite D3. destruct (mget name (w_db w)) as [dir|] eqn:G; [|discriminate]. intros H T. injection H as <- _. cbn [w_db].
  destruct (filter (fun e : str * str => negb (nondot (fst e))) dir) as [|e tl0] eqn:F; [rewrite mget_mdel, seqb_refl; reflexivity|]. exfalso.
  assert (I : In e (filter (fun e : str * str => negb (nondot (fst e))) dir)) by (rewrite F; left; reflexivity). apply filter_In in I as [I B].
  rewrite (proj2 (nondot_spec (fst e)) (T dir G (fst e) (in_map fst _ _ I))) in B. discriminate B.
Qed.
Section Removals.
  Variables (junk : bool) (sh : str -> fs -> fs * bool) (root : str) (scripts : bool) (conf : option str) (force : bool) (groups : list str).
  Lemma pairs_exact : forall l w m,
    match rm_pairs junk sh root scripts conf force l w m with
    | RRet w' m' => (forall n, n = [] \/ ~ has l n -> mget n (w_db w') = mget n (w_db w) /\ mget n (m_pkgs m') = mget n (m_pkgs m) /\ mget n (m_alias m') = mget n (m_alias m)) /\
                    (forall n, n <> [] -> has l n -> gone (w_db w') n /\ mget n (m_pkgs m') = Some (empty_rec junk) /\ mget n (w_db w) <> None) /\ (ssorted (keys (m_pkgs m)) -> ssorted (keys (m_pkgs m')))
    | RStop _ w' => forall n, n = [] \/ ~ has l n \/ mget n (w_db w) = None -> mget n (w_db w') = mget n (w_db w)
    end.
  Proof.
    induction l as [|[x c] t IH]; intros w m; cbn [rm_pairs].
    - split; [intros n _; auto|]. split; [intros n _ H; destruct (has_nil _ H)|auto].
    - assert (Hh : forall n, has ((x, c) :: t) n <-> n = x \/ has t n).
      { intro n. unfold has. split; [intros [c' [X|X]]; [injection X as <- _; left; reflexivity|right; exists c'; exact X]|intros [->|[c' X]]; [exists c; left; reflexivity|exists c'; right; exact X]]. }
      destruct x as [|a x].
      { specialize (IH w m). destruct (rm_pairs junk sh root scripts conf force t w m) as [w' m'|e w'].
        - destruct IH as (I1 & I2 & I3). split; [|split; [|exact I3]]; [intros n H; apply I1; destruct H as [H|H]; [left; exact H|right; intro X; apply H, Hh; right; exact X]|].
          intros n Nn H. apply I2; [exact Nn|]. apply Hh in H as [H|H]; [destruct (Nn H)|exact H].
        - intros n H. apply IH. destruct H as [H|[H|H]]; [left; exact H|right; left; intro X; apply H, Hh; right; exact X|right; right; exact H]. }
      set (y := a :: x) in *. assert (Ny : y <> []) by discriminate. destruct (seqb c (L "base") && negb force); [intros n _; reflexivity|].
      pose proof (rm_run_db junk sh root scripts conf y w m) as Hr. destruct (rm_run junk sh root scripts conf y w m) as [u w1 m1|e w1] eqn:Er; [|cbv beta iota in Hr; intros n _; rewrite Hr; reflexivity].
      destruct u. destruct (rm_run_mem _ _ _ _ _ _ _ _ _ _ Er) as (R1 & R2 & R3). destruct Hr as (D1 & D2 & D3 & D4). specialize (IH w1 m1). destruct (rm_pairs junk sh root scripts conf force t w1 m1) as [w' m'|e w'].
      + destruct IH as (I1 & I2 & I3). split; [|split; [|intro SS; apply I3, R3, SS]].
        * intros n H. assert (Nn : n <> y) by (intros ->; destruct H as [H|H]; [exact (Ny H)|apply H, Hh; left; reflexivity]).
          destruct (I1 n) as (J1 & J2 & J3); [destruct H as [H|H]; [left; exact H|right; intro X; apply H, Hh; right; exact X]|]. rewrite J1, J2, J3, (D1 n Nn), (D2 n Nn), (D3 n Nn). auto.
        * intros n Nn H. assert (Dec : has t n \/ ~ has t n). { destruct (in_dec str_eq_dec n (map fst t)) as [I|I]; [left; apply in_map_iff in I as [[n' c'] [<- I]]; exists c'; exact I|right; intros [c' X]; apply I; apply (in_map fst) in X; exact X]. }
          destruct Dec as [Ht|Ht].
          -- destruct (I2 n Nn Ht) as (J1 & J2 & J3). split; [exact J1|]. split; [exact J2|]. destruct (str_eq_dec n y) as [->|Ne]; [exact R1|]. rewrite <- (D1 n Ne). exact J3.
          -- apply Hh in H as [->|H]; [|destruct (Ht H)]. destruct (I1 y (or_intror Ht)) as (J1 & J2 & _). split; [|split; [rewrite J2; exact R2|exact R1]]. intros dir z Gd. rewrite J1 in Gd. exact (D4 dir z Gd).
      + intros n H. destruct (str_eq_dec n y) as [->|Ne].
        * exfalso. destruct H as [H|[H|H]]; [exact (Ny H)|apply H, Hh; left; reflexivity|exact (R1 H)].
        * rewrite IH, (D1 n Ne); [reflexivity|]. destruct H as [H|[H|H]]; [left; exact H|right; left; intro X; apply H, Hh; right; exact X|right; right; rewrite (D1 n Ne); exact H].
  Qed.
  Lemma names_exact : forall l w m,
    match rm_names junk sh root scripts conf l w m with
    | RRet w' m' => (forall n, ~ In n l -> mget n (w_db w') = mget n (w_db w)) /\ (forall n, In n l -> gone (w_db w') n /\ mget n (w_db w) <> None)
    | RStop _ w' => forall n, ~ In n l \/ mget n (w_db w) = None -> mget n (w_db w') = mget n (w_db w)
    end.
  Proof.
    induction l as [|y t IH]; intros w m; cbn [rm_names]; [split; [auto|intros n []]|].
    pose proof (rm_run_db junk sh root scripts conf y w m) as Hr. destruct (rm_run junk sh root scripts conf y w m) as [u w1 m1|e w1] eqn:Er; [|cbv beta iota in Hr; intros n _; rewrite Hr; reflexivity].
    destruct u. destruct (rm_run_mem _ _ _ _ _ _ _ _ _ _ Er) as (R1 & _ & _). destruct Hr as (D1 & _ & _ & D4). specialize (IH w1 m1). destruct (rm_names junk sh root scripts conf t w1 m1) as [w' m'|e w'].
    - destruct IH as (I1 & I2). split.
      + intros n H. assert (Nn : n <> y) by (intros ->; apply H; left; reflexivity). rewrite I1, (D1 n Nn); [reflexivity|]. intro X. apply H. right. exact X.
      + intros n H. destruct (in_dec str_eq_dec n t) as [Ht|Ht].
        * destruct (I2 n Ht) as (J1 & J2). split; [exact J1|]. destruct (str_eq_dec n y) as [->|Ne]; [exact R1|]. rewrite <- (D1 n Ne). exact J2.
        * destruct H as [<-|H]; [|destruct (Ht H)]. split; [|exact R1]. intros dir z Gd. rewrite (I1 y Ht) in Gd. exact (D4 dir z Gd).
    - intros n H. destruct (str_eq_dec n y) as [->|Ne].
      + exfalso. destruct H as [H|H]; [apply H; left; reflexivity|exact (R1 H)].
      + rewrite IH, (D1 n Ne); [reflexivity|]. destruct H as [H|H]; [left; intro X; apply H; right; exact X|right; rewrite (D1 n Ne); exact H].
  Qed.
  Lemma pairs_plain : forall l w m w' m', rm_pairs junk sh root scripts conf force l w m = RRet w' m' -> forall n, n <> [] -> has l n -> tidy_dir (w_db w) n -> mget n (w_db w') = None.
  Proof.
    induction l as [|[x c] t IH]; intros w m w' m' H n Nn Hn T; [destruct (has_nil _ Hn)|]. cbn [rm_pairs] in H. destruct x as [|a x].
    - apply (IH w m w' m' H n Nn); [|exact T]. destruct Hn as [c' [X|X]]; [injection X as X _; destruct (Nn (eq_sym X))|exists c'; exact X].
    - set (y := a :: x) in *. destruct (seqb c (L "base") && negb force); [discriminate H|]. pose proof (rm_run_db junk sh root scripts conf y w m) as Hr. destruct (rm_run junk sh root scripts conf y w m) as [u w1 m1|e w1] eqn:Er; [|discriminate H]. destruct u.
      destruct Hr as (D1 & _). pose proof (pairs_exact t w1 m1) as Pe. rewrite H in Pe. destruct Pe as (Sm & _).
      assert (Dec : has t n \/ ~ has t n). { destruct (in_dec str_eq_dec n (map fst t)) as [I|I]; [left; apply in_map_iff in I as [[n' c'] [<- I]]; exists c'; exact I|right; intros [c' X]; apply I; apply (in_map fst) in X; exact X]. }
      destruct (str_eq_dec n y) as [->|Ne].
      + assert (Z : mget y (w_db w1) = None) by (exact (rm_run_plain _ _ _ _ _ _ _ _ _ _ Er T)). destruct Dec as [Ht|Ht].
        * apply (IH w1 m1 w' m' H y Nn Ht). intros dir G. rewrite Z in G. discriminate G.
        * rewrite (proj1 (Sm y (or_intror Ht))). exact Z.
      + destruct Hn as [c' [X|X]]; [injection X as X _; destruct (Ne (eq_sym X))|]. apply (IH w1 m1 w' m' H n Nn (ex_intro _ c' X)). intros dir G. apply T. rewrite <- (D1 n Ne). exact G.
  Qed.
  (** the list is not worked on beyond a name that is not in the database *)
  Lemma names_stop : forall l1 y l2 w m w' e, rm_names junk sh root scripts conf (l1 ++ y :: l2) w m = RStop e w' -> mget y (w_db w) = None -> forall n, ~ In n l1 -> mget n (w_db w') = mget n (w_db w).
  Proof.
    induction l1 as [|x l1 IH]; intros y l2 w m w' e H Z n Nn; cbn [rm_names app] in H.
    - pose proof (rm_run_db junk sh root scripts conf y w m) as Hr. destruct (rm_run junk sh root scripts conf y w m) as [u w1 m1|e1 w1] eqn:Er; [destruct u; destruct (rm_run_mem _ _ _ _ _ _ _ _ _ _ Er) as (R1 & _); destruct (R1 Z)|].
      injection H as _ <-. cbv beta iota in Hr. rewrite Hr. reflexivity.
    - pose proof (rm_run_db junk sh root scripts conf x w m) as Hr. destruct (rm_run junk sh root scripts conf x w m) as [u w1 m1|e1 w1] eqn:Er.
      + destruct u. destruct (rm_run_mem _ _ _ _ _ _ _ _ _ _ Er) as (R1 & _). destruct Hr as (D1 & _). assert (Yx : y <> x) by (intros ->; exact (R1 Z)). assert (Nx : n <> x) by (intros ->; apply Nn; left; reflexivity).
        rewrite (IH y l2 w1 m1 w' e H); [exact (D1 n Nx)|rewrite (D1 y Yx); exact Z|intro I; apply Nn; right; exact I].
      + injection H as _ <-. cbv beta iota in Hr. rewrite Hr. reflexivity.
  Qed.
End Removals.
(** ** what is left over *)
Lemma gone_deps d n : gone d n -> disk_deps d n = [].
Proof.
  intro G. unfold disk_deps. assert (X : disk_lines d n = []); [|rewrite X; reflexivity]. unfold disk_lines. destruct (mget n d) as [dir|] eqn:E; [|reflexivity].
  rewrite (G dir (L "META") E); [reflexivity|]. intros v H. discriminate H.
Qed.
Lemma same_deps d d1 n : mget n d1 = mget n d -> disk_deps d1 n = disk_deps d n.
Proof. intro E. unfold disk_deps, disk_lines. rewrite E. reflexivity. Qed.
(** after the first phase: [S] is gone, the rest as before *)
Lemma left_over_spec junk d m d1 m2 (S : str -> Prop) : load junk d = Ok m -> (forall n, S n \/ ~ S n) -> (forall n, S n -> installed d n) ->
  (forall n, ~ S n -> mget n d1 = mget n d /\ mget n (m_pkgs m2) = mget n (m_pkgs m)) -> (forall n, S n -> gone d1 n /\ mget n (m_pkgs m2) = Some (empty_rec junk)) -> ssorted (keys (m_pkgs m2)) ->
  forall n, In n (obsolete (keys (m_pkgs m)) d1 m2) <-> left_over d S n \/ (junk = true /\ S n /\ ~ wanted_without d S n).
Proof.
  intros E Dec Si Out Inn SS n.
  assert (InM : forall x r, In (x, r) (m_pkgs m2) <-> mget x (m_pkgs m2) = Some r) by (intros x r; split; [apply In_mget, ssorted_NoDup, SS|apply mget_In]).
  assert (Keys : forall x, In x (keys (m_pkgs m2)) <-> installed d x).
  { intro x. destruct (Dec x) as [Sx|Sx].
    - split; [intros _; exact (Si x Sx)|]. intros _. apply in_map_iff. exists (x, empty_rec junk). split; [reflexivity|]. apply InM. exact (proj2 (Inn x Sx)).
    - rewrite <- (RemoveCmdProofs.load_installed junk d m x E). unfold keys. rewrite !in_map_iff. destruct (Out x Sx) as [_ Ex]. split; intros [[x' r] [Hx I]]; cbn [fst] in Hx; subst x'; exists (x, r); (split; [reflexivity|]).
      + apply InM in I. rewrite Ex in I. apply (load_In junk d m x r E). exact I.
      + apply (load_In junk d m x r E) in I. apply InM. rewrite Ex. exact I. }
  assert (Man : forall r, In r (manual m2) <-> (S r /\ junk = false) \/ (~ S r /\ installed d r /\ ~ automatic d r)).
  { intro r. unfold manual. rewrite in_map_iff. split.
    - intros [[r' rc] [Hr I]]. cbn [fst] in Hr. subst r'. apply filter_In in I as [I B]. cbn [snd] in B. apply negb_true_iff in B. apply InM in I. destruct (Dec r) as [Sr|Sr].
      + left. split; [exact Sr|]. rewrite (proj2 (Inn r Sr)) in I. injection I as <-. exact B.
      + right. split; [exact Sr|]. rewrite (proj2 (Out r Sr)) in I. split; [apply (RemoveCmdProofs.load_installed junk d m r E); apply (in_map fst (m_pkgs m) (r, rc)); apply mget_In; exact I|]. intro A. apply (load_auto junk d m r rc E I) in A. congruence.
    - intros [[Sr J]|(Sr & I & A)].
      + exists (r, empty_rec junk). split; [reflexivity|]. apply filter_In. split; [apply InM; exact (proj2 (Inn r Sr))|]. rewrite J. reflexivity.
      + destruct (proj2 (QueryProps.load_installed junk d m r E) I) as [rc G]. exists (r, rc). split; [reflexivity|]. apply filter_In. split; [apply InM; rewrite (proj2 (Out r Sr)); exact G|]. cbn [snd]. apply negb_true_iff.
        destruct (r_auto rc) eqn:B; [|reflexivity]. exfalso. apply A, (load_auto junk d m r rc E G), B. }
  assert (Rch : forall a b, reach (graph (keys (m_pkgs m)) d1) a b <-> chain d S a b).
  { intros a b. split; intro R.
    - induction R as [x|x k y I R IH]; [constructor|]. unfold graph in I. destruct (smem x (keys (m_pkgs m))) eqn:B; [|destruct I]. apply smem_In, (RemoveCmdProofs.load_installed junk d m x E) in B.
      destruct (Dec x) as [Sx|Sx]; [rewrite (gone_deps _ _ (proj1 (Inn x Sx))) in I; destruct I|]. rewrite (same_deps d d1 x (proj1 (Out x Sx))) in I. apply disk_deps_In in I. eapply ch_step; [exact (proj1 B)|exact Sx|exact I|exact IH].
    - induction R as [x|x k y Nx Sx I R IH]; [constructor|]. apply reach_step with k; [|exact IH]. unfold graph.
      assert (B : smem x (keys (m_pkgs m)) = true). { apply smem_In, (RemoveCmdProofs.load_installed junk d m x E). split; [exact Nx|]. destruct I as [s [[dir [c [ls [G _]]]] _]]. rewrite G. discriminate. }
      rewrite B, (same_deps d d1 x (proj1 (Out x Sx))). apply disk_deps_In. exact I. }
  unfold obsolete. rewrite filter_In, Keys, negb_true_iff.
  assert (H : smem n (needed (keys (m_pkgs m)) d1 m2) = true <-> (S n /\ junk = false) \/ wanted_without d S n).
  { rewrite smem_In, needed_spec. split.
    - intros (r & Mr & R). apply Man in Mr as [[Sr J]|(Sr & Ir & Ar)]; apply Rch in R.
      + left. destruct R as [x|x k y _ X]; [split; [exact Sr|exact J]|destruct (X Sr)].
      + right. exists r. auto.
    - intros [[Sn J]|(r & Ir & Sr & Ar & R)]; [exists n; split; [apply Man; left; auto|constructor]|]. exists r. split; [apply Man; right; auto|apply Rch; exact R]. }
  unfold left_over. destruct (smem n (needed (keys (m_pkgs m)) d1 m2)).
  - split; [intros [_ K]; discriminate K|]. intro K. exfalso. destruct (proj1 H eq_refl) as [[X J]|X]; [destruct K as [(_ & Sn & _)|(J' & _)]; [exact (Sn X)|congruence]|destruct K as [(_ & _ & W)|(_ & _ & W)]; exact (W X)].
  - assert (Nw : ~ wanted_without d S n) by (intro W; assert (X := proj2 H (or_intror W)); discriminate X). split.
    + intros [I _]. destruct (Dec n) as [Sn|Sn]; [right|left; auto]. split; [|auto]. destruct junk; [reflexivity|]. assert (X := proj2 H (or_introl (conj Sn eq_refl))). discriminate X.
    + intros [(I & _)|(_ & Sn & _)]; (split; [|reflexivity]); [exact I|exact (Si n Sn)].
Qed.
Lemma fold_sins_sorted {A} (g : A -> bool) (h : A -> str) k : forall acc, ssorted acc -> ssorted (fold_left (fun acc j => if g j then sins (h j) acc else acc) k acc).
Proof. induction k as [|j k IH]; intros acc S; cbn [fold_left]; [exact S|]. apply IH. destruct (g j); [apply sins_sorted; exact S|exact S]. Qed.
Lemma with_siblings_sorted groups m l : ssorted l -> ssorted (with_siblings groups m l).
Proof. intro H. unfold with_siblings. cbv zeta. apply (fold_sins_sorted (fun n => name_exists m n) (fun n => n)). exact H. Qed.
Lemma sorted_before l1 x l2 : ssorted (l1 ++ x :: l2) -> forall n, In n l1 -> slt n x.
Proof.
  induction l1 as [|y l1 IH]; intros So n I; [destruct I|]. inversion So as [|? ? S1 F]; subst. destruct I as [<-|I]; [|exact (IH S1 n I)]. rewrite Forall_forall in F. apply F. apply in_elt.
Qed.
(** ** the command *)
Section Exact.
  Variables (junk : bool) (sh : str -> fs -> fs * bool) (root : str) (scripts : bool) (conf : option str) (force : bool) (groups : list str).
  Notation remove_cmd := (remove_cmd junk sh root scripts conf force groups).
  Lemma siblings_has m l n : has (add_siblings groups m l) n <-> has l n \/ (name_exists m n = true /\ exists x, has l x /\ group_package groups x n).
  Proof.
    unfold has. split.
    - intros [c H]. apply siblings_In in H as [H|[Ne (g & j & G & J & Eq)]]; [left; exists c; exact H|]. right. cbn [fst] in Ne. split; [exact Ne|]. injection Eq as Eq _. exists (fst j). split; [exists (snd j); destruct j; exact J|].
      apply real_groups_In in G as [G1 G2]. exists g. auto.
    - intros [[c H]|[Ne (x & [c H] & g & G1 & G2 & Eq)]]; [exists c; apply siblings_In; left; exact H|]. exists c. apply siblings_In. right. cbn [fst]. split; [exact Ne|]. exists g, (x, c). split; [apply real_groups_In; auto|]. split; [exact H|]. cbn [fst snd]. rewrite Eq. reflexivity.
  Qed.
  Lemma names_has m l n : In n (with_siblings groups m l) <-> In n l \/ (name_exists m n = true /\ exists x, In x l /\ group_package groups x n).
  Proof.
    rewrite with_siblings_In. split.
    - intros [H|[Ne (g & j & G & J & ->)]]; [left; exact H|]. right. split; [exact Ne|]. exists j. split; [exact J|]. apply real_groups_In in G as [G1 G2]. exists g. auto.
    - intros [H|[Ne (x & I & g & G1 & G2 & ->)]]; [left; exact H|]. right. split; [exact Ne|]. exists g, x. split; [apply real_groups_In; auto|]. auto.
  Qed.
  Lemma chosen_installed d args n : chosen d args n -> installed d n.
  Proof. intros [i _ [I _]|i r _ _ [I _]|i _ [[I _] _]]; exact I. Qed.
  Lemma asked_installed d args n : asked d groups args n -> installed d n.
  Proof. intros [C|[I _]]; [exact (chosen_installed _ _ _ C)|exact I]. Qed.
  Lemma removed_installed d args n : removed d groups args n -> installed d n.
  Proof. intros [A|[(I & _)|(I & _)]]; [exact (asked_installed _ _ _ A)|exact I|exact I]. Qed.
  Lemma remove_all args w m : load junk (w_db w) = Ok m -> plain_db (w_db w) ->
    (forall n, ~ removed (w_db w) groups args n -> mget n (w_db (snd (remove_cmd args w))) = mget n (w_db w)) /\
    (fst (remove_cmd args w) = None -> forall n, removed (w_db w) groups args n -> gone (w_db (snd (remove_cmd args w))) n).
  Proof.
    intros E Pd. set (d := w_db w) in *. unfold RemoveCmd.remove_cmd. cbv zeta. cbn [w_db]. fold d. rewrite E. destruct (sel_args d m args []) as [i|[m1 l]] eqn:Es; [split; [reflexivity|discriminate]|].
    destruct (sel_all junk d m args m1 l E Pd Es) as ((P1 & A1 & A2) & Hl). set (L1 := add_siblings groups m1 l). set (w0 := World (cleanup_meta (w_fs w) root) d).
    assert (Ni : forall n, installed d n -> n <> []) by (intros n [_ G]; exact (proj2 (plain_name d n Pd G))).
    assert (Inst : forall n, mget n d <> None -> installed d n) by (intros n G; split; [exact (proj1 (plain_name d n Pd G))|exact G]).
    assert (Nex : forall n, installed d n -> name_exists m1 n = true).
    { intros n I. unfold name_exists. destruct (mget n (m_alias m1)) as [b|] eqn:G; [reflexivity|]. exfalso. assert (Ne : name_exists m n = true) by (apply (name_exists_known junk d m n E); exists n; split; [exact (proj1 I)|]; split; [exact (proj2 I)|left; reflexivity]).
      unfold name_exists in Ne. destruct (mget n (m_alias m)) as [b|] eqn:G2; [|discriminate Ne]. apply (load_means junk d m n b E) in G2. rewrite (A2 _ _ G2) in G. discriminate G. }
    (* a name of the list that is an entry of the database is asked for *)
    assert (In1 : forall n, has L1 n -> mget n d <> None -> asked d groups args n).
    { intros n H G. pose proof (Inst n G) as I. apply siblings_has in H as [H|(Ne & x & Hx & Gx)]; [left; apply Hl; [exact (Ni n I)|exact H]|]. destruct x as [|a x].
      - exfalso. destruct Gx as (g & _ & _ & ->). apply (proj1 I (g)). reflexivity.
      - right. split; [exact I|]. exists (a :: x). split; [apply Hl; [discriminate|exact Hx]|exact Gx]. }
    assert (Out1 : forall n, asked d groups args n -> n <> [] /\ has L1 n).
    { intros n A. split; [exact (Ni n (asked_installed _ _ _ A))|]. apply siblings_has. destruct A as [C|(I & x & C & G)]; [left; apply Hl; [exact (Ni n (chosen_installed _ _ _ C))|exact C]|]. right. split; [exact (Nex n I)|]. exists x. split; [|exact G]. apply Hl; [exact (Ni x (chosen_installed _ _ _ C))|exact C]. }
    pose proof (pairs_exact junk sh root scripts conf force L1 w0 m1) as H1. cbn [w_db] in H1. destruct (rm_pairs junk sh root scripts conf force L1 w0 m1) as [w1 m2|e w1] eqn:Ep.
    2:{ split; [|discriminate]. intros n R. cbn [snd]. apply H1. destruct (mget n d) as [dir|] eqn:G; [|right; right; exact G]. right. left. intro H. apply R. left. apply In1; [exact H|congruence]. }
    assert (Pl : forall n, asked d groups args n -> mget n (w_db w1) = None).
    { intros n A. destruct (Out1 n A) as [Nn H]. apply (pairs_plain junk sh root scripts conf force L1 w0 m1 w1 m2 Ep n Nn H). intros dir G. exact (proj2 (proj2 (Pd n dir G))). }
    destruct H1 as (Same & Gone & Srt). set (Sx := asked d groups args).
    assert (Dec : forall n, Sx n \/ ~ Sx n).
    { intro n. destruct (in_dec str_eq_dec n (map fst L1)) as [I|I].
      - apply in_map_iff in I as [[n' c] [En I]]. cbn [fst] in En. subst n'. destruct (mget n d) as [dir|] eqn:G; [left; apply In1; [exists c; exact I|congruence]|right; intro A; apply asked_installed in A as [_ A]; exact (A G)].
      - right. intro A. apply Out1 in A as [_ [c A]]. apply I. apply (in_map fst) in A. exact A. }
    assert (Iff : forall n, n <> [] -> (has L1 n <-> Sx n)).
    { intros n Nn. split; [|intro A; exact (proj2 (Out1 n A))]. intro H. apply In1; [exact H|]. exact (proj2 (proj2 (Gone n Nn H))). }
    assert (SameS : forall n, ~ Sx n -> mget n (w_db w1) = mget n d /\ mget n (m_pkgs m2) = mget n (m_pkgs m) /\ mget n (m_alias m2) = mget n (m_alias m1)).
    { intros n Sn. rewrite <- P1. apply Same. destruct n as [|a n]; [left; reflexivity|]. right. intro H. apply Sn. apply Iff; [discriminate|exact H]. }
    assert (GoneS : forall n, Sx n -> gone (w_db w1) n /\ mget n (m_pkgs m2) = Some (empty_rec junk)).
    { intros n A. destruct (Out1 n A) as [Nn H]. destruct (Gone n Nn H) as (X & Y & _). auto. }
    pose proof (left_over_spec junk d m (w_db w1) m2 Sx E Dec (asked_installed d args) (fun n Sn => conj (proj1 (SameS n Sn)) (proj1 (proj2 (SameS n Sn)))) GoneS) as Lo.
    assert (SS : ssorted (keys (m_pkgs m2))) by (apply Srt; rewrite P1; exact (load_keys _ _ _ E)). specialize (Lo SS).
    unfold autoremove. set (L2 := with_siblings groups m2 (obsolete (keys (m_pkgs m)) (w_db w1) m2)).
    pose proof (names_exact junk sh root scripts conf L2 w1 m2) as H2. destruct (rm_names junk sh root scripts conf L2 w1 m2) as [w2 m3|e w2] eqn:En; cbn [fst snd].
    - destruct H2 as (Same2 & Gone2).
      assert (Lo2 : forall n, In n (obsolete (keys (m_pkgs m)) (w_db w1) m2) <-> left_over d Sx n).
      { intro n. split; [|intro X; apply Lo; left; exact X]. intro I. assert (I2 : In n L2) by (apply names_has; left; exact I). apply Lo in I as [X|(_ & Sn & _)]; [exact X|]. destruct (proj2 (Gone2 n I2) (Pl n Sn)). }
      assert (In2 : forall n, In n L2 -> mget n d <> None -> removed d groups args n).
      { intros n H G. apply names_has in H as [H|(_ & x & Hx & Gx)]; [right; left; apply Lo2; exact H|]. right. right. split; [exact (Inst n G)|]. exists x. split; [apply Lo2; exact Hx|exact Gx]. }
      split.
      + intros n R. assert (Sn : ~ Sx n) by (intro A; apply R; left; exact A). rewrite Same2; [exact (proj1 (SameS n Sn))|]. intro I. apply R. apply In2; [exact I|]. rewrite <- (proj1 (SameS n Sn)). exact (proj2 (Gone2 n I)).
      + intros _ n R. destruct (in_dec str_eq_dec n L2) as [I|I]; [exact (proj1 (Gone2 n I))|]. assert (Sn : Sx n).
        { destruct R as [A|[Lf|(In_ & x & Lf & G)]]; [exact A|exfalso; apply I; apply names_has; left; apply Lo2; exact Lf|]. destruct (Dec n) as [A|A]; [exact A|]. exfalso. apply I. apply names_has. right. split; [|exists x; split; [apply Lo2; exact Lf|exact G]].
          unfold name_exists. rewrite (proj2 (proj2 (SameS n A))). exact (Nex n In_). }
        intros dir z G. rewrite (Same2 n I) in G. exact (proj1 (GoneS n Sn) dir z G).
    - split; [|discriminate]. intros n R. assert (Sn : ~ Sx n) by (intro A; apply R; left; exact A). destruct (mget n d) as [dir|] eqn:G; [|rewrite H2; [exact (eq_trans (proj1 (SameS n Sn)) G)|right; rewrite (proj1 (SameS n Sn)); exact G]].
      rewrite <- G, <- (proj1 (SameS n Sn)). destruct (in_dec str_eq_dec n L2) as [I|I]; [|apply H2; left; exact I]. pose proof I as I0. assert (Ig : installed d n) by (apply Inst; congruence).
      apply names_has in I as [I|(_ & x & Hx & Gx)]; [apply Lo in I as [X|(_ & X & _)]; [destruct (R (or_intror (or_introl X)))|destruct (Sn X)]|].
      pose proof Hx as Hx0. apply Lo in Hx as [X|(_ & Sx_ & _)]; [exfalso; apply R; right; right; split; [exact Ig|exists x; auto]|].
      assert (Ix : In x L2) by (apply names_has; left; exact Hx0). destruct (in_split _ _ Ix) as (l1 & l2 & Eq).
      refine (names_stop junk sh root scripts conf l1 x l2 w1 m2 w2 e _ (Pl x Sx_) n _); [rewrite <- Eq; exact En|]. intro In1'.
      assert (So : ssorted L2) by (apply with_siblings_sorted; unfold obsolete; apply filter_sorted; exact SS). rewrite Eq in So.
      assert (Lt : slt x n). { destruct Gx as (g & _ & _ & ->). apply slt_prefix. discriminate. }
      assert (Gt : slt n x). { apply (sorted_before l1 x l2 So n In1'). } exact (slt_irrefl x (slt_trans _ _ _ Lt Gt)).
  Qed.
  (** When the command succeeds, exactly the packages [removed] describes have left the database. *)
  Theorem C94_exact : forall args w w', plain_db (w_db w) -> remove_cmd args w = (None, w') ->
    forall n, (removed (w_db w) groups args n -> gone (w_db w') n) /\ (~ removed (w_db w) groups args n -> mget n (w_db w') = mget n (w_db w)).
  Proof.
    intros args w w' Pd R n. destruct (load junk (w_db w)) as [m| |] eqn:E.
    - destruct (remove_all args w m E Pd) as [A B]. rewrite R in A, B. split; [apply B; reflexivity|apply A].
    - unfold RemoveCmd.remove_cmd in R. cbv zeta in R. cbn [w_db] in R. rewrite E in R. discriminate R.
    - unfold RemoveCmd.remove_cmd in R. cbv zeta in R. cbn [w_db] in R. rewrite E in R. discriminate R.
  Qed.
  (** When it fails, at any point, no other package has been touched. *)
  Theorem C94_no_other : forall args w e w', plain_db (w_db w) -> remove_cmd args w = (Some e, w') ->
    forall n, ~ removed (w_db w) groups args n -> mget n (w_db w') = mget n (w_db w).
  Proof.
    intros args w e w' Pd R n Nr. destruct (load junk (w_db w)) as [m| |] eqn:E.
    - destruct (remove_all args w m E Pd) as [A _]. rewrite R in A. exact (A n Nr).
    - unfold RemoveCmd.remove_cmd in R. cbv zeta in R. cbn [w_db] in R. rewrite E in R. injection R as _ <-. reflexivity.
    - unfold RemoveCmd.remove_cmd in R. cbv zeta in R. cbn [w_db] in R. rewrite E in R. injection R as _ <-. reflexivity.
  Qed.
End Exact.
(** ** when it is refused, when it succeeds *)
Lemma in_use_same m m' i : m_pkgs m = m_pkgs m' -> in_use m i = in_use m' i.
Proof. intro E. unfold in_use. rewrite E. reflexivity. Qed.
Lemma sel_args_refuses d m : forall args m0 acc, m_pkgs m0 = m_pkgs m -> ((exists i, sel_args d m0 args acc = inl i) <-> exists i, In i args /\ (i = L "base" \/ in_use m i = true)).
Proof.
  induction args as [|k t IH]; intros m0 acc P; cbn [sel_args].
  - split; [intros [i X]; discriminate X|intros [i [[] _]]].
  - rewrite (in_use_same _ _ k P). destruct (seqb k (L "base") || in_use m k) eqn:B.
    + split; [intros _; exists k; split; [left; reflexivity|]|intros _; exists k; reflexivity]. apply orb_true_iff in B as [B|B]; [left; apply seqb_eq; exact B|right; exact B].
    + assert (Q : m_pkgs (fst (sel_arg d m0 k acc)) = m_pkgs m) by (unfold sel_arg; cbv zeta; destruct (mget k (m_alias m0)); exact P). destruct (sel_arg d m0 k acc) as [m' acc']. cbn [fst] in Q. rewrite (IH m' acc' Q). split; [intros (i & I & X); exists i; split; [right; exact I|exact X]|].
      intros (i & [<-|I] & X); [|exists i; auto]. exfalso. apply orb_false_iff in B as [B1 B2]. destruct X as [X|X]; [apply seqb_neq in B1; exact (B1 X)|congruence].
Qed.
Lemma rm_run_ok junk sh root conf name w m rs : read_rules_file conf = inl rs -> name_exists m name = true -> mget name (w_db w) <> None -> exists w' m', rm_run junk sh root false conf name w m = Ret tt w' m'.
Proof.
  intros R N G. unfold rm_run. rewrite R, N. cbn [negb]. cbv zeta. unfold remove_files. cbv beta iota zeta. unfold remove_refs. cbn [w_db]. destruct (mget name (w_db w)) as [dir|]; [|destruct (G eq_refl)]. eexists. eexists. reflexivity.
Qed.
Lemma rm_names_ok junk sh root conf rs : read_rules_file conf = inl rs -> forall l w m, NoDup l -> (forall n, In n l -> name_exists m n = true /\ mget n (w_db w) <> None) -> exists w' m', rm_names junk sh root false conf l w m = RRet w' m'.
Proof.
  intro R. induction l as [|y t IH]; intros w m Nd H; cbn [rm_names]; [eauto|]. inversion Nd as [|? ? Ny Nt]; subst. destruct (H y (or_introl eq_refl)) as [Y1 Y2]. destruct (rm_run_ok junk sh root conf y w m rs R Y1 Y2) as (w1 & m1 & Er).
  pose proof (rm_run_db junk sh root false conf y w m) as Hr. rewrite Er in *. destruct Hr as (D1 & _ & D3 & _). apply IH; [exact Nt|]. intros n I. assert (Ne : n <> y) by (intros ->; exact (Ny I)). destruct (H n (or_intror I)) as [H1 H2]. unfold name_exists in *. rewrite (D3 n Ne), (D1 n Ne). auto.
Qed.
Section Succeeds.
  Variables (junk : bool) (sh : str -> fs -> fs * bool) (root : str) (scripts : bool) (conf : option str) (force : bool) (groups : list str).
  Notation remove_cmd := (remove_cmd junk sh root scripts conf force groups).
  (** It is refused before anything is done exactly when an argument is "base" or the name of something an installed package needs. *)
  Theorem C94_refused : forall args w m, load junk (w_db w) = Ok m ->
    ((exists i, fst (remove_cmd args w) = Some (InUse i)) <-> exists i, In i args /\ (i = L "base" \/ exists n, installed (w_db w) n /\ needs (w_db w) n i)) /\
    forall i w', remove_cmd args w = (Some (InUse i), w') -> w_db w' = w_db w.
  Proof.
    intros args w m E. unfold RemoveCmd.remove_cmd. cbv zeta. cbn [w_db]. rewrite E.
    assert (H := sel_args_refuses (w_db w) m args m [] eq_refl). assert (Q : (exists i, sel_args (w_db w) m args [] = inl i) <-> exists i, In i args /\ (i = L "base" \/ exists n, installed (w_db w) n /\ needs (w_db w) n i)).
    { rewrite H. split; intros (i & I & [X|X]); exists i; (split; [exact I|]); [left; exact X|right; apply (in_use_spec junk _ m i E); exact X|left; exact X|right; apply (in_use_spec junk _ m i E); exact X]. }
    rewrite <- Q. clear H Q.
    assert (Np : forall l w1 m1 i w', rm_pairs junk sh root scripts conf force l w1 m1 <> RStop (InUse i) w').
    { induction l as [|[x c] t IH]; intros w1 m1 i w'; cbn [rm_pairs]; [discriminate|]. destruct x; [apply IH|]. destruct (seqb c (L "base") && negb force); [discriminate|]. destruct (rm_run _ _ _ _ _ _ _ _); [apply IH|discriminate]. }
    assert (Nn : forall l w1 m1 i w', rm_names junk sh root scripts conf l w1 m1 <> RStop (InUse i) w').
    { induction l as [|x t IH]; intros w1 m1 i w'; cbn [rm_names]; [discriminate|]. destruct (rm_run _ _ _ _ _ _ _ _); [apply IH|discriminate]. }
    destruct (sel_args (w_db w) m args []) as [i|[m1 l]].
    - split; [split; intros _; exists i; reflexivity|]. intros j w' X. injection X as _ <-. reflexivity.
    - assert (X : forall i w', match rm_pairs junk sh root scripts conf force (add_siblings groups m1 l) (World (cleanup_meta (w_fs w) root) (w_db w)) m1 with
        | RRet w1 m2 => match autoremove junk sh root scripts conf groups (keys (m_pkgs m)) w1 m2 with RRet w2 _ => (None, w2) | RStop e w2 => (Some e, w2) end | RStop e w1 => (Some e, w1) end <> (Some (InUse i), w')).
      { intros i w'. destruct (rm_pairs junk sh root scripts conf force _ _ m1) as [w1 m2|e w1] eqn:R1; [|intro X; injection X as -> ->; exact (Np _ _ _ _ _ R1)]. destruct (autoremove junk sh root scripts conf groups _ w1 m2) as [w2 m3|e w2] eqn:R2; [discriminate|]. intro X. injection X as -> ->. exact (Nn _ _ _ _ _ R2). }
      split; [split; [intros [i Y]; exfalso|intros [i Y]; discriminate Y]|intros i w' Y; destruct (X i w' Y)].
      match type of Y with fst ?q = _ => destruct q as [o w'] eqn:Eq end. cbn [fst] in Y. subst o. exact (X i w' eq_refl).
  Qed.
  (** Without argument and without removal scripts it succeeds exactly if no name that a group package of a left-over package would have is only an alias. *)
  Theorem C94_autoremove_succeeds : forall w m rs, load junk (w_db w) = Ok m -> plain_db (w_db w) -> scripts = false -> read_rules_file conf = inl rs ->
    (fst (remove_cmd [] w) = None <-> forall x n, left_over (w_db w) (asked (w_db w) groups []) x -> group_package groups x n -> known (w_db w) n -> installed (w_db w) n).
  Proof.
    intros w m rs E Pd Sc R. set (d := w_db w) in *. rewrite (noarg junk sh root scripts conf force groups w m E). fold d.
    assert (NoS : forall n, ~ asked d groups [] n). { intros n A. destruct A as [[i []|i r X|i []]|(_ & x & [i []|i r X|i []] & _)]; discriminate X. }
    assert (Lo : forall n, In n (obsolete (keys (m_pkgs m)) d m) <-> left_over d (asked d groups []) n).
    { intro n0. refine (iff_trans (left_over_spec junk d m d m (asked d groups []) E _ _ _ _ _ n0) _); [intro n; right; apply NoS|intros n A; destruct (NoS n A)|intros n _; auto|intros n A; destruct (NoS n A)|exact (load_keys _ _ _ E)|]. split; [intros [X|(_ & X & _)]; [exact X|destruct (NoS _ X)]|intro X; left; exact X]. }
    set (L2 := with_siblings groups m (obsolete (keys (m_pkgs m)) d m)).
    assert (Nm : forall n, In n L2 -> name_exists m n = true).
    { intros n I. apply names_has in I as [I|[Ne _]]; [|exact Ne]. apply Lo in I as (I & _). apply (name_exists_known junk d m n E). exists n. split; [exact (proj1 I)|]. split; [exact (proj2 I)|left; reflexivity]. }
    split.
    - intros F x n Lx Gx Kn. pose proof (names_exact junk sh root scripts conf L2 (World (cleanup_meta (w_fs w) root) d) m) as H. destruct (rm_names junk sh root scripts conf L2 _ m) as [w' m'|e w']; [|discriminate F]. destruct H as [_ H].
      assert (I : In n L2) by (apply names_has; right; split; [apply (name_exists_known junk d m n E); exact Kn|exists x; split; [apply Lo; exact Lx|exact Gx]]). destruct (H n I) as [_ G]. cbn [w_db] in G. split; [exact (proj1 (plain_name d n Pd G))|exact G].
    - intro H. subst scripts. destruct (rm_names_ok junk sh root conf rs R L2 (World (cleanup_meta (w_fs w) root) d) m) as (w' & m' & ->); [| |reflexivity].
      + apply ssorted_NoDup. unfold L2, with_siblings. cbv zeta. apply (fold_sins_sorted (fun n => name_exists m n) (fun n => n)). unfold obsolete. apply filter_sorted. exact (load_keys _ _ _ E).
      + intros n I. split; [exact (Nm n I)|]. cbn [w_db]. pose proof (Nm n I) as Ne. apply names_has in I as [I|(_ & x & Ix & Gx)]; [apply Lo in I as ([_ G] & _); exact G|]. apply (proj2 (H x n (proj1 (Lo x) Ix) Gx (proj1 (name_exists_known junk d m n E) Ne))).
  Qed.
End Succeeds.
(** ** C21: the only ways in which a package of the base collection is removed without the flag *)
Lemma sel_pairs d m : forall args m0 acc m1 l, m_pkgs m0 = m_pkgs m -> (forall a b, mget a (m_alias m) = Some b -> mget a (m_alias m0) = Some b) -> sel_args d m0 args acc = inr (m1, l) ->
  incl acc l /\ forall i, In i args -> (forall n r, In (n, r) (m_pkgs m) -> r_coll r = i \/ r_group r = i -> In (n, r_coll r) l) /\ (forall b, mget i (m_alias m) = Some b -> In (b, disk_item d i "c") l).
Proof.
  induction args as [|i t IH]; intros m0 acc m1 l P A H; cbn [sel_args] in H; [injection H as _ <-; split; [apply incl_refl|intros i []]|].
  destruct (seqb i (L "base") || in_use m0 i); [discriminate H|]. set (acc2 := match by_coll m0 i acc with [] => by_set m0 i (by_coll m0 i acc) | _ => by_coll m0 i acc end).
  assert (I1 : incl (by_coll m0 i acc) acc2). { unfold acc2. destruct (by_coll m0 i acc) as [|q u]; [intros p []|apply incl_refl]. }
  assert (I0 : incl acc (by_coll m0 i acc)) by (intros p I; unfold by_coll; apply fold_pins; left; exact I).
  assert (Cl : forall n r, In (n, r) (m_pkgs m) -> r_coll r = i \/ r_group r = i -> In (n, r_coll r) (by_coll m0 i acc)).
  { intros n r I X. unfold by_coll. apply fold_pins. right. exists (n, r). split; [rewrite P; exact I|]. split; [|reflexivity]. cbn [snd]. apply orb_true_iff. destruct X as [<-|<-]; [left|right]; apply seqb_refl. }
  unfold sel_arg in H. cbv zeta in H. fold acc2 in H. destruct (mget i (m_alias m0)) as [a|] eqn:Ma.
  - destruct (IH _ _ _ _ P A H) as [J K]. split; [intros p I; apply J; apply pins_In; right; apply I1, I0, I|]. intros j [<-|Ij]; [|exact (K j Ij)]. split.
    + intros n r I X. apply J. apply pins_In. right. apply I1. exact (Cl n r I X).
    + intros b G. rewrite (A i b G) in Ma. injection Ma as <-. apply J. apply pins_In. left. reflexivity.
  - assert (A' : forall x b, mget x (m_alias m) = Some b -> mget x (m_alias (Mem (m_pkgs m0) (mset i [] (m_alias m0)) (m_dep m0))) = Some b).
    { intros x b G. cbn [m_alias]. rewrite mget_mset. destruct (seqb x i) eqn:B; [|exact (A x b G)]. apply seqb_eq in B. subst x. rewrite (A i b G) in Ma. discriminate Ma. }
    destruct (IH (Mem (m_pkgs m0) (mset i [] (m_alias m0)) (m_dep m0)) _ _ _ P A' H) as [J K].
    split; [intros p I; apply J; apply pins_In; right; apply I1, I0, I|]. intros j [<-|Ij]; [|exact (K j Ij)]. split; [intros n r I X; apply J; apply pins_In; right; apply I1; exact (Cl n r I X)|]. intros b G. rewrite (A i b G) in Ma. discriminate Ma.
Qed.
Lemma sel_first_set d m i t m1 l : sel_args d m (i :: t) [] = inr (m1, l) -> (forall j, In j (m_pkgs m) -> r_coll (snd j) <> i /\ r_group (snd j) <> i) ->
  forall n r, In (n, r) (m_pkgs m) -> In i (r_sets r) -> In (n, r_coll r) l.
Proof.
  intros H N n r I S. cbn [sel_args] in H. destruct (seqb i (L "base") || in_use m i); [discriminate H|].
  assert (B0 : by_coll m i [] = []). { apply no_pair. intros x [c X]. unfold by_coll in X. apply fold_pins in X as [[]|[j (Ij & B & _)]]. destruct (N j Ij) as [N1 N2]. apply orb_true_iff in B as [B|B]; apply seqb_eq in B; [exact (N1 B)|exact (N2 B)]. }
  assert (S0 : In (n, r_coll r) (by_set m i [])) by (unfold by_set; apply fold_pins; right; exists (n, r); split; [exact I|]; split; [apply smem_In; exact S|reflexivity]).
  unfold sel_arg in H. cbv zeta in H. rewrite B0 in H. destruct (mget i (m_alias m)) as [a|] eqn:Ma.
  - destruct (sel_pairs d m t m _ m1 l eq_refl (fun _ _ G => G) H) as [J _]. apply J. apply pins_In. right. exact S0.
  - assert (A' : forall x b, mget x (m_alias m) = Some b -> mget x (m_alias (Mem (m_pkgs m) (mset i [] (m_alias m)) (m_dep m))) = Some b).
    { intros x b G. cbn [m_alias]. rewrite mget_mset. destruct (seqb x i) eqn:B; [|exact G]. apply seqb_eq in B. subst x. rewrite G in Ma. discriminate Ma. }
    destruct (sel_pairs d m t (Mem (m_pkgs m) (mset i [] (m_alias m)) (m_dep m)) _ m1 l eq_refl A' H) as [J _]. apply J. apply pins_In. right. exact S0.
Qed.
Lemma rm_pairs_stops junk sh root scripts conf l n : forall w m w' m', n <> [] -> In (n, L "base") l -> rm_pairs junk sh root scripts conf false l w m <> RRet w' m'.
Proof.
  induction l as [|[x c] t IH]; intros w m w' m' Nn I; [destruct I|]. cbn [rm_pairs]. destruct I as [Eq|I].
  - injection Eq as -> ->. destruct n as [|a n]; [destruct (Nn eq_refl)|]. rewrite seqb_refl. discriminate.
  - destruct x as [|a x]; [apply IH; assumption|]. destruct (seqb c (L "base") && negb false); [discriminate|]. destruct (rm_run _ _ _ _ _ _ _ _) as [u w1 m1|e w1]; [apply IH; assumption|discriminate].
Qed.
Theorem C21_exact junk sh root scripts conf groups args w w' n : plain_db (w_db w) -> base_package (w_db w) n -> installed (w_db w) n ->
  remove_cmd junk sh root scripts conf false groups args w = (None, w') ->
  (removed (w_db w) groups args n -> (exists i, In i args /\ i <> n /\ means (w_db w) i n) \/ (exists x, chosen (w_db w) args x /\ group_package groups x n) \/
      left_over (w_db w) (asked (w_db w) groups args) n \/ (exists x, left_over (w_db w) (asked (w_db w) groups args) x /\ group_package groups x n)) /\
  (~ removed (w_db w) groups args n -> mget n (w_db w') = mget n (w_db w)).
Proof.
  intros Pd B I R. split; [|apply (C94_exact junk sh root scripts conf false groups args w w' Pd R n)]. intro Rm. set (d := w_db w) in *.
  destruct Rm as [[C|(_ & x & C & G)]|[Lf|(_ & x & Lf & G)]]; [|right; left; exists x; auto|right; right; left; exact Lf|right; right; right; exists x; auto].
  unfold RemoveCmd.remove_cmd in R. cbv zeta in R. cbn [w_db] in R. fold d in R. destruct (load junk d) as [m| |] eqn:E; [|discriminate R|discriminate R].
  destruct (sel_args d m args []) as [i|[m1 l]] eqn:Es; [discriminate R|]. destruct (rm_pairs junk sh root scripts conf false (add_siblings groups m1 l) (World (cleanup_meta (w_fs w) root) d) m1) as [w1 m2|e w1] eqn:Er; [|discriminate R].
  assert (Ni : n <> []) by (exact (proj2 (plain_name d n Pd (proj2 I)))).
  assert (Stop : ~ In (n, L "base") l). { intro X. refine (rm_pairs_stops junk sh root scripts conf _ n _ _ _ _ Ni _ Er). apply siblings_In. left. exact X. }
  destruct (sel_pairs d m args m [] m1 l eq_refl (fun _ _ G => G) Es) as [_ K].
  destruct C as [i Ii Cl|i rest Eq Nc Sn|i Ii Mn].
  - exfalso. apply (load_class junk d m n i E) in Cl as (r & Gr & X). apply Stop. rewrite <- (base_coll junk d m n r E B Gr). apply (proj1 (K i Ii) n r); [apply mget_In; exact Gr|exact X].
  - exfalso. apply (load_set junk d m n i E) in Sn as (r & Gr & X). apply Stop. rewrite <- (base_coll junk d m n r E B Gr). subst args. apply (sel_first_set d m i rest m1 l Es); [|apply mget_In; exact Gr|exact X].
    intros [x rx] Ix. cbn [snd]. apply (load_In junk d m x rx E) in Ix. split; intro Y; apply (Nc x); apply (load_class junk d m x i E); exists rx; auto.
  - destruct (str_eq_dec i n) as [->|Ne]; [|left; exists i; auto]. exfalso. apply Stop. rewrite <- (base_item d n B). apply (proj2 (K n Ii)). apply (load_means junk d m n n E). exact Mn.
Qed.
(** ** the hypotheses are met *)
Lemma plain_check d : forallb (fun e => nondot (fst e) && negb (seqb (fst e) []) && forallb nondot (keys (snd e))) d = true -> plain_db d.
Proof.
  intros H n dir G. rewrite forallb_forall in H. apply mget_In in G. specialize (H _ G). cbn [fst snd] in H. apply andb_true_iff in H as [H C]. apply andb_true_iff in H as [A B].
  split; [exact (proj1 (nondot_spec n) A)|]. split; [intros ->; discriminate B|]. intros x I. rewrite forallb_forall in C. exact (proj1 (nondot_spec x) (C x I)).
Qed.
(** app (by hand) needs lib; old is automatic, nobody needs it; tool (by hand) needs nothing and has the alias util *)
Definition tool1 := mk (L "tool") [L "cextra"; L "Autil"].
Definition w_tool : world := add1 false tool1 w_app.
Lemma tool_plain : plain_db (w_db w_tool). Proof. apply plain_check. dec. Qed.
Definition loaded : mem := match load false (w_db w_tool) with Ok m => m | _ => Mem [] [] false end.
Lemma tool_loads : load false (w_db w_tool) = Ok loaded. Proof. vm_compute. reflexivity. Qed.
Lemma tool_names n : installed (w_db w_tool) n -> In n [L "app"; L "lib"; L "old"; L "tool"].
Proof.
  intros [_ G]. destruct (mget n (w_db w_tool)) as [x|] eqn:X; [|destruct (G eq_refl)]. apply mget_In in X. apply (in_map fst) in X. cbn [fst] in X.
  assert (K : map fst (w_db w_tool) = [L "app"; L "lib"; L "old"; L "tool"]) by dec. rewrite K in X. exact X.
Qed.
Lemma tool_chosen n : chosen (w_db w_tool) [L "app"] n <-> n = L "app".
Proof.
  assert (Mp : mget (L "app") (m_alias loaded) = Some (L "app")) by dec. split.
  - intros [i [<-|[]] C|i rest Eq _ [I C]|i [<-|[]] C].
    + exfalso. apply (load_class false _ loaded _ _ tool_loads) in C as (r & G & C). apply mget_In in G.
      assert (F : forallb (fun j => negb (seqb (r_coll (snd j)) (L "app") || seqb (r_group (snd j)) (L "app"))) (m_pkgs loaded) = true) by dec.
      rewrite forallb_forall in F. specialize (F _ G). apply negb_true_iff in F. apply orb_false_iff in F as [F1 F2]. cbn [snd] in F1, F2. apply seqb_neq in F1. apply seqb_neq in F2. destruct C as [C|C]; [exact (F1 C)|exact (F2 C)].
    + exfalso. injection Eq as <- _. apply tool_names in I. destruct I as [<-|[<-|[<-|[<-|[]]]]]; revert C; apply has_no_meta; dec.
    + apply (load_means false _ loaded _ _ tool_loads) in C. rewrite Mp in C. injection C as <-. reflexivity.
  - intros ->. apply by_name with (i := L "app"); [left; reflexivity|]. apply (load_means false _ loaded _ _ tool_loads). exact Mp.
Qed.
Lemma tool_no_group x n : installed (w_db w_tool) n -> ~ group_package [L "devel"] x n.
Proof. intro I. apply tool_names in I. destruct I as [<-|[<-|[<-|[<-|[]]]]]; apply no_dot_group; dec. Qed.
Lemma tool_asked n : asked (w_db w_tool) [L "devel"] [L "app"] n <-> n = L "app".
Proof.
  split; [|intros ->; left; apply tool_chosen; reflexivity]. intros [C|(I & x & _ & G)]; [apply tool_chosen; exact C|destruct (tool_no_group x n I G)].
Qed.
(** the argument app chooses app; lib and old are then left over; tool stays *)
Example C94_case : plain_db (w_db w_tool) /\ keys (w_db w_tool) = [L "app"; L "lib"; L "old"; L "tool"] /\
  (forall n, removed (w_db w_tool) [L "devel"] [L "app"] n <-> In n [L "app"; L "lib"; L "old"]) /\
  fst (rmc false [L "devel"] [L "app"] w_tool) = None /\ keys (w_db (snd (rmc false [L "devel"] [L "app"] w_tool))) = [L "tool"].
Proof.
  split; [exact tool_plain|]. split; [dec|]. split; [|split; dec].
  assert (Tn : forall n k, n = L "tool" -> ~ needs (w_db w_tool) n k).
  { intros n k -> Nk. apply disk_deps_In in Nk. assert (F : disk_deps (w_db w_tool) (L "tool") = []) by dec. rewrite F in Nk. destruct Nk. }
  assert (Lo : forall n, n = L "lib" \/ n = L "old" -> left_over (w_db w_tool) (asked (w_db w_tool) [L "devel"] [L "app"]) n).
  { intros n Hn. split; [destruct Hn as [-> | ->]; apply is_installed; dec|]. split; [intro A; apply tool_asked in A; destruct Hn as [-> | ->]; discriminate A|].
    intros (r & I & A & Au & C). apply tool_names in I. assert (Er : r = L "tool").
    { destruct I as [<-|[<-|[<-|[<-|[]]]]]; [exfalso; apply A; apply tool_asked; reflexivity| | |reflexivity]; exfalso; apply Au; apply has_meta; dec. }
    destruct C as [z|z k u Nd _ Nk _]; [subst z; destruct Hn as [Hn|Hn]; discriminate Hn|]. exact (Tn _ k Er Nk). }
  intro n. split.
  - intros [A|[(I & _ & W)|(I & x & _ & G)]]; [left; symmetry; apply tool_asked; exact A| |destruct (tool_no_group x n I G)].
    pose proof I as I0. apply tool_names in I. destruct I as [<-|[<-|[<-|[<-|[]]]]]; [left; reflexivity|right; left; reflexivity|right; right; left; reflexivity|]. exfalso. apply W. exists (L "tool").
    split; [exact I0|]. split; [intro A; apply tool_asked in A; discriminate A|]. split; [apply has_no_meta; dec|constructor].
  - intros [<-|[<-|[<-|[]]]]; [left; apply tool_asked; reflexivity| |]; right; left; apply Lo; [left|right]; reflexivity.
Qed.
(** with the uninitialised flag of the record re-created by pkgdbh.cxx:912 reading true the removal is done and the command fails *)
Theorem C94_false_failure : exists sh root scripts conf force groups args w e w', plain_db (w_db w) /\ args <> [] /\
  remove_cmd true sh root scripts conf force groups args w = (Some (Engine e), w') /\ mget (L "app") (w_db w) <> None /\ mget (L "app") (w_db w') = None.
Proof.
  exists quiet, rt, false, None, false, [], [L "app"], w_app, NotInstalled, (snd (remove_cmd true quiet rt false None false [] [L "app"] w_app)).
  split; [apply plain_check; dec|]. split; [discriminate|]. destruct ghost_record as [A [B _]]. split; [rewrite <- A; apply surjective_pairing|]. split; [|exact B].
  assert (F : match mget (L "app") (w_db w_app) with Some _ => true | None => false end = true) by dec. intro Y. rewrite Y in F. discriminate F.
Qed.
(** ** C19: what is removed without argument *)
Section Without.
  Variables (junk : bool) (sh : str -> fs -> fs * bool) (root : str) (scripts : bool) (conf : option str) (force : bool) (groups : list str).
  Notation remove_cmd := (remove_cmd junk sh root scripts conf force groups).
  (** installed, and no manually installed package needs it, directly or not; or named NAME.GROUP after such a package *)
  Definition obsolete_package (d : disk) (n : str) : Prop := installed d n /\ (~ wanted d n \/ exists x, installed d x /\ ~ wanted d x /\ group_package groups x n).
  Lemma none_asked d n : ~ asked d groups [] n.
  Proof. intro A. destruct A as [[i []|i r X|i []]|(_ & x & [i []|i r X|i []] & _)]; discriminate X. Qed.
  Lemma chain_all d a b : chain d (asked d groups []) a b <-> needs_all d a b.
  Proof. split; intro H; [induction H as [x|x k y H1 H2 H3 H4 IH]|induction H as [x|x k y H1 H2 H3 IH]]; [constructor|exact (na_step d x k y H1 H3 IH)|constructor|]. exact (ch_step d _ x k y H1 (none_asked d x) H2 IH). Qed.
  Lemma removed_none d n : removed d groups [] n <-> obsolete_package d n.
  Proof.
    assert (W : forall x, wanted_without d (asked d groups []) x <-> wanted d x).
    { intro x. unfold wanted_without, wanted. split.
      - intros (r & I & _ & A & C). exists r. split; [exact I|]. split; [exact A|]. apply chain_all. exact C.
      - intros (r & I & A & C). exists r. split; [exact I|]. split; [apply none_asked|]. split; [exact A|]. apply chain_all. exact C. }
    assert (Lo : forall x, left_over d (asked d groups []) x <-> installed d x /\ ~ wanted d x).
    { intro x. unfold left_over. rewrite W. split; [intros (A & _ & B); auto|intros (A & B); split; [exact A|split; [apply none_asked|exact B]]]. }
    unfold removed, obsolete_package. split.
    - intros [A|[H|(I & x & H & G)]]; [destruct (none_asked d n A)|apply Lo in H as [I N]; split; [exact I|left; exact N]|]. apply Lo in H as [J N]. split; [exact I|]. right. exists x. auto.
    - intros [I [N|(x & J & N & G)]]; [right; left; apply Lo; auto|]. right. right. split; [exact I|]. exists x. split; [apply Lo; auto|exact G].
  Qed.
  Theorem C19_exact : forall w w' o, plain_db (w_db w) -> remove_cmd [] w = (o, w') ->
    forall n, (~ obsolete_package (w_db w) n -> mget n (w_db w') = mget n (w_db w)) /\ (o = None -> obsolete_package (w_db w) n -> gone (w_db w') n).
  Proof.
    intros w w' o P E n. rewrite <- (removed_none (w_db w) n). destruct o as [e|].
    - split; [intro R; exact (C94_no_other junk sh root scripts conf force groups [] w e w' P E n R)|discriminate].
    - destruct (C94_exact junk sh root scripts conf force groups [] w w' P E n) as [A B]. split; [exact B|intros _; exact A].
  Qed.
  (** C20: refused, with nothing changed, exactly when an argument is "base" or the name of something an installed package needs. *)
  Theorem C20_exact : forall args w m, load junk (w_db w) = Ok m ->
    ((exists i w', remove_cmd args w = (Some (InUse i), w') /\ w_db w' = w_db w) <-> exists i, In i args /\ (i = L "base" \/ exists n, installed (w_db w) n /\ needs (w_db w) n i)).
  Proof.
    intros args w m E. destruct (C94_refused junk sh root scripts conf force groups args w m E) as [A B]. rewrite <- A. destruct (remove_cmd args w) as [o w'] eqn:R. cbn [fst]. split.
    - intros (i & w1 & X & _). injection X as -> _. exists i. reflexivity.
    - intros [i ->]. exists i, w'. split; [reflexivity|exact (B i w' eq_refl)].
  Qed.
End Without.
