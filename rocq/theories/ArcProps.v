(** C110: what an archive object answers, whatever it was asked before. *)
From Verif Require Import Base BaseProofs StrModel StrSpec StrProofs FsModel FsSpec MetaModel MetaSpec MetaProofs OpenExact GenDeps ReadExact ArcModel.
From Coq Require Import Lia ZArith Sorting.Sorted.

(** *** specification *)
(** a set of dated names in its order: by name, then by date *)
Definition before (a b : dep) : Prop := slt (fst a) (fst b) \/ (fst a = fst b /\ (snd a < snd b)%Z).
Definition dated_set (l : list dep) : Prop := StronglySorted before l.
(** the name with the text of the build date, as listofDependencies lists it *)
Definition ident (ls : list str) (x : str) : Prop := exists n b, first_line "N"%char ls n /\ field "B"%char ls b /\ x = n ++ b.
(** the build date: that of the first B line, or 0 *)
Definition build_date (ls : list str) (t : Z) : Prop := (exists v, first_line "B"%char ls v /\ t = epoch v) \/ ((forall w, ~ In ("B"%char :: w) ls) /\ t = 0%Z).
(** [l] is the set of the values of the lines with this letter *)
Definition values (c : ascii) (ls : list str) (l : list str) : Prop := ssorted l /\ forall x, In x l <-> In (c :: x) ls.

(** *** lemmas *)
Lemma before_trans a b c : before a b -> before b c -> before a c.
Proof.
  unfold before. intros [H|[H1 H2]] [K|[K1 K2]].
  - left. exact (slt_trans _ _ _ H K).
  - left. rewrite <- K1. exact H.
  - left. rewrite H1. exact K.
  - right. split; [congruence|lia].
Qed.
Lemma before_irrefl a : ~ before a a.
Proof. intros [H|[_ H]]; [exact (slt_irrefl _ H)|lia]. Qed.
Lemma dins_sorted d l : dated_set l -> dated_set (dins d l).
Proof.
  unfold dated_set. induction l as [|y t IH]; intro H; cbn [dins]; [repeat constructor|]. inversion H as [|y' t' Ht Hy]; subst. destruct (dltb d y) eqn:E1.
  - apply dltb_spec in E1. constructor; [exact H|]. constructor; [exact E1|]. rewrite Forall_forall in Hy |- *. intros w Hw. exact (before_trans d y w E1 (Hy w Hw)).
  - destruct (dltb y d) eqn:E2; [|exact H]. apply dltb_spec in E2. constructor; [apply IH, Ht|]. rewrite Forall_forall in Hy |- *. intros w Hw. apply dins_In in Hw as [->|Hw]; [exact E2|apply Hy, Hw].
Qed.
Lemma dated_ext s t : dated_set s -> dated_set t -> (forall x, In x s <-> In x t) -> s = t.
Proof.
  unfold dated_set. intro Hs. revert t. induction Hs as [|x s Hs IH Hx]; intros t Ht E.
  - destruct t as [|y t]; [reflexivity|]. destruct (proj2 (E y) (or_introl eq_refl)).
  - destruct t as [|y t]; [destruct (proj1 (E x) (or_introl eq_refl))|]. inversion Ht as [|y' t' Ht' Hy]; subst. rewrite Forall_forall in Hx, Hy.
    assert (x = y). { destruct (proj1 (E x) (or_introl eq_refl)) as [K|K]; [auto|]. destruct (proj2 (E y) (or_introl eq_refl)) as [M|M]; [auto|]. destruct (before_irrefl x). exact (before_trans x y x (Hx y M) (Hy x K)). }
    subst y. f_equal. apply IH; [exact Ht'|]. intro z. split; intro I.
    + destruct (proj1 (E z) (or_intror I)) as [<-|K]; [destruct (before_irrefl x (Hx x I))|exact K].
    + destruct (proj2 (E z) (or_intror I)) as [<-|K]; [destruct (before_irrefl x (Hy x I))|exact K].
Qed.
Lemma gather_In c ls : forall acc x, In x (gather c ls acc) <-> In x acc \/ In (c :: x) ls.
Proof.
  unfold gather. induction ls as [|s t IH]; intros acc x; cbn [fold_left In]; [tauto|]. rewrite IH. destruct (has_tag c s) eqn:T.
  - apply has_tag_In in T. destruct T as [v ->]. cbn [skipn]. rewrite sins_In. split.
    + intros [[->|I]|I]; auto.
    + intros [I|[I|I]]; [auto|injection I as ->; auto|auto].
  - split; [intros [I|I]; auto|]. intros [I|[I|I]]; [auto| |auto]. subst s. cbn [has_tag] in T. rewrite ceqb_refl in T. discriminate T.
Qed.
Lemma gather_sorted c ls : forall acc, ssorted acc -> ssorted (gather c ls acc).
Proof.
  unfold gather. induction ls as [|s t IH]; intros acc H; cbn [fold_left]; [exact H|]. apply IH. destruct (has_tag c s); [apply sins_sorted, H|exact H].
Qed.
Lemma gather_dated_arch ls : forall acc, match snd (gather_dated ls acc) with Ok _ => arch_deps ls acc = Ok (fst (gather_dated ls acc)) | Throw => arch_deps ls acc = Throw | UB => arch_deps ls acc = UB end.
Proof.
  induction ls as [|s t IH]; intro acc; cbn [gather_dated arch_deps]; [reflexivity|]. destruct (has_tag "R" s); [|apply IH]. destruct (dep_of_line s) as [d| |]; cbn [rbind fst snd]; [apply IH|reflexivity|reflexivity].
Qed.
Lemma gather_dated_sub ls : forall acc d, In d (fst (gather_dated ls acc)) -> In d acc \/ states ls (fst d) (snd d).
Proof.
  intros acc d I. assert (G : forall ls acc, In d (fst (gather_dated ls acc)) -> In d acc \/ exists s, In s ls /\ has_tag "R" s = true /\ dep_of_line s = Ok d).
  { clear. induction ls as [|s t IH]; intros acc I; cbn [gather_dated fst] in I; [left; exact I|]. destruct (has_tag "R" s) eqn:T.
    - destruct (dep_of_line s) as [e| |] eqn:D; cbn [fst] in I; [|left; exact I|left; exact I]. apply IH in I as [I|(x & I & T2 & D2)]; [|right; exists x; cbn; auto].
      apply dins_In in I as [->|I]; [right; exists s; cbn; auto|left; exact I].
    - apply IH in I as [I|(x & I & T2 & D2)]; [left; exact I|right; exists x; cbn; auto]. }
  destruct (G ls acc I) as [K|K]; [left; exact K|right]. apply line_states. destruct d. exact K.
Qed.
Lemma gather_dated_keep ls : forall acc d, In d acc -> In d (fst (gather_dated ls acc)).
Proof.
  induction ls as [|s t IH]; intros acc d I; cbn [gather_dated fst]; [exact I|]. destruct (has_tag "R" s); [|apply IH, I]. destruct (dep_of_line s); cbn [fst]; [apply IH, dins_In; right; exact I|exact I|exact I].
Qed.
Lemma gather_dated_sorted ls : forall acc, dated_set acc -> dated_set (fst (gather_dated ls acc)).
Proof.
  induction ls as [|s t IH]; intros acc H; cbn [gather_dated fst]; [exact H|]. destruct (has_tag "R" s); [|apply IH, H]. destruct (dep_of_line s); cbn [fst]; [apply IH, dins_sorted, H|exact H|exact H].
Qed.

(** *** the object *)
Definition question_dec (a b : question) : {a = b} + {a <> b}.
Proof. decide equality. apply ascii_dec. Defined.
(** what stays true of the object: the lines are those of the archive, the sets hold only what the lines say *)
Record sound (ls fl : list str) (h : list question) (o : arc) : Prop := Sound {
  so_meta : c_meta o = ls; so_tree : c_mtree o = fl; so_name : first_line "N"%char ls (c_name o); so_arch : field "a"%char ls (c_arch o);
  so_files : c_files o = set_of (filter (fun f => negb (has_tag "." f)) fl);
  so_rt : ssorted (c_rt o) /\ (forall x, In x (c_rt o) -> In ("R"%char :: x) ls \/ (x = c_id o /\ In Deps h)) /\ (In Deps h -> In (c_id o) (c_rt o));
  so_ep : dated_set (c_ep o) /\ (forall d, In d (c_ep o) -> d = (c_name o, c_build o) \/ states ls (fst d) (snd d));
  so_al : ssorted (c_alias o) /\ forall x, In x (c_alias o) -> In ("A"%char :: x) ls;
  so_ca : ssorted (c_cats o) /\ forall x, In x (c_cats o) -> In ("T"%char :: x) ls;
  so_se : ssorted (c_sets o) /\ forall x, In x (c_sets o) -> In ("s"%char :: x) ls }.
Lemma make_sound a o : make a = Ok o -> exists meta mtree ls fl, usable a (L ".META") meta ls /\ usable a (L ".MTREE") mtree fl /\ sound ls fl [] o.
Proof.
  unfold make. intro E. apply rbind_ok in E as [fl [E1 E]]. apply rbind_ok in E as [ls [E2 E]]. destruct ls as [|x ls]; [discriminate E|]. destruct fl as [|y fl]; [discriminate E|].
  destruct (usable_lines a _ _ E1 ltac:(discriminate)) as [mtree U1]. destruct (usable_lines a _ _ E2 ltac:(discriminate)) as [meta U2].
  destruct (first_tag "N" (x :: ls)) as [nn|] eqn:FN; [|discriminate E]. exists meta, mtree, (x :: ls), (y :: fl). split; [exact U2|]. split; [exact U1|].
  assert (Eo : o = Arc (x :: ls) (y :: fl) nn (tag_or_empty "a" (x :: ls)) (set_of (filter (fun f => negb (has_tag "." f)) (y :: fl))) [] [] [] [] []) by congruence. subst o. clear E.
  constructor; cbn [c_meta c_mtree c_name c_arch c_files c_rt c_ep c_alias c_cats c_sets].
  - reflexivity.
  - reflexivity.
  - apply first_tag_spec, FN.
  - apply tag_field.
  - reflexivity.
  - split; [constructor|]. split; [intros z []|intros []].
  - split; [constructor|intros z []].
  - split; [constructor|intros z []].
  - split; [constructor|intros z []].
  - split; [constructor|intros z []].
Qed.
Section C.
Variable ctime : Z -> str.
Notation ask := (ask ctime). Notation asks := (asks ctime).
Lemma ask_sound ls fl h o q : sound ls fl h o -> sound ls fl (h ++ [q]) (fst (ask q o)).
Proof.
  intros [M T N A F (R1 & R2 & R3) (E1 & E2) (A1 & A2) (C1 & C2) (S1 & S2)].
  assert (W : forall p, In p h -> In p (h ++ [q])) by (intros p I; apply in_app_iff; left; exact I).
  assert (Wq : q <> Deps -> In Deps (h ++ [q]) -> In Deps h) by (intros Nq I; apply in_app_iff in I as [I|[I|[]]]; [exact I|congruence]).
  assert (Same : q <> Deps -> sound ls fl (h ++ [q]) o).
  { intro Nq. constructor; try assumption; try (split; assumption). split; [exact R1|]. split; [|intro I; apply R3, Wq; assumption]. intros x I. destruct (R2 x I) as [K|[K1 K2]]; auto. }
  destruct q; cbn [ArcModel.ask fst]; try (apply Same; discriminate).
  - (* Deps *) constructor; cbn [set_rt c_meta c_mtree c_name c_arch c_files c_rt c_ep c_alias c_cats c_sets]; try assumption; try (split; assumption).
    change (c_id (set_rt (gather "R" (c_meta o) (sins (c_id o) (c_rt o))) o)) with (c_id o).
    split; [apply gather_sorted, sins_sorted, R1|]. split.
    + intros x I. rewrite M in I. apply gather_In in I as [I|I]; [|left; exact I]. apply sins_In in I as [->|I]; [right; split; [reflexivity|apply in_app_iff; right; left; reflexivity]|]. destruct (R2 x I) as [K|[K1 K2]]; auto.
    + intros _. apply gather_In. left. apply sins_In. left. reflexivity.
  - (* Dated *) destruct (gather_dated (c_meta o) (dins (c_name o, c_build o) (c_ep o))) as [l r] eqn:G. cbn [fst].
    constructor; cbn [set_ep c_meta c_mtree c_name c_arch c_files c_rt c_ep c_alias c_cats c_sets]; try assumption; try (split; assumption).
    + change (c_id (set_ep l o)) with (c_id o). split; [exact R1|]. split; [|intro I; apply R3, Wq; [discriminate|exact I]]. intros x I. destruct (R2 x I) as [K|[K1 K2]]; auto.
    + change (c_build (set_ep l o)) with (c_build o). change l with (fst (l, r)). rewrite <- G. split; [apply gather_dated_sorted, dins_sorted, E1|]. intros d I. apply gather_dated_sub in I as [I|I]; [|right; rewrite <- M; exact I].
      apply dins_In in I as [->|I]; [left; reflexivity|apply E2, I].
  - (* Alias *) destruct (Same ltac:(discriminate)) as [M' T' N' A' F' R' E' Al' Ca' Se']. constructor; try assumption. cbn [set_al c_alias]. split; [apply gather_sorted, A1|]. intros x I. rewrite M in I. apply gather_In in I as [I|I]; [apply A2, I|exact I].
  - destruct (Same ltac:(discriminate)) as [M' T' N' A' F' R' E' Al' Ca' Se']. constructor; try assumption. cbn [set_ca c_cats]. split; [apply gather_sorted, C1|]. intros x I. rewrite M in I. apply gather_In in I as [I|I]; [apply C2, I|exact I].
  - destruct (Same ltac:(discriminate)) as [M' T' N' A' F' R' E' Al' Ca' Se']. constructor; try assumption. cbn [set_se c_sets]. split; [apply gather_sorted, S1|]. intros x I. rewrite M in I. apply gather_In in I as [I|I]; [apply S2, I|exact I].
  - (* Show_deps *) destruct (Same ltac:(discriminate)) as [M' T' N' A' F' R' E' Al' Ca' Se']. constructor; try assumption. cbn [set_rt c_rt].
    change (c_id (set_rt (gather "R" (c_meta o) (c_rt o)) o)) with (c_id o). destruct R' as (R1' & R2' & R3'). split; [apply gather_sorted, R1|]. split.
    + intros x I. rewrite M in I. apply gather_In in I as [I|I]; [apply R2', I|left; exact I].
    + intro I. apply gather_In. left. apply R3', I.
Qed.
Lemma asks_sound ls fl h : forall h0 o, sound ls fl h0 o -> sound ls fl (h0 ++ h) (asks h o).
Proof.
  induction h as [|q t IH]; intros h0 o H; [rewrite app_nil_r; exact H|]. cbn [ArcModel.asks]. replace (h0 ++ q :: t) with ((h0 ++ [q]) ++ t) by (rewrite <- app_assoc; reflexivity). apply IH, ask_sound, H.
Qed.
Lemma id_ident ls fl h o : sound ls fl h o -> forall x, ident ls x <-> x = c_id o.
Proof.
  intros S x. unfold ident, c_id. rewrite (so_meta _ _ _ _ S). pose proof (so_name _ _ _ _ S) as N. split.
  - intros (n & b & Fn & Fb & ->). apply first_tag_spec in Fn, N. rewrite Fn in N. injection N as ->. f_equal. unfold tag_or_empty. destruct Fb as [Fb|[-> Fb]].
    + apply first_tag_spec in Fb. rewrite Fb. reflexivity.
    + rewrite (proj2 (first_tag_no _ _) Fb). reflexivity.
  - intros ->. exists (c_name o), (tag_or_empty "B" ls). split; [exact N|]. split; [apply tag_field|reflexivity].
Qed.
Lemma build_is ls fl h o : sound ls fl h o -> build_date ls (c_build o).
Proof.
  intro S. unfold build_date, c_build. rewrite (so_meta _ _ _ _ S). destruct (first_tag "B" ls) as [v|] eqn:E; [left; exists v; split; [apply first_tag_spec, E|reflexivity]|right; split; [apply first_tag_no, E|reflexivity]].
Qed.

(** *** the theorems. [a] is the archive, [ls] and [fl] the lines of its META and MTREE, [h] the questions asked before *)
(** the object can be made exactly of an archive with both files, which have lines, and a name; an empty file has no defined outcome *)
Theorem C110_made a : ((exists o, make a = Ok o) <-> exists meta mtree ls fl n, usable a (L ".META") meta ls /\ usable a (L ".MTREE") mtree fl /\ first_line "N"%char ls n) /\
  (make a = UB <-> exists nm n, (nm = L ".META" \/ nm = L ".MTREE") /\ member a nm = Some n /\ n_data n = []).
Proof.
  split.
  - split.
    + intros (o & E). destruct (make_sound a o E) as (meta & mtree & ls & fl & U1 & U2 & S). exists meta, mtree, ls, fl, (c_name o). split; [exact U1|]. split; [exact U2|exact (so_name _ _ _ _ S)].
    + intros (meta & mtree & ls & fl & n & U1 & U2 & FN). unfold make. rewrite (lines_usable a _ _ _ U1), (lines_usable a _ _ _ U2). cbn [rbind].
      destruct U1 as (_ & _ & _ & Nl). destruct U2 as (_ & _ & _ & Nf). destruct ls as [|x ls]; [contradiction|]. destruct fl as [|y fl]; [contradiction|]. apply first_tag_spec in FN. rewrite FN. eauto.
  - assert (K : forall nm, (member_lines a nm = UB <-> exists n, member a nm = Some n /\ n_data n = []) /\ member_lines a nm <> Throw).
    { intro nm. unfold member_lines. destruct (member a nm) as [n|]; [|split; [split; [discriminate|intros (n & X & _); discriminate X]|discriminate]]. destruct (n_data n) as [|x d] eqn:D.
      - split; [|discriminate]. split; [intros _; exists n; split; [reflexivity|exact D]|reflexivity].
      - split; [|discriminate]. split; [discriminate|]. intros (m & X & Y). injection X as <-. rewrite D in Y. discriminate Y. }
    destruct (K (L ".MTREE")) as [K1 K1']. destruct (K (L ".META")) as [K2 K2']. unfold make. split.
    + destruct (member_lines a (L ".MTREE")) as [fl| |] eqn:E1; [|contradiction|intros _; destruct (proj1 K1 eq_refl) as (n & X & Y); exists (L ".MTREE"), n; auto]. cbn [rbind].
      destruct (member_lines a (L ".META")) as [ls| |] eqn:E2; [|contradiction|intros _; destruct (proj1 K2 eq_refl) as (n & X & Y); exists (L ".META"), n; auto]. cbn [rbind].
      destruct ls as [|x ls]; [discriminate|]. destruct fl as [|y fl]; [discriminate|]. destruct (first_tag "N" (x :: ls)); discriminate.
    + intros (nm & n & [-> | ->] & X & Y).
      * destruct (member_lines a (L ".MTREE")) as [fl| |]; [|contradiction|reflexivity]. cbn [rbind]. rewrite (proj2 K2) by (exists n; auto). reflexivity.
      * rewrite (proj2 K1) by (exists n; auto). reflexivity.
Qed.
Section Made.
Variables (a : archive) (o : arc) (h : list question).
Hypothesis Made : make a = Ok o.
(** all the answers at once *)
Theorem C110_answers : exists meta mtree ls fl, usable a (L ".META") meta ls /\ usable a (L ".MTREE") mtree fl /\
  let answer q := snd (ask q (asks h o)) in
  (forall c, exists v, answer (Text c) = Ok (RText v) /\ field c ls v) /\
  (exists n, answer Name = Ok (RText n) /\ first_line "N"%char ls n) /\
  (exists v, answer Arch = Ok (RText v) /\ field "a"%char ls v) /\
  (forall v, first_line "r"%char ls v -> forall z, answer Release = Ok (RInt z) <-> int_value v z) /\
  (forall v, first_line "r"%char ls v -> (forall z, ~ int_value v z) -> answer Release = Throw) /\
  ((forall w, ~ In ("r"%char :: w) ls) -> answer Release = Ok (RInt 0)) /\
  (exists t, answer Build = Ok (RInt t) /\ build_date ls t) /\
  (exists v, answer Epoch = Ok (RText v) /\ field "B"%char ls v) /\
  (exists x, answer Id = Ok (RText x) /\ ident ls x) /\
  (exists l, answer Files = Ok (RSet l) /\ ssorted l /\ forall f, In f l <-> In f fl /\ ~ exists t, f = "."%char :: t) /\
  answer Size = Ok (RNum (N.of_nat (length fl))) /\
  (exists l, answer Deps = Ok (RSet l) /\ ssorted l /\ forall x, In x l <-> ident ls x \/ In ("R"%char :: x) ls) /\
  (exists l, answer Alias = Ok (RSet l) /\ values "A"%char ls l) /\
  (exists l, answer Cats = Ok (RSet l) /\ values "T"%char ls l) /\
  (exists l, answer Sets = Ok (RSet l) /\ values "s"%char ls l) /\
  answer Content = Ok (RLines ls) /\
  answer Show_meta = Ok (RPrinted (concat (map (fun s => s ++ [nl]) ls))) /\
  answer Show_files = Ok (RPrinted (concat (map (fun s => s ++ [nl]) fl))).
Proof.
  destruct (make_sound a o Made) as (meta & mtree & ls & fl & U1 & U2 & S0). exists meta, mtree, ls, fl. split; [exact U1|]. split; [exact U2|].
  pose proof (asks_sound ls fl h [] o S0) as S. cbn [app] in S. set (o1 := asks h o) in *. pose proof (id_ident _ _ _ _ S) as Id'. pose proof (build_is _ _ _ _ S) as Bd. destruct S as [M T N A F (R1 & R2 & R3) E (A1 & A2) (C1 & C2) (S1 & S2)].
  cbv zeta. cbn [ArcModel.ask snd]. rewrite M, T, F.
  split; [intro c; eexists; split; [reflexivity|apply tag_field]|].
  split; [eexists; split; [reflexivity|exact N]|]. split; [eexists; split; [reflexivity|exact A]|].
  split; [|split; [|split]].
  - intros v Fv z. apply first_tag_spec in Fv. rewrite Fv. rewrite <- stoi_int_spec. destruct (stoi_int v) as [y| |]; cbn [rbind]; (split; intro X; [try discriminate X|try discriminate X]; congruence).
  - intros v Fv Nz. apply first_tag_spec in Fv. rewrite Fv. destruct (stoi_int v) as [y| |] eqn:Ev; cbn [rbind]; [destruct (Nz y); apply stoi_int_spec, Ev|reflexivity|destruct (stoi_int_total v Ev)].
  - intro Nr. rewrite (proj2 (first_tag_no "r" ls) Nr). reflexivity.
  - split; [eexists; split; [reflexivity|exact Bd]|]. split; [eexists; split; [reflexivity|apply tag_field]|]. split; [eexists; split; [reflexivity|apply Id'; reflexivity]|].
    split.
    + eexists. split; [reflexivity|]. split; [apply set_of_sorted|]. intro f. rewrite set_of_In, filter_In, negb_true_iff. split; intros [I X]; (split; [exact I|]).
      * intros (t & ->). discriminate X.
      * destruct f as [|x t]; [reflexivity|]. cbn [has_tag]. apply ceqb_neq. intros ->. apply X. exists t. reflexivity.
    + split; [reflexivity|]. split.
      * eexists. split; [reflexivity|]. split; [apply gather_sorted, sins_sorted, R1|]. intro x. rewrite gather_In, sins_In, Id'. split.
        -- intros [[I|I]|I]; [left; exact I| |right; exact I]. destruct (R2 x I) as [K|[K _]]; auto.
        -- intros [I|I]; auto.
      * split; [eexists; split; [reflexivity|]; split; [apply gather_sorted, A1|intro x; rewrite gather_In; split; [intros [I|I]; [apply A2, I|exact I]|auto]]|].
        split; [eexists; split; [reflexivity|]; split; [apply gather_sorted, C1|intro x; rewrite gather_In; split; [intros [I|I]; [apply C2, I|exact I]|auto]]|].
        split; [eexists; split; [reflexivity|]; split; [apply gather_sorted, S1|intro x; rewrite gather_In; split; [intros [I|I]; [apply S2, I|exact I]|auto]]|].
        split; [reflexivity|]. unfold lines_text. rewrite !flat_map_concat_map. split; reflexivity.
Qed.
(** the dated dependencies: the package itself and what the R lines state; with an R line that is too short the question always throws,
    however often it is asked *)
Theorem C110_dated : exists meta ls, usable a (L ".META") meta ls /\
  ((forall v, In ("R"%char :: v) ls -> 9 <= length v) -> exists l, snd (ask Dated (asks h o)) = Ok (RDeps l) /\ dated_set l /\
     forall k t, In (k, t) l <-> (first_line "N"%char ls k /\ build_date ls t) \/ states ls k t) /\
  (forall v, In ("R"%char :: v) ls -> length v < 9 -> snd (ask Dated (asks h o)) = Throw).
Proof.
  destruct (make_sound a o Made) as (meta & mtree & ls & fl & U1 & U2 & S0). exists meta, ls. split; [exact U1|].
  pose proof (asks_sound ls fl h [] o S0) as S. cbn [app] in S. set (o1 := asks h o) in *. pose proof (build_is _ _ _ _ S) as Bd. destruct S as [M T N A F R (E1 & E2) Al Ca Se].
  cbn [ArcModel.ask]. rewrite M. pose proof (gather_dated_arch ls (dins (c_name o1, c_build o1) (c_ep o1))) as G. pose proof (gather_dated_sorted ls (dins (c_name o1, c_build o1) (c_ep o1)) (dins_sorted _ _ E1)) as Gs.
  destruct (gather_dated ls (dins (c_name o1, c_build o1) (c_ep o1))) as [l r] eqn:Gd. cbn [fst snd] in *. destruct (arch_deps_ok ls (dins (c_name o1, c_build o1) (c_ep o1))) as [[Ok1 Ok2] Nub].
  split.
  - intro H. destruct (Ok2 H) as [d Ed]. destruct r as [u| |]; [|rewrite G in Ed; discriminate Ed|rewrite G in Ed; discriminate Ed]. exists l. cbn [rbind]. split; [reflexivity|]. split; [exact Gs|].
    intros k t. rewrite (deps_In ls _ l (k, t) G), dins_In, line_states. split.
    + intros [[X|I]|I]; [left; injection X as -> ->; split; assumption| |right; exact I]. destruct (E2 _ I) as [X|I']; [left; injection X as -> ->; split; assumption|right; exact I'].
    + intros [[Fk Bt]|I]; [left; left|right; exact I]. apply first_tag_spec in Fk, N. f_equal; [congruence|]. unfold build_date in *.
      destruct Bt as [(v & Fv & ->)|[Nv ->]], Bd as [(w & Fw & ->)|[Nw ->]]; [apply first_tag_spec in Fv, Fw; congruence| | |reflexivity]; exfalso; apply first_tag_spec in Fv || apply first_tag_spec in Fw.
      * rewrite (proj2 (first_tag_no _ _) Nw) in Fv. discriminate Fv.
      * rewrite (proj2 (first_tag_no _ _) Nv) in Fw. discriminate Fw.
  - intros v I Lv. destruct r as [u| |]; [|reflexivity|contradiction]. pose proof (Ok1 (ex_intro _ l G) v I). lia.
Qed.
(** the printed dependencies: those of the R lines; the package itself too once the list of dependencies has been asked for *)
Theorem C110_printed : exists meta ls l, usable a (L ".META") meta ls /\ snd (ask Show_deps (asks h o)) = Ok (RPrinted (concat (map (fun s => s ++ L " ") l))) /\ ssorted l /\
  forall x, In x l <-> In ("R"%char :: x) ls \/ (ident ls x /\ In Deps h).
Proof.
  destruct (make_sound a o Made) as (meta & mtree & ls & fl & U1 & U2 & S0). pose proof (asks_sound ls fl h [] o S0) as S. cbn [app] in S. set (o1 := asks h o) in *.
  pose proof (id_ident _ _ _ _ S) as Id'. destruct S as [M T N A F (R1 & R2 & R3) E Al Ca Se]. exists meta, ls, (gather "R" ls (c_rt o1)). split; [exact U1|]. cbn [ArcModel.ask snd]. rewrite M, flat_map_concat_map.
  split; [reflexivity|]. split; [apply gather_sorted, R1|]. intro x. rewrite gather_In, Id'. split.
  - intros [I|I]; [apply R2, I|left; exact I].
  - intros [I|[-> I]]; [right; exact I|left; apply R3, I].
Qed.
(** no other answer ever depends on what was asked before *)
Theorem C110_steady q : q <> Show_deps -> snd (ask q (asks h o)) = snd (ask q o).
Proof.
  intro Nq. destruct (make_sound a o Made) as (meta & mtree & ls & fl & U1 & U2 & S0). pose proof (asks_sound ls fl h [] o S0) as S. cbn [app] in S. set (o1 := asks h o) in *.
  assert (En : c_name o1 = c_name o). { pose proof (so_name _ _ _ _ S) as N1. pose proof (so_name _ _ _ _ S0) as N2. apply first_tag_spec in N1, N2. congruence. }
  assert (Ea : c_arch o1 = c_arch o). { assert (G : forall v, field "a"%char ls v -> v = tag_or_empty "a" ls). { intros v [K|[-> K]]; unfold tag_or_empty; [apply first_tag_spec in K; rewrite K; reflexivity|rewrite (proj2 (first_tag_no _ _) K); reflexivity]. }
    rewrite (G _ (so_arch _ _ _ _ S)), (G _ (so_arch _ _ _ _ S0)). reflexivity. }
  pose proof (id_ident _ _ _ _ S (c_id o1)) as I1. pose proof (id_ident _ _ _ _ S0 (c_id o1)) as I0. assert (Ei : c_id o1 = c_id o) by (apply I0, I1; reflexivity). clear I1 I0.
  destruct S0 as [M0 T0 N0 A0 F0 (R01 & R02 & R03) (E01 & E02) (A01 & A02) (C01 & C02) (S01 & S02)]. destruct S as [M T N A F (R1 & R2 & R3) (E1 & E2) (A1 & A2) (C1 & C2) (S1 & S2)].
  assert (Eb : c_build o1 = c_build o) by (unfold c_build; rewrite M, M0; reflexivity).
  destruct q; cbn [ArcModel.ask snd]; try (rewrite ?M, ?M0, ?T, ?T0, ?F, ?F0, ?En, ?Ea, ?Eb, ?Ei; reflexivity); try contradiction.
  - do 2 f_equal. rewrite M, M0. apply ssorted_ext; [apply gather_sorted, sins_sorted, R1|apply gather_sorted, sins_sorted, R01|]. intro x. rewrite !gather_In, !sins_In, Ei. split; intros [[I|I]|I]; auto.
    + destruct (R2 x I) as [K|[K _]]; [auto|left; left; congruence].
    + destruct (R02 x I) as [K|[K _]]; [auto|left; left; congruence].
  - rewrite M, M0, En, Eb. set (d := (c_name o, c_build o)) in *. pose proof (gather_dated_arch ls (dins d (c_ep o1))) as G. pose proof (gather_dated_arch ls (dins d (c_ep o))) as G0.
    pose proof (gather_dated_sorted ls (dins d (c_ep o1)) (dins_sorted _ _ E1)) as Gs. pose proof (gather_dated_sorted ls (dins d (c_ep o)) (dins_sorted _ _ E01)) as Gs0.
    destruct (gather_dated ls (dins d (c_ep o1))) as [l r]. destruct (gather_dated ls (dins d (c_ep o))) as [l0 r0]. cbn [fst snd] in *.
    destruct (arch_deps_ok ls (dins d (c_ep o1))) as [[P1 P2] P3]. destruct (arch_deps_ok ls (dins d (c_ep o))) as [[Q1 Q2] Q3].
    destruct r as [u| |], r0 as [u0| |]; cbn [rbind]; try contradiction; try reflexivity.
    + do 2 f_equal. apply dated_ext; [exact Gs|exact Gs0|]. intros [k t]. rewrite (deps_In ls _ l (k, t) G), (deps_In ls _ l0 (k, t) G0), !dins_In, !line_states. split; intros [[I|I]|I]; auto.
      * destruct (E2 _ I) as [K|K]; [left; left; rewrite K; unfold d; congruence|right; exact K].
      * destruct (E02 _ I) as [K|K]; [left; left; exact K|right; exact K].
    + destruct (Q2 (P1 (ex_intro _ l G))) as [x Ex]. rewrite G0 in Ex. discriminate Ex.
    + destruct (P2 (Q1 (ex_intro _ l0 G0))) as [x Ex]. rewrite G in Ex. discriminate Ex.
  - do 2 f_equal. rewrite M, M0. apply ssorted_ext; [apply gather_sorted, A1|apply gather_sorted, A01|]. intro x. rewrite !gather_In. split; intros [I|I]; auto.
  - do 2 f_equal. rewrite M, M0. apply ssorted_ext; [apply gather_sorted, C1|apply gather_sorted, C01|]. intro x. rewrite !gather_In. split; intros [I|I]; auto.
  - do 2 f_equal. rewrite M, M0. apply ssorted_ext; [apply gather_sorted, S1|apply gather_sorted, S01|]. intro x. rewrite !gather_In. split; intros [I|I]; auto.
Qed.
(** the readable build date is that of the beginning of 1970, whatever the archive says *)
Theorem C110_date_refuted : snd (ask Date (asks h o)) = Ok (RText (ctime 0)).
Proof. reflexivity. Qed.
End Made.
End C.

(** *** examples *)
Definition mem (n : string) (c : string) : str * node := (L n, Node KReg (L c ++ [nl]) 420 0 0 0 0).
Definition lns (l : list string) : string := string_of_list_ascii (join nl (map L l)).
Definition r_arc : MetaModel.archive := [mem ".META" (lns ["Nfoo"; "Dthe foo"; "V1.2"; "r3"; "ax86_64"; "B1700000000"; "Rzlib1600000000"; "Rbar1500000000"; "Afu"; "sbase"]%string); mem ".MTREE" (lns ["usr/"; "usr/bin/foo"; ".META"]%string)].
Definition no_time (z : Z) : str := [].
Lemma made_case : exists o, make r_arc = Ok o. Proof. eexists. vm_compute. reflexivity. Qed.
Theorem C110_case : exists o, make r_arc = Ok o /\ let answer h q := snd (ask no_time q (asks no_time h o)) in
  answer [Sets; Dated] (Text "V") = Ok (RText (L "1.2")) /\ answer [Release] Release = Ok (RInt 3) /\
  answer [Deps; Deps; Dated] Deps = Ok (RSet [L "bar1500000000"; L "foo1700000000"; L "zlib1600000000"]) /\
  answer [Dated] Dated = Ok (RDeps [(L "bar", 1500000000%Z); (L "foo", 1700000000%Z); (L "zlib", 1600000000%Z)]) /\
  answer [] Files = Ok (RSet [L "usr/"; L "usr/bin/foo"]) /\ answer [] Size = Ok (RNum 3).
Proof. eexists. split; [vm_compute; reflexivity|]. vm_compute. repeat split; reflexivity. Qed.
(** what is printed as the dependencies depends on whether the list was asked for before *)
Theorem C110_printed_refuted : exists o, make r_arc = Ok o /\
  snd (ask no_time Show_deps (asks no_time [] o)) = Ok (RPrinted (L "bar1500000000 zlib1600000000 ")) /\
  snd (ask no_time Show_deps (asks no_time [Deps] o)) = Ok (RPrinted (L "bar1500000000 foo1700000000 zlib1600000000 ")).
Proof. eexists. split; [vm_compute; reflexivity|]. split; vm_compute; reflexivity. Qed.
(** the readable date of an archive built in 2023 *)
Definition year (z : Z) : str := if (z <? 1000000)%Z then L "1970" else L "later".
Theorem C110_year_refuted : exists o, make r_arc = Ok o /\ snd (ask year Build o) = Ok (RInt 1700000000) /\ snd (ask year Date o) = Ok (RText (L "1970")).
Proof. eexists. split; [vm_compute; reflexivity|]. split; vm_compute; reflexivity. Qed.
(** one dependency line that is too short makes the dated list unavailable; the other answers stay *)
Definition short_arc : MetaModel.archive := [mem ".META" (lns ["Nfoo"; "Rbar1500000000"; "Rzlib"]%string); mem ".MTREE" "usr/"].
Theorem C110_short_case : exists o, make short_arc = Ok o /\ snd (ask no_time Dated o) = Throw /\ snd (ask no_time Dated (asks no_time [Dated; Dated] o)) = Throw /\
  snd (ask no_time Deps (asks no_time [Dated] o)) = Ok (RSet [L "bar1500000000"; L "foo"; L "zlib"]).
Proof. eexists. split; [vm_compute; reflexivity|]. repeat split; vm_compute; reflexivity. Qed.
