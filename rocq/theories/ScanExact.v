(** C45, C54: exactly what listing and searching report, for any content of the indexes. *)
From Verif Require Import Base BaseProofs StrModel FsModel FsProofs MetaModel IndexModel DbModel ScanModel ScanProps.
From Coq Require Import Lia.

Section Scan.
Variable tags resets : list ascii.
(** [e] holds, for each tag, what the lines read so far say: the last line with that tag (for the tags of [resets]: the last one since the last empty line), or nothing (a blank for the collection) *)
Definition reads (ls : list str) (e : entry) : Prop := forall c, In c tags ->
  (exists a v b, ls = a ++ (c :: v) :: b /\ (forall w, ~ In (c :: w) b) /\ (In c resets -> ~ In [] b) /\ e c = v) \/
  ((forall a v b, ls = a ++ (c :: v) :: b -> In c resets /\ In [] b) /\ e c = if ceqb c "c"%char then L " " else []).
(** one entry is reported at each empty line *)
Inductive reports : list str -> list entry -> Prop :=
| reports_nil : reports [] []
| reports_line ls l es : reports ls es -> l <> [] -> reports (ls ++ [l]) es
| reports_entry ls es e : reports ls es -> reads ls e -> reports (ls ++ [[]]) (es ++ [e]).

Hypothesis blank : forall c, In c resets -> start_entry c = [].
Lemma run_reads ls : reads ls (fst (run_lines tags resets ls (start_entry, []))).
Proof.
  induction ls as [|l ls IH] using rev_ind; intros c Ic.
  - right. split; [intros a v b E; destruct a; discriminate E|reflexivity].
  - rewrite run_app. set (st := run_lines tags resets ls (start_entry, [])) in *. unfold run_lines. cbn [fold_left]. destruct l as [|x v]; cbn [scan_line fst].
    + destruct (amem c resets) eqn:R.
      * apply amem_In in R. right. split; [|symmetry; exact (blank c R)]. intros a v b E. split; [exact R|]. destruct b as [|y b _] using rev_ind; [apply app_inj_tail in E; destruct E as [_ E]; discriminate E|].
        change ((c :: v) :: b ++ [y]) with (((c :: v) :: b) ++ [y]) in E. rewrite app_assoc in E. apply app_inj_tail in E. destruct E as [_ <-]. apply in_app_iff. right. left. reflexivity.
      * assert (Rn : ~ In c resets) by (intro I; apply amem_In in I; rewrite I in R; discriminate R).
        destruct (IH c Ic) as [(a & v & b & E & N & _ & Ev)|[N Ev]].
        -- left. exists a, v, (b ++ [[]]). split; [rewrite E, <- app_assoc; reflexivity|]. split; [|split; [intro I; contradiction|exact Ev]]. intros w I. apply in_app_iff in I. destruct I as [I|[I|[]]]; [exact (N w I)|discriminate I].
        -- right. split; [|exact Ev]. intros a v b E. exfalso. destruct b as [|y b _] using rev_ind; [apply app_inj_tail in E; destruct E as [_ E]; discriminate E|].
           change ((c :: v) :: b ++ [y]) with (((c :: v) :: b) ++ [y]) in E. rewrite app_assoc in E. apply app_inj_tail in E. destruct E as [E _]. exact (Rn (proj1 (N a v b E))).
    + destruct (Ascii.ascii_dec x c) as [-> |Hx].
      * left. exists ls, v, []. split; [reflexivity|]. split; [intros w []|]. split; [intros _ []|]. rewrite (proj2 (amem_In c tags) Ic). unfold set_entry. rewrite ceqb_refl. reflexivity.
      * assert (Ev0 : (if amem x tags then set_entry x v (fst st) else fst st) c = fst st c). { destruct (amem x tags); [|reflexivity]. unfold set_entry. rewrite (proj2 (ceqb_neq c x)) by congruence. reflexivity. }
        rewrite Ev0. destruct (IH c Ic) as [(a & u & b & E & N & Rs & Ev)|[N Ev]].
        -- left. exists a, u, (b ++ [x :: v]). split; [rewrite E, <- app_assoc; reflexivity|]. split; [|split; [|exact Ev]].
           ++ intros w I. apply in_app_iff in I. destruct I as [I|[I|[]]]; [exact (N w I)|congruence].
           ++ intros I J. apply in_app_iff in J. destruct J as [J|[J|[]]]; [exact (Rs I J)|discriminate J].
        -- right. split; [|exact Ev]. intros a u b E. destruct b as [|y b _] using rev_ind; [apply app_inj_tail in E; destruct E as [_ E]; congruence|].
           change ((c :: u) :: b ++ [y]) with (((c :: u) :: b) ++ [y]) in E. rewrite app_assoc in E. apply app_inj_tail in E. destruct E as [E _]. destruct (N a u b E) as [I J]. split; [exact I|]. apply in_app_iff. left. exact J.
Qed.
Lemma run_reports ls : reports ls (snd (run_lines tags resets ls (start_entry, []))).
Proof.
  induction ls as [|l ls IH] using rev_ind; [constructor|]. pose proof (run_reads ls) as Rd. rewrite run_app. set (st := run_lines tags resets ls (start_entry, [])) in *. unfold run_lines. cbn [fold_left]. destruct l as [|x v]; cbn [scan_line snd].
  - apply reports_entry; assumption.
  - apply reports_line; [exact IH|discriminate].
Qed.
Lemma scan_lines_all : forall lss acc rest, (forall ls, In ls lss -> ls <> [] /\ plain ls) -> exists ess, Forall2 reports lss ess /\
  scan_all tags resets (map (fun ls => Some (text_of ls)) lss ++ rest) acc = scan_all tags resets rest (acc ++ concat ess).
Proof.
  induction lss as [|ls lss IH]; intros acc rest G.
  - exists []. split; [constructor|]. cbn [map app concat]. rewrite app_nil_r. reflexivity.
  - destruct (G ls (or_introl eq_refl)) as [Ne P]. set (es := snd (run_lines tags resets ls (start_entry, []))).
    destruct (IH (acc ++ es) rest) as (ess & F & E); [intros l I; apply G; right; exact I|]. exists (es :: ess). split; [constructor; [apply run_reports|exact F]|].
    cbn [map app concat]. rewrite app_assoc, <- E.
    destruct ls as [|l ls]; [contradiction|]. assert (T : exists ch t, text_of (l :: ls) = ch :: t) by (rewrite text_cons; destruct l as [|y l]; eexists _, _; reflexivity). destruct T as (ch & t & T).
    pose proof (scan_file_text tags resets (l :: ls) [] P ltac:(intros [])) as Sf. rewrite app_nil_r in Sf. cbn [scan_all]. rewrite T. rewrite <- T, Sf. reflexivity.
Qed.
End Scan.

(** Listing: for any indexes with at least one line each, every line ended: one entry for each empty line, holding what the lines before it say; all the indexes in order. An index that is empty or cannot be opened makes the whole listing empty. *)
Theorem C45_exact : forall lss, (forall ls, In ls lss -> ls <> [] /\ plain ls) -> exists ess, Forall2 (reports list_tags []) lss ess /\
  list_cmd (map (fun ls => Some (text_of ls)) lss) = Some (map (fun e => (e "c"%char, e "N"%char, e "V"%char, e "r"%char)) (concat ess)) /\
  forall bad rest, bad = None \/ bad = Some [] -> list_cmd (map (fun ls => Some (text_of ls)) lss ++ bad :: rest) = Some [].
Proof.
  intros lss G. destruct (scan_lines_all list_tags [] ltac:(intros c []) lss [] [] G) as (ess & F & E). exists ess. split; [exact F|]. split.
  - unfold list_cmd. rewrite app_nil_r in E. rewrite E. reflexivity.
  - intros bad rest B. destruct (scan_lines_all list_tags [] ltac:(intros c []) lss [] (bad :: rest) G) as (ess' & _ & E'). unfold list_cmd. rewrite E'. destruct B as [-> | ->]; reflexivity.
Qed.
(** what searching compares: collection and name as they are written with the expression in lower case, the other fields whatever the case *)
Definition fits (names_only : bool) (arg : str) (e : entry) : Prop :=
  if names_only then occurs (lower_case arg) (e "N"%char)
  else ((exists c, In c ["c"; "N"]%char /\ occurs (lower_case arg) (e c)) \/ (exists c, In c ["D"; "U"; "P"; "V"]%char /\ occurs_ci arg (e c))) /\ e "n"%char = [].
Lemma shows_fits names_only arg e : search_shows names_only arg e = true <-> fits names_only arg e.
Proof.
  unfold search_shows, fits. cbv zeta. destruct names_only; [apply hit_occurs|]. rewrite Bool.andb_true_iff, !Bool.orb_true_iff, !hit_occurs, Nat.eqb_eq. unfold occurs_ci. split.
  - intros [H Z]. split; [|destruct (e "n"%char); [reflexivity|discriminate Z]]. destruct H as [[[[[H|H]|H]|H]|H]|H].
    + left. exists "c"%char. split; [cbn; auto|exact H].
    + left. exists "N"%char. split; [cbn; auto|exact H].
    + right. exists "D"%char. split; [cbn; auto|exact H].
    + right. exists "U"%char. split; [cbn; auto|exact H].
    + right. exists "P"%char. split; [cbn; auto|exact H].
    + right. exists "V"%char. split; [cbn; auto|exact H].
  - intros [H Z]. split; [|rewrite Z; reflexivity]. destruct H as [(c & I & H)|(c & I & H)]; cbn in I.
    + destruct I as [<-|[<-|[]]]; auto 10.
    + destruct I as [<-|[<-|[<-|[<-|[]]]]]; auto 10.
Qed.
(** Searching: of those entries exactly the ones that fit, in order; an index that is empty or cannot be opened hides those behind it. *)
Theorem C54_exact : forall names_only arg lss, (forall ls, In ls lss -> ls <> [] /\ plain ls) -> exists ess keep, Forall2 (reports search_tags search_resets) lss ess /\
  Forall2 (fun e b => b = true <-> fits names_only arg e) (concat ess) keep /\
  search_cmd names_only arg (map (fun ls => Some (text_of ls)) lss) = Some (select keep (concat ess)) /\
  forall bad rest, bad = None \/ bad = Some [] -> search_cmd names_only arg (map (fun ls => Some (text_of ls)) lss ++ bad :: rest) = Some (select keep (concat ess)).
Proof.
  intros names_only arg lss G. assert (B0 : forall c, In c search_resets -> start_entry c = []) by (intros c I; cbn in I; destruct I as [<-|[<-|[<-|[]]]]; reflexivity).
  destruct (scan_lines_all search_tags search_resets B0 lss [] [] G) as (ess & F & E).
  destruct (filter_select (search_shows names_only arg) (fits names_only arg) (concat ess) (concat ess)) as (keep & K & Ek).
  { generalize (concat ess). clear. induction l as [|e l IH]; constructor; [apply shows_fits|exact IH]. }
  exists ess, keep. split; [exact F|]. split; [exact K|]. rewrite <- Ek. rewrite app_nil_r in E. split; [unfold search_cmd; rewrite E; reflexivity|].
  intros bad rest B. destruct (scan_lines_all search_tags search_resets B0 lss [] (bad :: rest) G) as (ess' & F' & E').
  unfold search_cmd. rewrite E'. assert (X : concat ess' = concat ess).
  { destruct (scan_lines_all search_tags search_resets B0 lss [] [None] G) as (e3 & _ & E3). destruct (scan_lines_all search_tags search_resets B0 lss [] [] G) as (e4 & _ & E4). clear E3 E4.
    assert (Q : scan_all search_tags search_resets (map (fun ls => Some (text_of ls)) lss ++ bad :: rest) [] = Quit (concat ess')) by (rewrite E'; destruct B as [-> | ->]; reflexivity).
    assert (M : forall l a u v, scan_all search_tags search_resets l a = Listed u -> scan_all search_tags search_resets (l ++ bad :: rest) a = Quit v -> u = v).
    { induction l as [|f l IH]; intros a u v; cbn [app scan_all]; [intro H; injection H as <-; destruct B as [-> | ->]; intro H; injection H as <-; reflexivity|].
      destruct f as [[|ch d]|]; try discriminate. destruct (scan_file search_tags search_resets (ch :: d)); [apply IH|discriminate]. }
    symmetry. exact (M _ _ _ _ E Q). }
  destruct B as [-> | ->]; cbn [scan_all]; rewrite app_nil_l, X; reflexivity.
Qed.
(** a package with an upper case letter in its name, and a record without URL behind one with it *)
Example C54_exact_case : exists e f, search_cmd false (L "KDE") [Some (text_of [L "Nkate"; L "Ukde.org"; []; L "NKwrite"; []])] = Some [e; f] /\ f "N"%char = L "Kwrite" /\ search_cmd false (L "kwrite") [Some (text_of [L "Nkate"; L "Ukde.org"; []; L "NKwrite"; []])] = Some [].
Proof. eexists _, _. split; [vm_compute; reflexivity|]. split; vm_compute; reflexivity. Qed.
