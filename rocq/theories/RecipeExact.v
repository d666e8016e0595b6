(** C65: what reading the recipes gives, exactly: recipes of one name, values not stated, recipes that cannot be read. *)
From Verif Require Import Base BaseProofs StrModel StrSpec StrProofs FsModel FsProofs MetaModel RecipeModel RecipeProps.
From Coq Require Import Lia.

(** collection, name, items (None: the file cannot be read) *)
Definition source := (str * str * option (list item))%type.
Definition s_content (e : source) : str * str * option str := let '(c, n, o) := e in (c, n, option_map (fun is => text_of (flat_map render is)) o).
Definition s_coll (e : source) : str := fst (fst e).
Definition s_name (e : source) : str := snd (fst e).
Definition s_ok (e : source) : Prop := match snd e with Some is => Forall item_ok is /\ Forall fits (flat_map render is) | None => True end.
(** what a recipe states: its release is 1 unless it says otherwise *)
Definition states (e : source) : list item := Field (L "release") (L "1") :: match snd e with Some is => is | None => [] end.
(** [l] ends with the recipe in question *)
Definition carried_values (l : list source) (p : port) : Prop :=
  forall k, (forall v, last_field (flat_map states l) k v -> p_vals p k = v) /\ (no_field (flat_map states l) k -> p_vals p k = []).
(** the dependencies of the last recipe that could be read *)
Definition carried_deps (l : list source) (p : port) : Prop :=
  ssorted (p_deps p) /\
  ((exists a e is b, l = a ++ e :: b /\ snd e = Some is /\ (forall x, In x b -> snd x = None) /\ forall w, In w (p_deps p) <-> exists i, In i is /\ asks i w) \/
   ((forall x, In x l -> snd x = None) /\ p_deps p = [])).

(** ** proofs *)
Definition vals_of (is : list item) (v : str -> str) : str -> str := fold_left (fun v i => vals_after i v) is v.
Lemma vals_local k is : forall f g, f k = g k -> vals_of is f k = vals_of is g k.
Proof. induction is as [|i is IH]; intros f g E; [exact E|]. cbn [vals_of fold_left]. apply IH. destruct i as [k' v| | |]; try exact E. cbn [vals_after]. unfold set_val. destruct (seqb k k'); [reflexivity|exact E]. Qed.
Lemma vals_app xs ys f : vals_of (xs ++ ys) f = vals_of ys (vals_of xs f).
Proof. unfold vals_of. apply fold_left_app. Qed.
Definition tracks (l : list source) (p : port) : Prop := (forall k, p_vals p k = vals_of (flat_map states l) (fun _ => []) k) /\ carried_deps l p.
Lemma tracks_values l p : tracks l p -> carried_values l p.
Proof. intros [V _] k. rewrite V. split; [intros v Lv; apply vals_last; exact Lv|intro N; apply vals_none; exact N]. Qed.
Lemma source_step (c n : str) (o : option (list item)) l info m : s_ok (c, n, o) -> tracks l info ->
  exists p, read_recipe c n (option_map (fun is => text_of (flat_map render is)) o) (info, false, m) = Ok (p, false, mset n p m) /\ p_coll p = c /\ tracks (l ++ [(c, n, o)]) p.
Proof.
  intros O [V D]. assert (Vs : forall k, set_val (L "release") (L "1") (p_vals info) k = vals_of (flat_map states l ++ [Field (L "release") (L "1")]) (fun _ => []) k).
  { intro k. unfold vals_of. rewrite fold_left_app. cbn [fold_left vals_after]. unfold set_val. destruct (seqb k (L "release")); [reflexivity|apply V]. }
  destruct o as [is|]; cbn [option_map].
  - cbn [s_ok snd] in O. destruct O as [O F]. unfold read_recipe. rewrite (parse_text _ F). destruct (items_run is O (set_val (L "release") (L "1") (p_vals info)) [] good_nil) as [s [Es [[_ [_ Gz]] H]]]. rewrite Es. cbn [r_text r_vals r_found].
    unfold split_strtok_set. rewrite (split_agree s " "%char Gz). cbn [option_map]. eexists. split; [reflexivity|]. cbn [p_coll p_vals p_deps]. split; [reflexivity|]. split.
    + intro k. cbn [p_vals]. rewrite flat_map_app. cbn [flat_map states snd]. rewrite app_nil_r. refine (eq_trans (vals_local k is _ (vals_of (flat_map states l ++ [Field (L "release") (L "1")]) (fun _ => [])) (Vs k)) _). rewrite <- vals_app, <- app_assoc. reflexivity.
    + split; [apply set_of_sorted|]. left. exists l, (c, n, Some is), is, []. split; [reflexivity|]. split; [reflexivity|]. split; [intros x []|]. intro w. cbn [p_deps]. rewrite set_of_In. fold (W s). rewrite H. cbn. tauto.
  - unfold read_recipe. eexists. split; [reflexivity|]. cbn [p_coll]. split; [reflexivity|]. split.
    + intro k. cbn [p_vals]. rewrite flat_map_app. cbn [flat_map states snd List.app]. apply Vs.
    + destruct D as [S [(a & e & is & b & -> & Ee & Nb & Wd)|[Nl Ed]]]; (split; [exact S|]); cbn [p_deps].
      * left. exists a, e, is, (b ++ [(c, n, None)]). rewrite <- app_assoc. split; [reflexivity|]. split; [exact Ee|]. split; [|exact Wd]. intros x I. apply in_app_iff in I. destruct I as [I|[<-|[]]]; [exact (Nb x I)|reflexivity].
      * right. split; [|exact Ed]. intros x I. apply in_app_iff in I. destruct I as [I|[<-|[]]]; [exact (Nl x I)|reflexivity].
Qed.
Lemma sources_run : forall rs l info m, Forall s_ok rs -> tracks l info -> exists m', read_recipes (map s_content rs) (info, false, m) = Ok m' /\
  forall n, (exists a e b p, rs = a ++ e :: b /\ s_name e = n /\ ~ In n (map s_name b) /\ mget n m' = Some p /\ p_coll p = s_coll e /\ tracks (l ++ a ++ [e]) p) \/ (~ In n (map s_name rs) /\ mget n m' = mget n m).
Proof.
  induction rs as [|[[c n0] o] rs IH]; intros l info m F T; [exists m; split; [reflexivity|]; intro n; right; split; [intros []|reflexivity]|]. inversion F as [|? ? O F']; subst.
  destruct (source_step c n0 o l info m O T) as (p & E & Cp & Tp). cbn [map s_content read_recipes]. rewrite E. destruct (IH _ p (mset n0 p m) F' Tp) as (m' & E' & K). exists m'. split; [exact E'|]. intro n.
  destruct (K n) as [(a & e & b & q & -> & Ne & Nb & G & Cq & Tq)|[N G]].
  - left. exists ((c, n0, o) :: a), e, b, q. split; [reflexivity|]. split; [exact Ne|]. split; [exact Nb|]. split; [exact G|]. split; [exact Cq|]. rewrite <- app_assoc in Tq. exact Tq.
  - rewrite mget_mset in G. destruct (seqb_spec n n0) as [->|Nn].
    + left. exists [], (c, n0, o), rs, p. split; [reflexivity|]. split; [reflexivity|]. split; [exact N|]. split; [exact G|]. split; [exact Cp|exact Tp].
    + right. split; [|exact G]. cbn [map In]. intros [X|I]; [apply Nn; symmetry; exact X|exact (N I)].
Qed.
(** Of each name the last recipe read counts; a value it does not state is that of the last earlier recipe that states it; a recipe that cannot be
    read has the dependencies of the last one that could. Recipes that meet the hypothesis: C93_sources in OrderProps.v. *)
Theorem C65_exact : forall rs, Forall s_ok rs -> exists m, ports_read (map s_content rs) = Ok m /\
  (forall n p, mget n m = Some p -> exists a e b, rs = a ++ e :: b /\ s_name e = n /\ ~ In n (map s_name b) /\ p_coll p = s_coll e /\ carried_values (a ++ [e]) p /\ carried_deps (a ++ [e]) p) /\
  (forall e, In e rs -> mget (s_name e) m <> None).
Proof.
  intros rs F. destruct (sources_run rs [] (Port [] (fun _ => []) []) [] F) as (m & E & K).
  { split; [intro k; reflexivity|]. split; [constructor|]. right. split; [intros x []|reflexivity]. }
  exists m. split; [exact E|]. split.
  - intros n p G. destruct (K n) as [(a & e & b & q & -> & Ne & Nb & G' & Cq & Tq)|[_ G']]; [|rewrite G' in G; discriminate G]. rewrite G' in G. injection G as <-. exists a, e, b. split; [reflexivity|]. split; [exact Ne|]. split; [exact Nb|]. split; [exact Cq|]. cbn [List.app] in Tq. split; [apply tracks_values; exact Tq|exact (proj2 Tq)].
  - intros e I. destruct (K (s_name e)) as [(a & e' & b & q & _ & _ & _ & G' & _)|[N _]]; [congruence|]. exfalso. apply N. apply in_map. exact I.
Qed.
