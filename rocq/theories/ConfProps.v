(** C30: what a configuration means. C49: what purge deletes. *)
From Verif Require Import Base BaseProofs StrModel StrSpec StrProofs FsModel FsSpec FsProofs FsOps MetaSpec ConfModel.
From Coq Require Import Lia.

(** ** specification *)
Definition tab : ascii := "009"%char.
(** the text of a line up to the comment *)
Definition uncommented (line text : str) : Prop := ~ In "#"%char text /\ (line = text \/ exists c, line = text ++ "#"%char :: c).
(** the line gives [value] to [key]: the first space separates, or the first tab when there is no space *)
Definition directive (line key value : str) : Prop := exists text rest, uncommented line text /\ value = strip rest /\
  ((text = key ++ " "%char :: rest /\ ~ In " "%char key) \/ (text = key ++ tab :: rest /\ ~ In tab key /\ ~ In " "%char text)).
Definition silent (line : str) : Prop := exists text, uncommented line text /\ ~ In " "%char text /\ ~ In tab text.
Inductive reads : list str -> list (str * str) -> Prop :=
| reads_nil : reads [] []
| reads_directive line key value ls ds : directive line key value -> reads ls ds -> reads (line :: ls) ((key, value) :: ds)
| reads_silent line ls ds : silent line -> reads ls ds -> reads (line :: ls) ds.
(** the value of a "dir" line: depot/collection, optionally followed by | and the url *)
Definition entry (v : str) (d : dirurl) : Prop := exists place,
  ((exists p u, v = p ++ "|"%char :: u /\ ~ In "|"%char p /\ place = strip p /\ u_url d = strip u) \/ (~ In "|"%char v /\ place = strip v /\ u_url d = [])) /\
  ((exists c, place = u_depot d ++ slash :: c /\ ~ In slash c /\ u_coll d = strip c) \/ (~ In slash place /\ u_depot d = [] /\ u_coll d = [])).
Inductive listing : list (str * str) -> list dirurl -> Prop :=
| li_nil : listing [] []
| li_dir ds rs v d : listing ds rs -> entry v d -> listing (ds ++ [(L "dir", v)]) (rs ++ [d])
| li_collection ds rs v : listing ds rs -> ~ In v (map u_coll rs) -> listing (ds ++ [(L "collection", v)]) (rs ++ [DU v [] []])
| li_again ds rs v : listing ds rs -> In v (map u_coll rs) -> listing (ds ++ [(L "collection", v)]) rs
| li_other ds rs k v : listing ds rs -> k <> L "dir" -> k <> L "collection" -> listing (ds ++ [(k, v)]) rs.
(** the first non-empty value of a key *)
Inductive first_value (key : str) : list (str * str) -> str -> Prop :=
| fv_none : first_value key [] []
| fv_here v ds : v <> [] -> first_value key ((key, v) :: ds) v
| fv_skip k v ds w : k <> key \/ v = [] -> first_value key ds w -> first_value key ((k, v) :: ds) w.
(** the last value of a key, empty if there is none *)
Inductive last_value (key : str) : list (str * str) -> str -> Prop :=
| lv_none : last_value key [] []
| lv_here v ds : last_value key (ds ++ [(key, v)]) v
| lv_skip k v ds w : k <> key -> last_value key ds w -> last_value key (ds ++ [(k, v)]) w.
(** all values of locale and group, in file order *)
Inductive locales : list (str * str) -> list str -> Prop :=
| lo_nil : locales [] []
| lo_take k v ds gs : k = L "locale" \/ k = L "group" -> locales ds gs -> locales (ds ++ [(k, v)]) (gs ++ [v])
| lo_skip k v ds gs : k <> L "locale" -> k <> L "group" -> locales ds gs -> locales (ds ++ [(k, v)]) gs.
Definition complete (depot url : str) (d d' : dirurl) : Prop :=
  u_coll d' = u_coll d /\ (u_depot d <> [] -> u_depot d' = u_depot d) /\ (u_depot d = [] -> u_depot d' = depot) /\
  (u_url d <> [] -> u_url d' = u_url d) /\ (u_url d = [] -> u_url d' = url).

(** ** lines *)
Lemma in_split_first (c : ascii) (s : str) : In c s -> exists a b, s = a ++ c :: b /\ ~ In c a.
Proof.
  induction s as [|x t IH]; [intros []|]. intro I. destruct (Ascii.ascii_dec x c) as [->|N].
  - exists [], t. split; [reflexivity|intros []].
  - destruct I as [E|I]; [contradiction|]. destruct (IH I) as [a [b [-> Na]]]. exists (x :: a), b. split; [reflexivity|]. intros [E|K]; contradiction.
Qed.
Lemma firstn_len {A} (a b : list A) : firstn (length a) (a ++ b) = a.
Proof. rewrite firstn_app, firstn_all, Nat.sub_diag. cbn. apply app_nil_r. Qed.
Lemma skipn_len {A} (a b : list A) : skipn (length a) (a ++ b) = b.
Proof. rewrite skipn_app, skipn_all, Nat.sub_diag. reflexivity. Qed.
Definition cut_comment (s : str) : str := match cfind "#"%char s with Some n => firstn n s | None => s end.
Lemma uncommented_cut line text : uncommented line text <-> cut_comment line = text.
Proof.
  unfold cut_comment. split.
  - intros [N [->|[c ->]]]; [rewrite (proj2 (cfind_None _ _) N); reflexivity|]. rewrite cfind_app by exact N. apply firstn_len.
  - intros <-. destruct (in_dec Ascii.ascii_dec "#"%char line) as [I|N].
    + apply in_split_first in I as [a [b [-> Na]]]. rewrite cfind_app by exact Na. rewrite firstn_len. split; [exact Na|right; exists b; reflexivity].
    + rewrite (proj2 (cfind_None _ _) N). split; [exact N|left; reflexivity].
Qed.
Lemma strip_cons_white c s : white c -> strip (c :: s) = strip s.
Proof.
  intro W. destruct (strip_spec s) as [[a [b [E [Wa Wb]]]] No]. transitivity (strip ((c :: a) ++ strip s ++ b)); [cbn; rewrite <- E; reflexivity|]. apply strip_unique; [constructor; assumption|exact Wb|exact No].
Qed.
Lemma conf_line_eq line : conf_line line = match (match cfind " "%char (cut_comment line) with Some n => Some n | None => cfind tab (cut_comment line) end) with
  | Some n => Some (firstn n (cut_comment line), strip (skipn n (cut_comment line))) | None => None end.
Proof. reflexivity. Qed.
Lemma conf_line_directive line key value : directive line key value <-> conf_line line = Some (key, value).
Proof.
  rewrite conf_line_eq. split.
  - intros [text [rest [U [-> H]]]]. apply uncommented_cut in U. rewrite U. destruct H as [[-> N]|[-> [N Ns]]].
    + rewrite cfind_app by exact N. rewrite firstn_len, skipn_len. rewrite strip_cons_white; [reflexivity|]. vm_compute. tauto.
    + rewrite (proj2 (cfind_None _ _) Ns). rewrite cfind_app by exact N. rewrite firstn_len, skipn_len. rewrite strip_cons_white; [reflexivity|]. vm_compute. tauto.
  - set (text := cut_comment line). intro H. assert (U : uncommented line text) by (apply uncommented_cut; reflexivity).
    destruct (in_dec Ascii.ascii_dec " "%char text) as [I|N].
    + apply in_split_first in I as [a [b [E Na]]]. rewrite E in H. rewrite cfind_app in H by exact Na. rewrite firstn_len, skipn_len in H. injection H as <- <-. exists text, b. split; [exact U|]. split; [apply strip_cons_white; vm_compute; tauto|]. left. auto.
    + rewrite (proj2 (cfind_None _ _) N) in H. destruct (in_dec Ascii.ascii_dec tab text) as [I|Nt].
      * apply in_split_first in I as [a [b [E Na]]]. rewrite E in H. rewrite cfind_app in H by exact Na. rewrite firstn_len, skipn_len in H. injection H as <- <-. exists text, b. split; [exact U|]. split; [apply strip_cons_white; vm_compute; tauto|]. right. rewrite <- E. auto.
      * rewrite (proj2 (cfind_None _ _) Nt) in H. discriminate.
Qed.
Lemma conf_line_silent line : silent line <-> conf_line line = None.
Proof.
  rewrite conf_line_eq. split.
  - intros [text [U [N Nt]]]. apply uncommented_cut in U. rewrite U, (proj2 (cfind_None _ _) N), (proj2 (cfind_None _ _) Nt). reflexivity.
  - intro H. exists (cut_comment line). split; [apply uncommented_cut; reflexivity|]. destruct (cfind " "%char (cut_comment line)) eqn:E; [discriminate|]. destruct (cfind tab (cut_comment line)) eqn:E2; [discriminate|]. split; [apply cfind_None, E|apply cfind_None, E2].
Qed.
Lemma conf_dir_entry v d : entry v d <-> conf_dir v = d.
Proof.
  unfold conf_dir. split.
  - intros [place [A B]].
    assert (E : (match cfind "|"%char v with Some n => (strip (firstn n v), strip (skipn (n + 1) v)) | None => (strip v, []) end) = (place, u_url d)).
    { destruct A as [[p [u [-> [N [-> Eu]]]]]|[N [-> Eu]]].
      - rewrite cfind_app by exact N. rewrite firstn_len. replace (length p + 1) with (length (p ++ ["|"%char])) by (rewrite app_length; reflexivity). change ("|"%char :: u) with (["|"%char] ++ u). rewrite app_assoc, skipn_len, Eu. reflexivity.
      - rewrite (proj2 (cfind_None _ _) N), Eu. reflexivity. }
    rewrite E. destruct B as [[c [-> [N Ec]]]|[N [E1 E2]]].
    + rewrite crfind_app by exact N. rewrite firstn_len. replace (length (u_depot d) + 1) with (length (u_depot d ++ [slash])) by (rewrite app_length; reflexivity). change (slash :: c) with ([slash] ++ c). rewrite app_assoc, skipn_len, <- Ec. destruct d; reflexivity.
    + rewrite (proj2 (crfind_None _ _) N). destruct d; cbn in E1, E2 |- *; subst; reflexivity.
  - intros <-. 
    assert (A : exists place url, (match cfind "|"%char v with Some n => (strip (firstn n v), strip (skipn (n + 1) v)) | None => (strip v, []) end) = (place, url) /\
       ((exists p u, v = p ++ "|"%char :: u /\ ~ In "|"%char p /\ place = strip p /\ url = strip u) \/ (~ In "|"%char v /\ place = strip v /\ url = []))).
    { destruct (in_dec Ascii.ascii_dec "|"%char v) as [I|N].
      - apply in_split_first in I as [p [u [-> N]]]. rewrite cfind_app by exact N. rewrite firstn_len. replace (length p + 1) with (length (p ++ ["|"%char])) by (rewrite app_length; reflexivity). change ("|"%char :: u) with (["|"%char] ++ u). rewrite app_assoc, skipn_len, <- app_assoc. eexists; eexists. split; [reflexivity|]. left. exists p, u. auto.
      - rewrite (proj2 (cfind_None _ _) N). eexists; eexists. split; [reflexivity|]. right. auto. }
    destruct A as [place [url [E A]]]. rewrite E. exists place. destruct (crfind slash place) as [n|] eqn:C.
    + split; [exact A|]. left. apply crfind_Some in C. exists (skipn (n + 1) place). cbn [u_depot u_coll]. destruct C as [_ [C2 C1]]. rewrite Nat.add_1_r in *. split; [exact C1|]. split; [exact C2|reflexivity].
    + split; [exact A|]. right. split; [apply crfind_None, C|]. split; reflexivity.
Qed.

(** ** the whole file *)
Lemma reads_total ls : exists ds, reads ls ds.
Proof.
  induction ls as [|l t [ds IH]]; [exists []; constructor|]. destruct (conf_line l) as [[k v]|] eqn:E.
  - exists ((k, v) :: ds). constructor; [apply conf_line_directive, E|exact IH].
  - exists ds. constructor; [apply conf_line_silent, E|exact IH].
Qed.
Lemma conf_lines_reads arch ls ds : arch <> [] -> reads ls ds -> forall c, conf_lines arch c ls = conf_fill (fold_left conf_step ds c).
Proof.
  intros A R. induction R as [|line key value ls ds D R IH|line ls ds D R IH]; intro c; cbn [conf_lines fold_left]; [reflexivity| |].
  - apply conf_line_directive in D. rewrite D. destruct arch; [contradiction|]. cbn [is_nil]. apply IH.
  - apply conf_line_silent in D. rewrite D. apply IH.
Qed.
Lemma last_snoc {A} (l : list A) x d : last (l ++ [x]) d = x.
Proof. induction l as [|y t IH]; [reflexivity|]. cbn. rewrite IH. destruct (t ++ [x]) eqn:E; [destruct t; discriminate|reflexivity]. Qed.
Lemma conf_chunk_ok l : ~ In zero l -> conf_chunk (l ++ [nl]) = Some l.
Proof.
  intro Z. unfold conf_chunk. rewrite cstr_nozero.
  - destruct (l ++ [nl]) as [|c t] eqn:E; [destruct l; discriminate|]. rewrite <- E, last_snoc, ceqb_refl, removelast_last. reflexivity.
  - rewrite in_app_iff. cbn. intros [H|[H|[]]]; [auto|discriminate H].
Qed.
Lemma conf_chunks ls : good_lines ls -> map_opt conf_chunk (chunks (BUFSIZ - 1) (BUFSIZ - 1) [] (text_of ls)) = Some ls.
Proof.
  intro G. rewrite chunks_text by (eapply Forall_impl; [|exact G]; cbn; tauto). rewrite (map_opt_map _ _ (fun l => l)); [rewrite map_id; reflexivity|].
  intros l I. apply conf_chunk_ok. unfold good_lines in G. rewrite Forall_forall in G. apply G, I.
Qed.
(** filling in twice is filling in once *)
Definition fill1 (depot url : str) (d : dirurl) : dirurl := DU (u_coll d) (if is_nil (u_depot d) then depot else u_depot d) (if is_nil (u_url d) then url else u_url d).
Lemma fill1_fill1 a b a' b' d : (a = [] \/ a' = a) -> (b = [] \/ b' = b) -> fill1 a' b' (fill1 a b d) = fill1 a' b' d.
Proof.
  intros A B. unfold fill1. cbn [u_coll u_depot u_url]. f_equal.
  - destruct (u_depot d) as [|x t]; cbn [is_nil]; [|reflexivity]. destruct A as [->| ->]; [reflexivity|]. destruct a; reflexivity.
  - destruct (u_url d) as [|x t]; cbn [is_nil]; [|reflexivity]. destruct B as [->| ->]; [reflexivity|]. destruct b; reflexivity.
Qed.
Definition near (c : cfg) (x y : dirurl) : Prop := x = y \/ exists a b, x = fill1 a b y /\ (a = [] \/ c_depot c = a) /\ (b = [] \/ c_url c = b).
Record same (c1 c2 : cfg) : Prop := Same {
  s_depot : c_depot c1 = c_depot c2; s_url : c_url c1 = c_url c2; s_log : c_logdir c1 = c_logdir c2; s_key : c_keypath c1 = c_keypath c2;
  s_grp : c_groups c1 = c_groups c2; s_ver : c_version c1 = c_version c2; s_dirs : Forall2 (near c2) (c_dirs c1) (c_dirs c2) }.
Lemma same_coll c l1 l2 : Forall2 (near c) l1 l2 -> map u_coll l1 = map u_coll l2.
Proof. intro F. induction F as [|x y l1 l2 N F IH]; [reflexivity|]. cbn [map]. f_equal; [|exact IH]. destruct N as [->|[a [b [-> _]]]]; reflexivity. Qed.
Lemma existsb_coll v l1 l2 : map u_coll l1 = map u_coll l2 -> existsb (fun d => seqb (u_coll d) v) l1 = existsb (fun d => seqb (u_coll d) v) l2.
Proof. revert l2. induction l1 as [|x t IH]; intros [|y u] E; cbn in *; try discriminate; [reflexivity|]. injection E as E1 E2. rewrite E1, (IH u E2). reflexivity. Qed.
Lemma near_step c kv x y : near c x y -> near (conf_step c kv) x y.
Proof.
  destruct kv as [k v]. intros [E|[a [b [E [A B]]]]]; [left; exact E|]. right. exists a, b. split; [exact E|]. cbn [conf_step c_depot c_url]. split.
  - destruct A as [A|A]; [left; exact A|]. destruct (c_depot c) as [|z t] eqn:D; [left; congruence|]. right. rewrite andb_false_r. exact A.
  - destruct B as [B|B]; [left; exact B|]. destruct (c_url c) as [|z t] eqn:D; [left; congruence|]. right. rewrite andb_false_r. exact B.
Qed.
Lemma same_step c1 c2 kv : same c1 c2 -> same (conf_step c1 kv) (conf_step c2 kv).
Proof.
  intros [A B C D E F G]. destruct kv as [k v]. assert (G' : Forall2 (near (conf_step c2 (k, v))) (c_dirs c1) (c_dirs c2)).
  { clear -G. induction G; constructor; [apply near_step; assumption|assumption]. }
  pose proof (existsb_coll v _ _ (same_coll _ _ _ G)) as X. constructor; [cbn [conf_step c_depot]|cbn [conf_step c_url]|cbn [conf_step c_logdir]|cbn [conf_step c_keypath]|cbn [conf_step c_groups]|cbn [conf_step c_version]|].
  { rewrite A. reflexivity. } { rewrite B. reflexivity. } { rewrite C. reflexivity. } { rewrite D. reflexivity. } { rewrite E. reflexivity. } { rewrite F. reflexivity. }
  remember (conf_step c2 (k, v)) as c' eqn:Ec. assert (Ed : c_dirs c' = c_dirs (conf_step c2 (k, v))) by (rewrite Ec; reflexivity). rewrite Ed. clear Ec Ed. cbn [conf_step c_dirs].
  destruct (seqb k (L "dir")); [apply Forall2_app; [exact G'|constructor; [left; reflexivity|constructor]]|].
  destruct (seqb k (L "collection")); [|exact G']. rewrite X. destruct (existsb _ (c_dirs c2)); [exact G'|]. apply Forall2_app; [exact G'|constructor; [left; reflexivity|constructor]].
Qed.
Lemma same_fold ds : forall c1 c2, same c1 c2 -> same (fold_left conf_step ds c1) (fold_left conf_step ds c2).
Proof. induction ds as [|kv t IH]; intros c1 c2 H; [exact H|]. cbn [fold_left]. apply IH, same_step, H. Qed.
Lemma same_filled c1 c2 : same c1 c2 -> conf_fill c1 = conf_fill c2.
Proof.
  intros [A B C D E F G]. unfold conf_fill. rewrite C, D, E, F. f_equal; try assumption. change (map (fill1 (c_depot c1) (c_url c1)) (c_dirs c1) = map (fill1 (c_depot c2) (c_url c2)) (c_dirs c2)). rewrite A, B. clear -G.
  induction G as [|x y l1 l2 N G IH]; [reflexivity|]. cbn [map]. f_equal; [|exact IH]. destruct N as [->|[a [b [-> [A B]]]]]; [reflexivity|]. apply fill1_fill1; assumption.
Qed.
Lemma same_fill c : same (conf_fill c) c.
Proof.
  constructor; try reflexivity. cbn [conf_fill c_dirs]. change (Forall2 (near c) (map (fill1 (c_depot c) (c_url c)) (c_dirs c)) (c_dirs c)). induction (c_dirs c) as [|d t IH]; [constructor|]. cbn [map]. constructor; [|exact IH].
  right. exists (c_depot c), (c_url c). split; [reflexivity|]. split; right; reflexivity.
Qed.
Lemma read_conf_fold arch ls vs ds es : arch <> [] -> good_lines ls -> good_lines vs -> reads ls ds -> reads vs es ->
  read_conf arch (Some (text_of ls)) (Some (text_of vs)) = Some (conf_fill (fold_left conf_step (ds ++ es) cfg0)).
Proof.
  intros A Gl Gv Rl Rv. unfold read_conf, parse_config. rewrite (conf_chunks ls Gl), (conf_chunks vs Gv). cbn [option_map]. f_equal. rewrite (conf_lines_reads arch ls ds A Rl), (conf_lines_reads arch vs es A Rv), fold_left_app.
  apply same_filled, same_fold, same_fill.
Qed.
Lemma step_listing ds : listing ds (c_dirs (fold_left conf_step ds cfg0)).
Proof.
  induction ds as [|[k v] t IH] using rev_ind; [constructor|]. rewrite fold_left_app. cbn [fold_left]. set (c := fold_left conf_step t cfg0) in *. cbn [conf_step c_dirs]. destruct (seqb k (L "dir")) eqn:E.
  - apply seqb_eq in E. subst k. apply li_dir; [exact IH|apply conf_dir_entry; reflexivity].
  - apply seqb_neq in E. destruct (seqb k (L "collection")) eqn:E2.
    + apply seqb_eq in E2. subst k. destruct (existsb (fun d => seqb (u_coll d) v) (c_dirs c)) eqn:X.
      * apply li_again; [exact IH|]. apply existsb_exists in X as [d [I X]]. apply seqb_eq in X. subst v. apply in_map, I.
      * apply li_collection; [exact IH|]. intro I. apply in_map_iff in I as [d [Ed I]]. assert (K : existsb (fun d => seqb (u_coll d) v) (c_dirs c) = true) by (apply existsb_exists; exists d; split; [exact I|apply seqb_eq, Ed]). congruence.
    + apply seqb_neq in E2. apply li_other; [exact IH|exact E|exact E2].
Qed.
Lemma first_field key (g : cfg -> str) : (forall c k v, g (conf_step c (k, v)) = if seqb k key && is_nil (g c) then v else g c) ->
  forall ds c, (g c = [] -> first_value key ds (g (fold_left conf_step ds c))) /\ (g c <> [] -> g (fold_left conf_step ds c) = g c).
Proof.
  intros H. induction ds as [|[k v] t IH]; intro c; cbn [fold_left].
  - split; [intros ->; constructor|auto].
  - destruct (IH (conf_step c (k, v))) as [I1 I2]. rewrite H in I1, I2. split; intro E.
    + rewrite E in I1, I2. cbn [is_nil] in I1, I2. rewrite andb_true_r in I1, I2. destruct (seqb k key) eqn:B.
      * apply seqb_eq in B. subst k. destruct v as [|x v]; [apply fv_skip; [right; reflexivity|apply I1; reflexivity]|]. rewrite (I2 ltac:(discriminate)). apply fv_here. discriminate.
      * apply seqb_neq in B. apply fv_skip; [left; exact B|apply I1; reflexivity].
    + destruct (g c) as [|x u] eqn:G; [contradiction|]. cbn [is_nil] in I2. rewrite andb_false_r in I2. apply I2, E.
Qed.

(** ** C30 *)
Lemma last_field key (g : cfg -> str) : g cfg0 = [] -> (forall c k v, g (conf_step c (k, v)) = if seqb k key then v else g c) ->
  forall ds, last_value key ds (g (fold_left conf_step ds cfg0)).
Proof.
  intros Z H. induction ds as [|[k v] t IH] using rev_ind; [cbn [fold_left]; rewrite Z; constructor|]. rewrite fold_left_app. cbn [fold_left]. rewrite H.
  destruct (seqb k key) eqn:E; [apply seqb_eq in E; subst k; constructor|apply seqb_neq in E; constructor; assumption].
Qed.
Lemma groups_field ds : locales ds (c_groups (fold_left conf_step ds cfg0)).
Proof.
  induction ds as [|[k v] t IH] using rev_ind; [constructor|]. rewrite fold_left_app. cbn [fold_left conf_step c_groups].
  destruct (seqb k (L "locale")) eqn:E; [apply seqb_eq in E; apply lo_take; auto|]. apply seqb_neq in E. cbn [orb].
  destruct (seqb k (L "group")) eqn:F; [apply seqb_eq in F; apply lo_take; auto|]. apply seqb_neq in F. apply lo_skip; assumption.
Qed.
Theorem C30_reads_total : forall ls, exists ds, reads ls ds.
Proof. exact reads_total. Qed.
(** [ls] are the lines of the configuration file, [vs] those of the version file *)
Theorem C30_configuration : forall arch ls vs ds es, arch <> [] -> good_lines ls -> good_lines vs -> reads ls ds -> reads vs es ->
  exists c rs, read_conf arch (Some (text_of ls)) (Some (text_of vs)) = Some c /\
    first_value (L "depot") (ds ++ es) (c_depot c) /\ first_value (L "url") (ds ++ es) (c_url c) /\ first_value (L "version") (ds ++ es) (c_version c) /\
    last_value (L "logdir") (ds ++ es) (c_logdir c) /\ last_value (L "keypath") (ds ++ es) (c_keypath c) /\ locales (ds ++ es) (c_groups c) /\
    listing (ds ++ es) rs /\ Forall2 (complete (c_depot c) (c_url c)) rs (c_dirs c).
Proof.
  intros arch ls vs ds es A Gl Gv Rl Rv. eexists. exists (c_dirs (fold_left conf_step (ds ++ es) cfg0)). split; [exact (read_conf_fold arch ls vs ds es A Gl Gv Rl Rv)|]. cbn [conf_fill c_depot c_url c_version c_logdir c_keypath c_groups c_dirs]. split; [|split; [|split; [|split; [|split; [|split; [|split]]]]]].
  - apply (first_field (L "depot") c_depot (fun c k v => eq_refl) (ds ++ es) cfg0). reflexivity.
  - apply (first_field (L "url") c_url (fun c k v => eq_refl) (ds ++ es) cfg0). reflexivity.
  - apply (first_field (L "version") c_version (fun c k v => eq_refl) (ds ++ es) cfg0). reflexivity.
  - apply (last_field (L "logdir") c_logdir); reflexivity.
  - apply (last_field (L "keypath") c_keypath); reflexivity.
  - apply groups_field.
  - apply step_listing.
  - induction (c_dirs (fold_left conf_step (ds ++ es) cfg0)) as [|d t IH]; [constructor|]. cbn [map]. constructor; [|exact IH]. unfold complete. cbn [u_coll u_depot u_url]. split; [reflexivity|].
    destruct (u_depot d), (u_url d); cbn [is_nil]; split; try (intros; congruence); split; try (intros; congruence); split; intros; congruence.
Qed.
(** an unknown key changes nothing: the listing and first values above ignore it; a comment changes nothing *)
Theorem C30_comment : forall line c, ~ In "#"%char line -> (forall k v, directive line k v <-> directive (line ++ "#"%char :: c) k v) /\ (silent line <-> silent (line ++ "#"%char :: c)).
Proof.
  intros line c N. assert (E : conf_line (line ++ "#"%char :: c) = conf_line line).
  { rewrite !conf_line_eq. assert (H : cut_comment (line ++ "#"%char :: c) = cut_comment line); [|rewrite H; reflexivity]. transitivity line.
    - apply uncommented_cut. split; [exact N|right; exists c; reflexivity].
    - symmetry. apply uncommented_cut. split; [exact N|left; reflexivity]. }
  split; [intros k v; rewrite !conf_line_directive, E; reflexivity|]. rewrite !conf_line_silent, E. reflexivity.
Qed.
