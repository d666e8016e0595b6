(** C65: what is read from the recipes. *)
From Verif Require Import Base BaseProofs StrModel StrSpec StrProofs FsModel FsProofs MetaModel RecipeModel.

(** ** specification: the recipes of the usual form *)
Inductive item :=
| Field (k v : str)                                   (* version=1.0 *)
| Inline (k t : str)                                  (* run=(bash glibc) *)
| Array (k h : str) (body : list str) (l tail : str)  (* run=(bash / glibc / zlib) over several lines *)
| Note (l : str).                                     (* anything else *)
Definition render (i : item) : list str :=
  match i with
  | Field k v => [k ++ L "=" ++ v]
  | Inline k t => [k ++ L "=(" ++ t ++ L ")"]
  | Array k h body l tail => (k ++ L "=(" ++ h) :: body ++ [l ++ L ")" ++ tail]
  | Note l => [l]
  end.
Definition text (t : str) : Prop := (forall c, In c t -> white c -> c = " "%char) /\ ~ In ")"%char t /\ ~ In zero t.
Definition comment (l : str) : Prop := exists a t, l = a ++ "#"%char :: t /\ Forall white a.
(** the assignments that are read *)
Definition fields : list str := [L "description"; L "url"; L "version"; L "release"; L "packager"; L "contributors"; L "maintainer"].
Definition arrays : list str := [L "makedepends"; L "run"].
(** no assignment of interest, not a comment *)
Definition plain (l : str) : Prop := forall a m, l = a ++ m -> Forall white a ->
  (forall t, m <> "#"%char :: t) /\ (forall k t, In k fields -> m <> k ++ L "=" ++ t) /\ (forall k t, In k arrays -> m <> k ++ L "=(" ++ t).
Definition item_ok (i : item) : Prop :=
  match i with
  | Field k v => In k fields /\ no_outer_white v /\ ~ In "#"%char v /\ ~ In ","%char v /\ ~ In "\"%char v
  | Inline k t => In k arrays /\ text t
  | Array k h body l tail => In k arrays /\ text h /\ Forall (fun b => comment b \/ (text b /\ plain b)) body /\ text l /\ plain (l ++ L ")" ++ tail)
  | Note l => comment l \/ plain l
  end.
(** the words of a text: separated by blanks, commas and backslashes *)
Definition sep (c : ascii) : Prop := c = " "%char \/ c = ","%char \/ c = "\"%char.
Definition word (t w : str) : Prop := exists ts, tokens sep t ts /\ In w ts.
Definition asks (i : item) (w : str) : Prop :=
  match i with
  | Inline _ t => word t w
  | Array _ h body l _ => word h w \/ (exists b, In b body /\ ~ comment b /\ word b w) \/ word l w
  | _ => False
  end.
Definition last_field (is : list item) (k v : str) : Prop := exists xs ys, is = xs ++ Field k v :: ys /\ forall v', ~ In (Field k v') ys.
Definition no_field (is : list item) (k : str) : Prop := forall v, ~ In (Field k v) is.

(** ** words *)
Definition fc (c : ascii) : ascii := if ceqb c ","%char then " "%char else if ceqb c "\"%char then " "%char else c.
Lemma clean_map l : clean l = map fc (strip l).
Proof.
  unfold clean. generalize (strip l) as s. induction s as [|c s IH]; [reflexivity|]. unfold subst_char in *. cbn [flat_map map]. rewrite flat_map_app, IH. unfold fc at 2, ceqb.
  destruct (Ascii.eqb c ","%char) eqn:E; [reflexivity|]. cbn [flat_map app]. destruct (Ascii.eqb c "\"%char); reflexivity.
Qed.
Definition W (s : str) : list str := split_char s " "%char.
Lemma split_loop_app a b : forall acc, split_loop " "%char (a ++ " "%char :: b) acc = split_loop " "%char a acc ++ split_loop " "%char b [].
Proof.
  induction a as [|c a IH]; intro acc; cbn [app split_loop].
  - rewrite ceqb_refl. destruct acc; reflexivity.
  - destruct (ceqb c " "%char); [destruct acc; rewrite IH; reflexivity|apply IH].
Qed.
Lemma W_app a b : W (a ++ " "%char :: b) = W a ++ W b.
Proof. apply split_loop_app. Qed.
Lemma W_blank a : Forall (eq " "%char) a -> W a = [].
Proof. induction 1 as [|c a <- F IH]; [reflexivity|]. exact IH. Qed.
Lemma W_left a x : Forall (eq " "%char) a -> W (a ++ x) = W x.
Proof. induction 1 as [|c a <- F IH]; [reflexivity|]. exact IH. Qed.
Lemma W_right a x : Forall (eq " "%char) a -> W (x ++ a) = W x.
Proof. intro F. destruct F as [|c a <- F]; [rewrite app_nil_r; reflexivity|]. rewrite W_app, (W_blank a) by exact F. apply app_nil_r. Qed.
Lemma fc_sep c : sep c <-> fc c = " "%char.
Proof.
  unfold sep, fc. destruct (ceqb_spec c ","%char) as [->|N1]; [split; auto|]. destruct (ceqb_spec c "\"%char) as [->|N2]; [split; auto|]. split; [intros [H|[H|H]]; congruence|auto].
Qed.
Lemma fc_id c : ~ sep c -> fc c = c.
Proof. unfold sep, fc. intro N. destruct (ceqb_spec c ","%char) as [->|N1]; [tauto|]. destruct (ceqb_spec c "\"%char) as [->|N2]; [tauto|]. reflexivity. Qed.
Lemma map_fc_id t : Forall (fun c => ~ sep c) t -> map fc t = t.
Proof. induction 1 as [|c t N F IH]; [reflexivity|]. cbn [map]. rewrite (fc_id c N), IH. reflexivity. Qed.
Lemma tokens_fc s ts : tokens sep s ts -> tokens (eq " "%char) (map fc s) ts.
Proof.
  induction 1 as [s F|a t r ts Fa Nt Ft Hr H IH].
  - constructor. apply Forall_map. apply Forall_forall. intros c I. symmetry. apply fc_sep. exact (proj1 (Forall_forall _ _) F c I).
  - rewrite !map_app, (map_fc_id t Ft). apply tok_one.
    + apply Forall_map. apply Forall_forall. intros c I. symmetry. apply fc_sep. exact (proj1 (Forall_forall _ _) Fa c I).
    + exact Nt.
    + apply Forall_forall. intros c I E. apply (proj1 (Forall_forall _ _) Ft c I). left. symmetry. exact E.
    + destruct Hr as [->|[c [r' [-> Hc]]]]; [left; reflexivity|right]. exists (fc c), (map fc r'). split; [reflexivity|]. symmetry. apply fc_sep, Hc.
    + exact IH.
Qed.
Lemma tokens_exist (d : ascii -> Prop) (dec : forall c, {d c} + {~ d c}) s : exists ts, tokens d s ts.
Proof.
  assert (K : forall s t, Forall (fun c => ~ d c) t -> exists ts, tokens d (t ++ s) ts).
  { clear s. induction s as [|c s IH]; intros t F.
    - destruct t as [|x t]; [exists []; constructor; constructor|]. exists [x :: t]. apply (tok_one d [] (x :: t) []); [constructor|discriminate|exact F|left; reflexivity|constructor; constructor].
    - destruct (dec c) as [D|D].
      + destruct (IH [] (Forall_nil _)) as [ts H]. cbn [app] in H. destruct t as [|x t].
        * exists ts. apply (tokens_skip d [c] s ts); [constructor; [exact D|constructor]|exact H].
        * exists ((x :: t) :: ts). apply (tok_one d [] (x :: t) (c :: s)); [constructor|discriminate|exact F|right; exists c, s; auto|]. apply (tokens_skip d [c] s ts); [constructor; [exact D|constructor]|exact H].
      + destruct (IH (t ++ [c])) as [ts H]; [apply Forall_app; split; [exact F|constructor; [exact D|constructor]]|]. exists ts. rewrite <- app_assoc in H. exact H. }
  exact (K s [] (Forall_nil _)).
Qed.
Lemma sep_dec c : {sep c} + {~ sep c}.
Proof. destruct (ascii_dec (fc c) " "%char) as [E|E]; [left; apply fc_sep, E|right; rewrite fc_sep; exact E]. Qed.
Lemma word_W t w : word t w <-> In w (W (map fc t)).
Proof.
  destruct (tokens_exist sep sep_dec t) as [ts H]. assert (E : W (map fc t) = ts) by (apply (tokens_det (eq " "%char) (map fc t)); [apply split_char_tokens|apply tokens_fc, H]). rewrite E. split.
  - intros [ts' [H' I]]. rewrite (tokens_det sep t ts ts' H H'). exact I.
  - intro I. exists ts. auto.
Qed.
Lemma white_spaces t a : (forall c, In c t -> white c -> c = " "%char) -> (forall c, In c a -> In c t) -> Forall white a -> Forall (eq " "%char) (map fc a).
Proof.
  intros H S F. apply Forall_map. apply Forall_forall. intros c I. assert (E : c = " "%char) by (apply H; [apply S, I|exact (proj1 (Forall_forall _ _) F c I)]). subst c. reflexivity.
Qed.
(** ** lines *)
Lemma nw c t : is_space c = false -> no_outer_white (c :: t) <-> (forall u x, c :: t = u ++ [x] -> ~ white x).
Proof. intro N. unfold no_outer_white. split; [intros [_ H]; exact H|]. intro H. split; [|exact H]. intros x u E. injection E as <- _. apply is_space_nwhite, N. Qed.
Lemma strip_head x h : (forall c t, x = c :: t -> ~ white c) -> (forall t c, x = t ++ [c] -> ~ white c) -> x <> [] -> exists h' b, h = h' ++ b /\ Forall white b /\ strip (x ++ h) = x ++ h'.
Proof.
  intros H1 H2 Nx. destruct (chop_space_spec h) as [b [E [F Z]]]. exists (chop_space h), b. split; [exact E|]. split; [exact F|]. rewrite E at 1. rewrite app_assoc. rewrite <- (app_nil_l ((x ++ chop_space h) ++ b)). apply strip_unique; [constructor|exact F|]. split.
  - intros c t Ec. destruct x as [|y x]; [destruct Nx; reflexivity|]. cbn [app] in Ec. injection Ec as <- _. exact (H1 y x eq_refl).
  - intros t c Ec. destruct (chop_space h) as [|y u] eqn:Eh using rev_ind.
    + rewrite app_nil_r in Ec. exact (H2 t c Ec).
    + rewrite app_assoc in Ec. apply app_inj_tail in Ec as [_ <-]. exact (Z u y eq_refl).
Qed.
Lemma prefixb_fc p m : Forall (fun c => ~ sep c) p -> prefixb p (map fc m) = prefixb p m.
Proof.
  intro F. revert m. induction F as [|c p N F IH]; intro m; [reflexivity|]. destruct m as [|x m]; [reflexivity|]. cbn [prefixb map]. rewrite IH. f_equal. destruct (ceqb_spec c x) as [->|D]; [apply ceqb_eq; symmetry; apply fc_id, N|].
  destruct (ceqb_spec c (fc x)) as [E|_]; [|reflexivity]. exfalso. destruct (sep_dec x) as [Sx|Sx]; [apply fc_sep in Sx; apply N; left; congruence|rewrite (fc_id x Sx) in E; contradiction].
Qed.
Lemma sep_free p : forallb (fun c => negb (ceqb c " "%char || ceqb c ","%char || ceqb c "\"%char)) p = true -> Forall (fun c => ~ sep c) p.
Proof.
  rewrite forallb_forall. intro H. apply Forall_forall. intros c I Sc. apply H in I. destruct Sc as [-> | [-> | ->]]; discriminate I.
Qed.
Lemma keys_free k : In k field_keys -> Forall (fun c => ~ sep c) (assign k).
Proof. intro I. apply sep_free. revert k I. apply Forall_forall. repeat constructor. Qed.
Lemma open_free k : In k array_keys -> Forall (fun c => ~ sep c) (opening k).
Proof. intro I. apply sep_free. revert k I. apply Forall_forall. repeat constructor. Qed.
Definition sharp (line : str) : bool := match line with c :: _ => ceqb c "#"%char | [] => false end.
Lemma find_none_prefix (g : str -> str) ks l : (forall k t, In k ks -> l <> g k ++ t) -> find (fun k => prefixb (g k) l) ks = None.
Proof.
  induction ks as [|k ks IH]; intro H; [reflexivity|]. cbn [find]. destruct (prefixb (g k) l) eqn:E; [apply prefixb_spec in E as [t E]; destruct (H k t (or_introl eq_refl) E)|]. apply IH. intros k' t I. apply H. right. exact I.
Qed.
Lemma clean_plain l : plain l -> sharp (clean l) = false /\ field_of (clean l) = None /\ array_of (clean l) = None.
Proof.
  intro P. destruct (strip_spec l) as [[a [b [E [Fa Fb]]]] _]. destruct (P a (strip l ++ b) E Fa) as [P1 [P2 P3]]. rewrite clean_map. split; [|split].
  - destruct (strip l) as [|c t] eqn:Es; [reflexivity|]. cbn [map sharp]. destruct (ceqb_spec (fc c) "#"%char) as [Ec|]; [|reflexivity]. exfalso. apply (P1 (t ++ b)). cbn [app]. f_equal. destruct (sep_dec c) as [Sc|Sc]; [apply fc_sep in Sc; congruence|]. rewrite (fc_id c Sc) in Ec. exact Ec.
  - unfold field_of. assert (G : forall ks, (forall k, In k ks -> In k field_keys) -> find (fun k => prefixb (assign k) (map fc (strip l))) ks = None).
    { intros ks Hk. assert (X : find (fun k => prefixb (assign k) (strip l)) ks = None) by (apply find_none_prefix; intros k t I Ek; apply (P2 k (t ++ b) (Hk k I)); rewrite Ek; unfold assign; rewrite <- !app_assoc; reflexivity).
      revert X. induction ks as [|k ks IH]; [reflexivity|]. cbn [find]. rewrite (prefixb_fc (assign k)) by (apply keys_free, Hk; left; reflexivity). destruct (prefixb (assign k) (strip l)); [discriminate|]. apply IH. intros k' I. apply Hk. right. exact I. }
    apply G. auto.
  - unfold array_of. assert (G : forall ks, (forall k, In k ks -> In k array_keys) -> find (fun k => prefixb (opening k) (map fc (strip l))) ks = None).
    { intros ks Hk. assert (X : find (fun k => prefixb (opening k) (strip l)) ks = None) by (apply find_none_prefix; intros k t I Ek; apply (P3 k (t ++ b) (Hk k I)); rewrite Ek; unfold opening; rewrite <- !app_assoc; reflexivity).
      revert X. induction ks as [|k ks IH]; [reflexivity|]. cbn [find]. rewrite (prefixb_fc (opening k)) by (apply open_free, Hk; left; reflexivity). destruct (prefixb (opening k) (strip l)); [discriminate|]. apply IH. intros k' I. apply Hk. right. exact I. }
    apply G. auto.
Qed.
Lemma clean_comment l : comment l -> sharp (clean l) = true.
Proof.
  intros [a [t [-> Fa]]]. rewrite clean_map. destruct (strip_head ["#"%char] t) as [h' [b [-> [Fb E]]]].
  - intros c u Ec. injection Ec as <- _. apply is_space_nwhite. reflexivity.
  - intros u c Ec. destruct u as [|? [|? ?]]; [|discriminate Ec|discriminate Ec]. injection Ec as <-. apply is_space_nwhite. reflexivity.
  - discriminate.
  - cbn [app] in E. assert (X : strip (a ++ "#"%char :: h' ++ b) = strip ("#"%char :: h' ++ b)).
    { destruct (strip_spec ("#"%char :: h' ++ b)) as [[a1 [b1 [E1 [Fa1 Fb1]]]] N1]. rewrite E1 at 1. rewrite app_assoc. apply strip_unique; [apply Forall_app; split; assumption|exact Fb1|exact N1]. }
    rewrite X, E. reflexivity.
Qed.
Lemma not_both l : plain l -> ~ comment l.
Proof. intros P [a [t [E F]]]. destruct (P a _ E F) as [P1 _]. exact (P1 t eq_refl). Qed.
(** the accumulated text *)
Definition good (s : str) : Prop := (s = [] \/ exists s0, s = s0 ++ [" "%char]) /\ ~ In ")"%char s /\ ~ In zero s.
Lemma W_good s x : good s -> W (s ++ x) = W s ++ W x.
Proof. intros [[->|[s0 ->]] _]; [reflexivity|]. rewrite <- app_assoc. cbn [app]. rewrite !W_app. rewrite app_nil_r. reflexivity. Qed.
Lemma good_app s x : good s -> ~ In ")"%char x -> ~ In zero x -> good (s ++ x ++ [" "%char]).
Proof.
  intros [_ [N1 N2]] M1 M2. split; [right; exists (s ++ x); rewrite app_assoc; reflexivity|]. rewrite !in_app_iff. split; intros [H|[H|[H|[]]]]; try contradiction; discriminate H.
Qed.
Lemma W_good_app s x : good s -> W (s ++ x ++ [" "%char]) = W s ++ W x.
Proof. intro G. rewrite W_good by exact G. rewrite W_app, app_nil_r. reflexivity. Qed.
Lemma fc_in c t : In c (map fc t) -> c = " "%char \/ In c t.
Proof. intro I. apply in_map_iff in I as [x [<- I]]. destruct (sep_dec x) as [Sx|Sx]; [left; apply fc_sep, Sx|right; rewrite (fc_id x Sx); exact I]. Qed.
Lemma text_part t a m b : text t -> t = a ++ m ++ b -> ~ In ")"%char (map fc m) /\ ~ In zero (map fc m).
Proof. intros [_ [N1 N2]] ->. split; intro I; apply fc_in in I as [I|I]; try discriminate I; [apply N1|apply N2]; rewrite !in_app_iff; auto. Qed.
Lemma W_strip t a m b : text t -> t = a ++ m ++ b -> Forall white a -> Forall white b -> W (map fc m) = W (map fc t).
Proof.
  intros [H _] E Fa Fb. rewrite E, !map_app. rewrite W_left, W_right; [reflexivity| |].
  - apply (white_spaces t b H); [intros c I; rewrite E, !in_app_iff; auto|exact Fb].
  - apply (white_spaces t a H); [intros c I; rewrite E, !in_app_iff; auto|exact Fa].
Qed.
Lemma open_ends k : In k array_keys -> (forall c t, opening k = c :: t -> ~ white c) /\ (forall t c, opening k = t ++ [c] -> ~ white c) /\ opening k <> [] /\ sharp (opening k) = false /\ field_of (opening k) = None /\ find (fun k' => prefixb (opening k') (opening k)) array_keys = Some k.
Proof.
  intro I. assert (E : (forall t c, opening k = t ++ [c] -> ~ white c)) by (intros t c E; unfold opening in E; change [eq_sign; "("%char] with ([eq_sign] ++ ["("%char]) in E; rewrite app_assoc in E; apply app_inj_tail in E as [_ <-]; apply is_space_nwhite; reflexivity).
  destruct I as [<-|[<-|[]]]; (split; [intros c t Ec; injection Ec as <- _; apply is_space_nwhite; reflexivity|]); (split; [exact E|]); (split; [discriminate|]); (split; [reflexivity|]); split; reflexivity.
Qed.
Lemma open_line k x : In k array_keys -> sharp (opening k ++ x) = false /\ field_of (opening k ++ x) = None /\ array_of (opening k ++ x) = Some k.
Proof. intros [<-|[<-|[]]]; repeat split; reflexivity. Qed.

Definition vals_after (i : item) (vals : str -> str) : str -> str := match i with Field k v => set_val k v vals | _ => vals end.
Lemma first_line k h vals s fnd : In k array_keys -> text h -> good s ->
  exists s', recipe_line (R vals fnd s) (k ++ L "=(" ++ h) = R vals true s' /\ good s' /\ forall w, In w (W s') <-> In w (W s) \/ word h w.
Proof.
  intros I T G. destruct (open_ends k I) as [H1 [H2 [H3 _]]]. destruct (strip_head (opening k) h H1 H2 H3) as [h' [b [E [Fb Es]]]].
  exists (s ++ map fc h' ++ [" "%char]). destruct (text_part h [] h' b T E) as [N1 N2]. split.
  - unfold recipe_line. replace (k ++ L "=(" ++ h) with (opening k ++ h) by (unfold opening; rewrite <- app_assoc; reflexivity).
    rewrite clean_map, Es, map_app, (map_fc_id (opening k)) by (apply open_free, I). destruct (open_line k (map fc h') I) as [X [Y Z]]. unfold sharp in X. rewrite X, Y, Z. cbn [r_text r_vals].
    rewrite skipn_app, skipn_all, Nat.sub_diag. cbn [skipn app]. rewrite (proj2 (cfind_None close (s ++ map fc h'))); [rewrite <- app_assoc; reflexivity|]. destruct G as [_ [G _]]. rewrite in_app_iff. tauto.
  - split; [apply good_app; assumption|]. intro w. rewrite W_good_app by exact G. rewrite in_app_iff, word_W. rewrite (W_strip h [] h' b T E (Forall_nil _) Fb). tauto.
Qed.
Lemma body_line l vals s : comment l \/ (text l /\ plain l) -> good s ->
  exists s', recipe_line (R vals true s) l = R vals true s' /\ good s' /\ forall w, In w (W s') <-> In w (W s) \/ (~ comment l /\ word l w).
Proof.
  intros [C|[T P]] G.
  - exists s. pose proof (clean_comment l C) as X. unfold recipe_line, sharp in *. rewrite X. split; [reflexivity|]. split; [exact G|]. intro w. tauto.
  - destruct (strip_spec l) as [[a [b [E [Fa Fb]]]] _]. destruct (clean_plain l P) as [X [Y Z]]. destruct (text_part l a (strip l) b T E) as [N1 N2]. exists (s ++ map fc (strip l) ++ [" "%char]). split.
    + unfold recipe_line, sharp in *. rewrite X, Y, Z. cbn [r_found r_text r_vals]. rewrite clean_map. rewrite (proj2 (cfind_None close (map fc (strip l))) N1). reflexivity.
    + split; [apply good_app; assumption|]. intro w. rewrite W_good_app by exact G. rewrite in_app_iff, word_W, (W_strip l a (strip l) b T E Fa Fb). pose proof (not_both l P). tauto.
Qed.
Lemma last_line l tail vals s : text l -> plain (l ++ L ")" ++ tail) -> good s ->
  exists s', recipe_line (R vals true s) (l ++ L ")" ++ tail) = R vals false s' /\ good s' /\ forall w, In w (W s') <-> In w (W s) \/ word l w.
Proof.
  intros T P G. destruct (clean_plain _ P) as [X [Y Z]]. destruct (drop_space_spec l) as [a [E [Fa Nl]]]. set (l' := drop_space l) in *.
  destruct (chop_space_spec tail) as [b [Et [Fb Nt]]]. set (t' := chop_space tail) in *.
  assert (Es : strip (l ++ L ")" ++ tail) = l' ++ L ")" ++ t').
  { rewrite E, Et. replace ((a ++ l') ++ L ")" ++ t' ++ b) with (a ++ (l' ++ L ")" ++ t') ++ b) by (rewrite <- !app_assoc; reflexivity). apply strip_unique; [exact Fa|exact Fb|]. split.
    - intros c t Ec. destruct l' as [|x u]; [cbn [app L list_ascii_of_string] in Ec; injection Ec as <- _; apply is_space_nwhite; reflexivity|]. cbn [app] in Ec. injection Ec as <- _. exact (Nl x u eq_refl).
    - intros t c Ec. destruct t' as [|x u] eqn:Eu using rev_ind; [cbn [app L list_ascii_of_string] in Ec; apply app_inj_tail in Ec as [_ <-]; apply is_space_nwhite; reflexivity|].
      rewrite !app_assoc in Ec. apply app_inj_tail in Ec as [_ <-]. exact (Nt u x eq_refl). }
  destruct (text_part l a l' [] T) as [N1 N2]; [rewrite app_nil_r; exact E|]. exists (s ++ map fc l' ++ [" "%char]). split.
  - unfold recipe_line, sharp in *. rewrite X, Y, Z. cbn [r_found r_text r_vals]. rewrite clean_map, Es, !map_app. change (map fc (L ")")) with [close]. cbn [app]. rewrite (cfind_app close (map fc l') (map fc t') N1).
    rewrite firstn_app, firstn_all, Nat.sub_diag. cbn [firstn]. rewrite app_nil_r. reflexivity.
  - split; [apply good_app; assumption|]. intro w. rewrite W_good_app by exact G. rewrite in_app_iff, word_W. rewrite (W_strip l a l' [] T); [tauto|rewrite app_nil_r; exact E|exact Fa|constructor].
Qed.
Lemma body_lines body vals s : Forall (fun b => comment b \/ (text b /\ plain b)) body -> good s ->
  exists s', fold_left recipe_line body (R vals true s) = R vals true s' /\ good s' /\ forall w, In w (W s') <-> In w (W s) \/ (exists b, In b body /\ ~ comment b /\ word b w).
Proof.
  intro F. revert s. induction F as [|b body Hb F IH]; intros s G; [exists s; split; [reflexivity|split; [exact G|]]; intro w; split; [auto|intros [H|[b [[] _]]]; exact H]|].
  cbn [fold_left]. destruct (body_line b vals s Hb G) as [s1 [E1 [G1 H1]]]. rewrite E1. destruct (IH s1 G1) as [s2 [E2 [G2 H2]]]. exists s2. split; [exact E2|]. split; [exact G2|]. intro w. rewrite H2, H1. split.
  - intros [[H|H]|[c [I H]]]; [left; exact H|right; exists b; split; [left; reflexivity|exact H]|right; exists c; split; [right; exact I|exact H]].
  - intros [H|[c [[<-|I] H]]]; [auto|left; right; exact H|right; exists c; auto].
Qed.
Lemma field_line k v vals s : item_ok (Field k v) -> recipe_line (R vals false s) (k ++ L "=" ++ v) = R (set_val k v vals) false s.
Proof.
  intros [I [[V1 V2] [N1 [N2 N3]]]].
  assert (Hk : (forall c t, assign k = c :: t -> ~ white c) /\ assign k <> [] /\ ~ In eq_sign k /\ (forall x, field_of (assign k ++ x) = Some k /\ sharp (assign k ++ x) = false)).
  { revert I. unfold field_keys. intros [<-|[<-|[<-|[<-|[<-|[<-|[<-|[]]]]]]]]; (split; [intros c t Ec; injection Ec as <- _; apply is_space_nwhite; reflexivity|]); (split; [discriminate|]); (split; [cbn; intuition discriminate|]); intro x; split; reflexivity. }
  destruct Hk as [Hk [Hn [Ne Hf]]].
  assert (Es : strip (assign k ++ v) = assign k ++ v).
  { apply no_outer_strip. split.
    - intros c t Ec. destruct (assign k) as [|y u]; [destruct Hn; reflexivity|]. cbn [app] in Ec. injection Ec as <- _. exact (Hk y u eq_refl).
    - intros t c Ec. destruct v as [|x v'] using rev_ind; [rewrite app_nil_r in Ec; unfold assign in Ec; apply app_inj_tail in Ec as [_ <-]; apply is_space_nwhite; reflexivity|].
      rewrite app_assoc in Ec. apply app_inj_tail in Ec as [_ <-]. exact (V2 v' x eq_refl). }
  assert (Ec : clean (k ++ L "=" ++ v) = assign k ++ map fc v).
  { replace (k ++ L "=" ++ v) with (assign k ++ v) by (unfold assign; rewrite <- app_assoc; reflexivity). rewrite clean_map, Es, map_app, (map_fc_id (assign k)) by (apply keys_free, I). reflexivity. }
  unfold recipe_line. rewrite Ec. destruct (Hf (map fc v)) as [Ff Fs]. unfold sharp in Fs. rewrite Fs, Ff. cbn [r_vals r_found r_text].
  assert (Ev : field_value (assign k ++ map fc v) = v); [|rewrite Ev; reflexivity].
  assert (Mv : map fc v = v) by (clear - N2 N3; induction v as [|c v IH]; [reflexivity|]; cbn [map]; rewrite IH by (intro H; first [apply N2; right; exact H|apply N3; right; exact H]); f_equal; unfold fc; destruct (ceqb_spec c ","%char) as [->|]; [destruct N2; left; reflexivity|]; destruct (ceqb_spec c "\"%char) as [->|]; [destruct N3; left; reflexivity|reflexivity]).
  rewrite Mv. unfold field_value, get_value, assign. rewrite <- app_assoc. cbn [app]. rewrite (cfind_app eq_sign k v Ne). rewrite app_length. cbn [length].
  replace (skipn (S (length k)) (k ++ eq_sign :: v)) with v by (rewrite skipn_app, skipn_all2 by lia; replace (S (length k) - length k) with 1 by lia; reflexivity).
  destruct (S (length k) <? length k + S (length v)) eqn:El.
  - unfold get_value_before. rewrite (proj2 (cfind_None "#"%char v) N1). apply no_outer_strip. split; assumption.
  - apply Nat.ltb_ge in El. destruct v as [|c v]; [reflexivity|cbn [length] in El; lia].
Qed.
Lemma item_step i vals s : item_ok i -> good s -> exists s', fold_left recipe_line (render i) (R vals false s) = R (vals_after i vals) false s' /\ good s' /\ forall w, In w (W s') <-> In w (W s) \/ asks i w.
Proof.
  destruct i as [k v|k t|k h body l tail|l]; cbn [render fold_left vals_after asks]; intros O G.
  - exists s. split; [apply field_line, O|]. split; [exact G|]. tauto.
  - destruct O as [I T]. exists (s ++ map fc t ++ [" "%char]). destruct (text_part t [] t [] T) as [N1 N2]; [rewrite app_nil_r; reflexivity|]. split.
    + destruct (open_ends k I) as [H1 [H2 [H3 _]]]. replace (k ++ L "=(" ++ t ++ L ")") with (opening k ++ t ++ [close]) by (unfold opening; rewrite <- app_assoc; reflexivity).
      assert (Es : strip (opening k ++ t ++ [close]) = opening k ++ t ++ [close]).
      { apply no_outer_strip. split; [intros c u Ec; destruct (opening k) as [|y z]; [destruct H3; reflexivity|]; cbn [app] in Ec; injection Ec as <- _; exact (H1 y z eq_refl)|].
        intros u c Ec. rewrite app_assoc in Ec. apply app_inj_tail in Ec as [_ <-]. apply is_space_nwhite. reflexivity. }
      unfold recipe_line. rewrite clean_map, Es, !map_app, (map_fc_id (opening k)) by (apply open_free, I). change (map fc [close]) with [close].
      destruct (open_line k (map fc t ++ [close]) I) as [X [Y Z]]. unfold sharp in X. rewrite X, Y, Z. cbn [r_text r_vals]. rewrite skipn_app, skipn_all, Nat.sub_diag. cbn [skipn app].
      rewrite app_assoc. rewrite cfind_app by (destruct G as [_ [G _]]; rewrite in_app_iff; tauto). unfold blank_at. f_equal.
      rewrite firstn_app, firstn_all, Nat.sub_diag. cbn [firstn]. rewrite app_nil_r. rewrite skipn_all2 by (rewrite app_length; cbn [length]; lia). rewrite <- app_assoc. reflexivity.
    + split; [apply good_app; assumption|]. intro w. rewrite W_good_app by exact G. rewrite in_app_iff, word_W. tauto.
  - destruct O as [I [Th [Fb [Tl Pl]]]]. destruct (first_line k h vals s false I Th G) as [s1 [E1 [G1 H1]]]. rewrite E1, fold_left_app. destruct (body_lines body vals s1 Fb G1) as [s2 [E2 [G2 H2]]]. rewrite E2. cbn [fold_left].
    destruct (last_line l tail vals s2 Tl Pl G2) as [s3 [E3 [G3 H3]]]. exists s3. split; [exact E3|]. split; [exact G3|]. intro w. rewrite H3, H2, H1. tauto.
  - exists s. split; [|split; [exact G|tauto]]. destruct O as [C|P].
    + pose proof (clean_comment l C) as X. unfold recipe_line, sharp in *. rewrite X. reflexivity.
    + destruct (clean_plain l P) as [X [Y Z]]. unfold recipe_line, sharp in *. rewrite X, Y, Z. reflexivity.
Qed.
(** ** recipes *)
Definition fits (l : str) : Prop := ~ In nl l /\ ~ In zero l /\ length l < BUFSIZ - 1.
Definition recipe := (str * str * list item)%type.
Definition content (r : recipe) : str * str * option str := let '(c, n, is) := r in (c, n, Some (text_of (flat_map render is))).
Definition recipe_ok (r : recipe) : Prop := let '(c, n, is) := r in Forall item_ok is /\ Forall fits (flat_map render is).
Lemma items_run is : Forall item_ok is -> forall vals s, good s -> exists s', fold_left recipe_line (flat_map render is) (R vals false s) = R (fold_left (fun v i => vals_after i v) is vals) false s' /\ good s' /\
  forall w, In w (W s') <-> In w (W s) \/ exists i, In i is /\ asks i w.
Proof.
  induction 1 as [|i is O F IH]; intros vals s G; [exists s; split; [reflexivity|split; [exact G|]]; intro w; split; [auto|intros [H|[i [[] _]]]; exact H]|].
  cbn [flat_map fold_left]. rewrite fold_left_app. destruct (item_step i vals s O G) as [s1 [E1 [G1 H1]]]. rewrite E1. destruct (IH (vals_after i vals) s1 G1) as [s2 [E2 [G2 H2]]]. exists s2. split; [exact E2|]. split; [exact G2|]. intro w. rewrite H2, H1. split.
  - intros [[H|H]|[j [I H]]]; [left; exact H|right; exists i; split; [left; reflexivity|exact H]|right; exists j; split; [right; exact I|exact H]].
  - intros [H|[j [[<-|I] H]]]; [auto|left; right; exact H|right; exists j; auto].
Qed.
Lemma vals_none is k : no_field is k -> forall vals, fold_left (fun v i => vals_after i v) is vals k = vals k.
Proof.
  induction is as [|i is IH]; intros N vals; [reflexivity|]. cbn [fold_left]. rewrite IH by (intros v I; apply (N v); right; exact I). destruct i as [k' v| | |]; try reflexivity. cbn [vals_after]. unfold set_val. destruct (seqb k k') eqn:E; [|reflexivity].
  apply seqb_eq in E. subst k'. destruct (N v). left. reflexivity.
Qed.
Lemma vals_last is k v vals : last_field is k v -> fold_left (fun v i => vals_after i v) is vals k = v.
Proof.
  intros [xs [ys [-> N]]]. rewrite fold_left_app. cbn [fold_left vals_after]. rewrite (vals_none ys k N). unfold set_val. rewrite seqb_refl. reflexivity.
Qed.
(** what the record of a port must say *)
Definition tells (r : recipe) (p : port) : Prop := let '(c, n, is) := r in p_coll p = c /\ (forall k v, last_field is k v -> p_vals p k = v) /\ (no_field is (L "release") -> p_vals p (L "release") = L "1") /\
  (forall w, In w (p_deps p) <-> exists i, In i is /\ asks i w) /\ ssorted (p_deps p).
Lemma good_nil : good []. Proof. split; [left; reflexivity|]. split; intros []. Qed.
Lemma recipe_step c n is info m : recipe_ok (c, n, is) -> exists p, read_recipe c n (Some (text_of (flat_map render is))) (info, false, m) = Ok (p, false, mset n p m) /\ tells (c, n, is) p.
Proof.
  intros [O F]. unfold read_recipe. pose proof (parse_text (flat_map render is) F) as E. rewrite E. destruct (items_run is O (set_val (L "release") (L "1") (p_vals info)) [] good_nil) as [s [Es [[_ [_ Gz]] H]]]. rewrite Es. cbn [r_text r_vals r_found].
  unfold split_strtok_set. rewrite (split_agree s " "%char Gz). cbn [option_map]. eexists. split; [reflexivity|]. cbn [tells p_coll p_vals p_deps]. split; [reflexivity|]. split; [intros k v L0; apply vals_last, L0|]. split.
  - intro N. rewrite (vals_none is (L "release") N). unfold set_val. rewrite seqb_refl. reflexivity.
  - split; [|apply set_of_sorted]. intro w. rewrite set_of_In. fold (W s). rewrite H. cbn. tauto.
Qed.
Definition r_name (r : recipe) : str := snd (fst r).
Lemma recipes_run rs : Forall recipe_ok rs -> NoDup (map r_name rs) -> forall info m, exists m', read_recipes (map content rs) (info, false, m) = Ok m' /\
  (forall r, In r rs -> exists p, mget (r_name r) m' = Some p /\ tells r p) /\ (forall n, ~ In n (map r_name rs) -> mget n m' = mget n m).
Proof.
  induction 1 as [|[[c n] is] rs O F IH]; intros ND info m; [exists m; split; [reflexivity|]; split; [intros r []|reflexivity]|]. inversion ND as [|? ? N1 ND']; subst.
  cbn [map content read_recipes]. destruct (recipe_step c n is info m O) as [p [E T]]. rewrite E. destruct (IH ND' p (mset n p m)) as [m' [E' [H1 H2]]]. exists m'. split; [exact E'|]. split.
  - intros r [<-|I]; [|apply H1, I]. exists p. split; [|exact T]. unfold r_name. cbn [fst snd]. change n with (r_name (c, n, is)). rewrite H2 by exact N1. unfold r_name. cbn [fst snd]. rewrite mget_mset, seqb_refl. reflexivity.
  - intros x Nx. cbn [In] in Nx. rewrite H2 by tauto. rewrite mget_mset. destruct (seqb x n) eqn:Ex; [|reflexivity]. apply seqb_eq in Ex. subst x. exfalso. apply Nx. left. reflexivity.
Qed.
(** *** every port has the collection, the values and exactly the dependencies its own recipe states, and there are no other ports.
    Missing: values the recipe does not state (C65_stale_refuted), other forms of recipes (the refutations below). *)
Theorem C65_ports_partial rs : Forall recipe_ok rs -> NoDup (map r_name rs) -> exists m, ports_read (map content rs) = Ok m /\
  (forall r, In r rs -> exists p, mget (r_name r) m = Some p /\ tells r p) /\ (forall n, mget n m <> None -> In n (map r_name rs)).
Proof.
  intros F ND. destruct (recipes_run rs F ND (Port [] (fun _ => []) []) []) as [m [E [H1 H2]]]. exists m. split; [exact E|]. split; [exact H1|]. intros n N. destruct (in_dec str_eq_dec n (map r_name rs)) as [I|I]; [exact I|]. rewrite (H2 n I) in N. destruct N. reflexivity.
Qed.

(** ** witness *)
Definition plainb (l : str) : bool := let m := drop_space l in negb (sharp m) && forallb (fun k => negb (prefixb (assign k) m)) field_keys && forallb (fun k => negb (prefixb (opening k) m)) array_keys.
Lemma drop_white a c t : Forall white a -> is_space c = false -> drop_space (a ++ c :: t) = c :: t.
Proof. induction 1 as [|x a Hx F IH]; intro N; cbn [app drop_space]; [rewrite N; reflexivity|]. apply is_space_white in Hx. rewrite Hx. apply IH, N. Qed.
Lemma plainb_ok l : plainb l = true -> plain l.
Proof.
  unfold plainb. rewrite !andb_true_iff. intros [[A B] C] a m -> F. rewrite forallb_forall in B, C. split; [|split].
  - intros t ->. rewrite (drop_white a "#"%char t F eq_refl) in A. discriminate A.
  - intros k t I ->. specialize (B k I). assert (E : exists c u, k = c :: u /\ is_space c = false) by (destruct I as [<-|[<-|[<-|[<-|[<-|[<-|[<-|[]]]]]]]]; eexists; eexists; split; reflexivity). destruct E as [c [u [-> Ec]]].
    cbn [app] in B. rewrite (drop_white a c (u ++ L "=" ++ t) F Ec) in B. apply negb_true_iff in B. assert (X : prefixb (assign (c :: u)) (c :: u ++ L "=" ++ t) = true) by (apply prefixb_spec; exists t; unfold assign; cbn [app]; rewrite <- app_assoc; reflexivity). congruence.
  - intros k t I ->. specialize (C k I). assert (E : exists c u, k = c :: u /\ is_space c = false) by (destruct I as [<-|[<-|[]]]; eexists; eexists; split; reflexivity). destruct E as [c [u [-> Ec]]].
    cbn [app] in C. rewrite (drop_white a c (u ++ L "=(" ++ t) F Ec) in C. apply negb_true_iff in C. assert (X : prefixb (opening (c :: u)) (c :: u ++ L "=(" ++ t) = true) by (apply prefixb_spec; exists t; unfold opening; cbn [app]; rewrite <- app_assoc; reflexivity). congruence.
Qed.
Definition textb (t : str) : bool := forallb (fun c => (negb (is_space c) || ceqb c " "%char) && negb (ceqb c ")"%char) && negb (ceqb c zero)) t.
Lemma textb_ok t : textb t = true -> text t.
Proof.
  unfold textb. rewrite forallb_forall. intro H. split; [|split].
  - intros c I Wc. apply H in I. apply is_space_white in Wc. rewrite Wc in I. cbn [negb orb] in I. rewrite !andb_true_iff in I. destruct I as [[I _] _]. apply ceqb_eq, I.
  - intro I. apply H in I. rewrite !andb_true_iff in I. destruct I as [[_ I] _]. discriminate I.
  - intro I. apply H in I. rewrite !andb_true_iff in I. destruct I as [_ I]. discriminate I.
Qed.
Definition fitsb (l : str) : bool := negb (existsb (ceqb nl) l) && negb (existsb (ceqb zero) l) && (length l <? 1000).
Lemma fitsb_ok l : fitsb l = true -> fits l.
Proof.
  unfold fitsb. rewrite !andb_true_iff, !negb_true_iff. intros [[A B] C]. assert (F : forall c, existsb (ceqb c) l = false -> ~ In c l).
  { intros c H I. assert (K : existsb (ceqb c) l = true) by (apply existsb_exists; exists c; split; [exact I|apply ceqb_refl]). congruence. }
  split; [apply F, A|]. split; [apply F, B|]. apply Nat.ltb_lt in C. assert (1000 < BUFSIZ - 1) by (apply Nat.ltb_lt; vm_compute; reflexivity). lia.
Qed.
Definition outerb (v : str) : bool := seqb (strip v) v.
Lemma outerb_ok v : outerb v = true -> no_outer_white v.
Proof. unfold outerb. intro H. apply seqb_eq in H. rewrite <- H. apply strip_spec. Qed.
Definition freeb (c : ascii) (v : str) : bool := negb (existsb (ceqb c) v).
Lemma freeb_ok c v : freeb c v = true -> ~ In c v.
Proof. unfold freeb. rewrite negb_true_iff. intros H I. assert (K : existsb (ceqb c) v = true) by (apply existsb_exists; exists c; split; [exact I|apply ceqb_refl]). congruence. Qed.
Definition i_okb (i : item) : bool :=
  match i with
  | Field k v => existsb (seqb k) field_keys && outerb v && freeb "#"%char v && freeb ","%char v && freeb "\"%char v
  | Inline k t => existsb (seqb k) array_keys && textb t
  | Array k h body l tail => existsb (seqb k) array_keys && textb h && forallb (fun b => sharp (drop_space b) || (textb b && plainb b)) body && textb l && plainb (l ++ L ")" ++ tail)
  | Note l => sharp (drop_space l) || plainb l
  end.
Lemma sharp_comment b : sharp (drop_space b) = true -> comment b.
Proof.
  intro H. destruct (drop_space_spec b) as [a [E [F _]]]. destruct (drop_space b) as [|c t]; [discriminate H|]. cbn [sharp] in H. apply ceqb_eq in H. subst c. exists a, t. auto.
Qed.
Lemma memb_ok k ks : existsb (seqb k) ks = true -> In k ks.
Proof. intro H. apply existsb_exists in H as [x [I E]]. apply seqb_eq in E. subst x. exact I. Qed.
Lemma i_okb_ok i : i_okb i = true -> item_ok i.
Proof.
  destruct i as [k v|k t|k h body l tail|l]; cbn [i_okb item_ok]; rewrite ?andb_true_iff, ?orb_true_iff.
  - intros [[[[A B] C] D] E]. split; [apply memb_ok, A|]. split; [apply outerb_ok, B|]. split; [apply freeb_ok, C|]. split; [apply freeb_ok, D|apply freeb_ok, E].
  - intros [A B]. split; [apply memb_ok, A|apply textb_ok, B].
  - intros [[[[A B] C] D] E]. split; [apply memb_ok, A|]. split; [apply textb_ok, B|]. split; [|split; [apply textb_ok, D|apply plainb_ok, E]].
    rewrite forallb_forall in C. apply Forall_forall. intros b I. apply C in I. apply orb_true_iff in I as [I|I]; [left; apply sharp_comment, I|right]. apply andb_true_iff in I as [I J]. split; [apply textb_ok, I|apply plainb_ok, J].
  - intros [A|A]; [left; apply sharp_comment, A|right; apply plainb_ok, A].
Qed.
Definition r_bash : recipe := (L "base", L "bash", [Note (L "# the shell"); Field (L "description") (L "GNU shell"); Field (L "version") (L "5.2"); Field (L "release") (L "3");
  Array (L "makedepends") (L "gcc make \") [L "  # tests"; L "  bison,flex \"] (L "  ncurses") (L " # done"); Inline (L "run") (L "glibc readline"); Note (L "build() {"); Note (L "./configure"); Note (L "}")]).
Definition r_zlib : recipe := (L "base", L "zlib", [Field (L "version") (L "1.3"); Inline (L "makedepends") (L "gcc")]).
Example C65_hypotheses : Forall recipe_ok [r_bash; r_zlib] /\ NoDup (map r_name [r_bash; r_zlib]).
Proof.
  split; [|constructor; [intros [H|[]]; discriminate H|constructor; [intros []|constructor]]]. apply Forall_forall. intros r H.
  assert (K : match r with (_, _, is) => forallb i_okb is && forallb fitsb (flat_map render is) end = true) by (destruct H as [<-|[<-|[]]]; vm_compute; reflexivity).
  destruct r as [[c n] is]. apply andb_true_iff in K as [K1 K2]. rewrite forallb_forall in K1, K2. split; apply Forall_forall; intros x I; [apply i_okb_ok, K1, I|apply fitsb_ok, K2, I].
Qed.
Definition field_in (r : res (list (str * port))) (n k : str) : option str := match r with Ok m => option_map (fun p => p_vals p k) (mget n m) | _ => None end.
Definition deps_in (r : res (list (str * port))) (n : str) : option (list str) := match r with Ok m => option_map p_deps (mget n m) | _ => None end.
Example C65_witness : deps_in (ports_read (map content [r_bash; r_zlib])) (L "bash") = Some [L "bison"; L "flex"; L "gcc"; L "glibc"; L "make"; L "ncurses"; L "readline"] /\
  field_in (ports_read (map content [r_bash; r_zlib])) (L "zlib") (L "release") = Some (L "1").
Proof. split; vm_compute; reflexivity. Qed.
(** *** a value that a recipe does not state is taken from the recipe read before *)
Theorem C65_stale_refuted : Forall recipe_ok [r_bash; r_zlib] /\ (forall v, ~ In (Field (L "description") v) (snd r_zlib)) /\
  field_in (ports_read (map content [r_bash; r_zlib])) (L "zlib") (L "description") = Some (L "GNU shell") /\ field_in (ports_read (map content [r_zlib; r_bash])) (L "zlib") (L "description") = Some [].
Proof. split; [apply C65_hypotheses|]. split; [intros v H; cbn in H; intuition discriminate|]. split; vm_compute; reflexivity. Qed.
(** *** the words of a comment behind a one-line list become dependencies *)
Theorem C65_comment_refuted : deps_in (ports_read [(L "base", L "zlib", Some (text_of [L "run=(glibc) # not bash"]))]) (L "zlib") = Some [L "#"; L "bash"; L "glibc"; L "not"].
Proof. vm_compute. reflexivity. Qed.
(** *** also behind a word inside a list of several lines *)
Theorem C65_inner_comment_refuted : deps_in (ports_read [(L "base", L "zlib", Some (text_of [L "run=("; L "glibc # not bash"; L ")"]))]) (L "zlib") = Some [L "#"; L "bash"; L "glibc"; L "not"].
Proof. vm_compute. reflexivity. Qed.
(** *** a list left open swallows the rest and the beginning of the next recipe, whose own words become dependencies *)
Theorem C65_open_refuted : deps_in (ports_read [(L "base", L "bad", Some (text_of [L "run=(glibc"])); (L "base", L "zlib", Some (text_of [L "version=1.3"; L "build() {"]))]) (L "zlib") = Some [L "build("; L "version=1.3"].
Proof. vm_compute. reflexivity. Qed.
(** *** tabs do not separate *)
Theorem C65_tab_refuted : deps_in (ports_read [(L "base", L "zlib", Some (text_of [L "run=(glibc" ++ ascii_of_nat 9 :: L "bash)"]))]) (L "zlib") = Some [L "glibc" ++ ascii_of_nat 9 :: L "bash"].
Proof. vm_compute. reflexivity. Qed.
(** *** an unreadable recipe gets the values and dependencies of the one before *)
Theorem C65_unreadable_refuted : deps_in (ports_read [content r_zlib; (L "base", L "lost", None)]) (L "lost") = Some [L "gcc"].
Proof. vm_compute. reflexivity. Qed.
