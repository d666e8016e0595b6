From Verif Require Import Base BaseProofs StrModel StrSpec ConfModel WebModel WebProps VisitModel.
From Coq Require Import ZArith Lia.
Open Scope nat_scope.

(** requests one after the other *)
Inductive one_by_one (cap : nat) : option str -> list request -> option str -> Prop :=
| o_none f : one_by_one cap f [] f
| o_next f q f1 t f2 : runs cap (f, Idle q) (f1, Over) -> one_by_one cap f1 t f2 -> one_by_one cap f (q :: t) f2.

(** *** the requests recorded are the searches for a package *)
Theorem C114_recorded req t : good_request req -> (recorded (Rq (join amp (map written_arg req)) t) = true <-> exists v, In (L "searchpkg", v) req /\ v <> []).
Proof.
  intro G. pose proof (proj1 (proj2 (proj2 (C89_arguments req G)))) as A. unfold recorded. cbn [q_text]. destruct G as [Nd _]. set (a := a_pkg (web_args (join amp (map written_arg req)))) in *. clearbody a. split.
  - intro R. destruct A as [I|[_ ->]]; [|discriminate R]. exists a. split; [exact I|]. intros ->. discriminate R.
  - intros (v & I & N). destruct A as [J|[No _]]; [|destruct (No v I)]. assert (E : v = a).
    { clear -Nd I J. induction req as [|[k w] r IH]; [destruct I|]. cbn [map fst] in Nd. inversion Nd as [|? ? N1 N2]; subst. destruct I as [I|I], J as [J|J].
      - congruence.
      - injection I as -> ->. destruct N1. apply (in_map fst r (_, a)), J.
      - injection J as -> ->. destruct N1. apply (in_map fst r (_, v)), I.
      - exact (IH N2 J I). }
    subst v. destruct a; [destruct (N eq_refl)|reflexivity].
Qed.
Section Props.
Variable cap : nat.
Lemma overwrite_end f a b : overwrite (length f + length a) b (f ++ a) = f ++ a ++ b.
Proof.
  unfold overwrite. rewrite <- app_length. rewrite firstn_all. rewrite skipn_all2 by (rewrite !app_length; lia). rewrite app_nil_r, <- app_assoc. reflexivity.
Qed.
Lemma runs_at x y : runs cap x y -> forall f d l, x = (Some (f ++ d), At (length f + length d) d l) -> forall f', y = (f', Over) -> f' = Some (f ++ d ++ l).
Proof.
  induction 1 as [x|x y z M R IH]; intros f d l -> f' E; [discriminate E|]. inversion M; subst.
  - rewrite (IH f (d ++ a) b ltac:(rewrite overwrite_end, app_length, Nat.add_assoc; reflexivity) _ eq_refl), <- app_assoc. reflexivity.
  - inversion R; subst; [|match goal with H : moves _ (_, Over) _ |- _ => inversion H end]. rewrite app_nil_r. reflexivity.
Qed.
(** *** one request with nobody else: its line is at the end, or nothing changes *)
Theorem C114_alone f q f' : runs cap (f, Idle q) (f', Over) -> f' = match f with Some c => Some (c ++ if recorded q then visit_line q else []) | None => None end.
Proof.
  intro R. inversion R as [|x y z M R']; subst. inversion M; subst.
  - replace (recorded q) with true. apply (runs_at _ _ R' f0 [] (visit_line q)); [|reflexivity]. rewrite app_nil_r. cbn [length]. rewrite Nat.add_0_r. reflexivity.
  - inversion R'; subst; [reflexivity|]. match goal with H : moves _ (_, Over) _ |- _ => inversion H end.
  - replace (recorded q) with false. inversion R'; subst; [|match goal with H : moves _ (_, Over) _ |- _ => inversion H end]. destruct f'; [rewrite app_nil_r|]; reflexivity.
Qed.
(** *** requests one after the other: all their lines, in order *)
Theorem C114_one_by_one f qs f' : one_by_one cap f qs f' -> f' = match f with Some c => Some (c ++ flat_map visit_line (filter recorded qs)) | None => None end.
Proof.
  induction 1 as [f|f q f1 t f2 R _ IH]; [destruct f; [rewrite app_nil_r|]; reflexivity|]. rewrite (C114_alone f q f1 R) in IH. rewrite IH. destruct f as [c|]; [|reflexivity]. cbn [filter].
  destruct (recorded q); [cbn [flat_map]; rewrite <- app_assoc|rewrite app_nil_r]; reflexivity.
Qed.

(** ** any number at once *)
Section Many.
Variables (old : str) (qs : list request).
(** byte [i] of [f] is the byte of a line some request writes at some place behind the old content *)
Definition from_line (f : str) (i : nat) : Prop := exists q pos j, In q qs /\ recorded q = true /\ length old <= pos /\ i = pos + j /\ nth_error f i = nth_error (visit_line q) j /\ j < length (visit_line q).
Definition kept (f : str) : Prop := length old <= length f /\ (forall i, i < length old -> nth_error f i = nth_error old i) /\ (forall i, length old <= i -> i < length f -> from_line f i).
Definition sound (f : str) (p : visitor) : Prop :=
  match p with
  | Idle q => In q qs
  | At pos d l => exists q start, In q qs /\ recorded q = true /\ d ++ l = visit_line q /\ length old <= start /\ pos = start + length d /\ pos <= length f
  | Over => True
  end.
Lemma overwrite_length pos b f : pos <= length f -> length (overwrite pos b f) = Nat.max (length f) (pos + length b).
Proof. intro H. unfold overwrite. rewrite !app_length, firstn_length, skipn_length. lia. Qed.
Lemma overwrite_nth pos b f i : pos <= length f -> nth_error (overwrite pos b f) i = if (pos <=? i) && (i <? pos + length b) then nth_error b (i - pos) else nth_error f i.
Proof.
  intro H. unfold overwrite. assert (L1 : length (firstn pos f) = pos) by (rewrite firstn_length; lia). destruct (Nat.leb_spec pos i) as [L|L]; cbn [andb].
  - rewrite nth_error_app2 by lia. rewrite L1. destruct (Nat.ltb_spec i (pos + length b)) as [K|K].
    + apply nth_error_app1. lia.
    + rewrite nth_error_app2 by lia. assert (Sk : forall n k (l : str), nth_error (skipn n l) k = nth_error l (n + k)) by (induction n as [|n IH]; intros k [|x l]; [reflexivity..|destruct k; reflexivity|apply IH]). rewrite Sk. f_equal. lia.
  - rewrite nth_error_app1 by lia. assert (Fi : forall n k (l : str), k < n -> nth_error (firstn n l) k = nth_error l k) by (induction n as [|n IH]; intros k [|x l] Lt; [lia|lia|reflexivity|destruct k as [|k]; [reflexivity|exact (IH k l ltac:(lia))]]). apply Fi. lia.
Qed.
Lemma moves_sound f p f' p' : moves cap (Some f, p) (f', p') -> kept f -> sound f p -> exists c, f' = Some c /\ kept c /\ sound c p' /\ length f <= length c.
Proof.
  intros M K S. inversion M; subst.
  - exists f. split; [reflexivity|]. split; [exact K|]. split; [|lia]. exists q, (length f). cbn [sound] in S. cbn [app length]. destruct K as [K _]. rewrite Nat.add_0_r. auto 8.
  - exists f. split; [reflexivity|]. split; [exact K|]. split; [exact Logic.I|lia].
  - cbn [sound] in S. destruct S as (q & st & Iq & Rq_ & El & Ls & Ep & Lp). eexists. split; [reflexivity|]. pose proof (overwrite_length pos a f Lp) as Ln. destruct K as (K1 & K2 & K3). split; [|split].
    + split; [lia|]. split.
      * intros i Li. rewrite overwrite_nth by exact Lp. replace (pos <=? i) with false by (symmetry; apply Nat.leb_gt; lia). cbn [andb]. apply K2, Li.
      * intros i L1 L2. unfold from_line. rewrite overwrite_nth by exact Lp. destruct (Nat.leb_spec pos i) as [X|X]; [destruct (Nat.ltb_spec i (pos + length a)) as [Y|Y]|]; cbn [andb].
        -- exists q, st, (i - st). split; [exact Iq|]. split; [exact Rq_|]. split; [exact Ls|]. split; [lia|]. rewrite <- El, !app_length. split; [|lia].
           rewrite nth_error_app2 by lia. rewrite nth_error_app1 by lia. f_equal. lia.
        -- destruct (K3 i L1) as (q0 & p0 & j0 & A); [lia|]. exists q0, p0, j0. exact A.
        -- destruct (K3 i L1) as (q0 & p0 & j0 & A); [lia|]. exists q0, p0, j0. exact A.
    + exists q, st. rewrite <- app_assoc. rewrite app_length. split; [exact Iq|]. split; [exact Rq_|]. split; [exact El|]. split; [exact Ls|]. split; lia.
    + lia.
  - exists f. split; [reflexivity|]. split; [exact K|]. split; [exact Logic.I|lia].
Qed.
Lemma sound_mono f c p : length f <= length c -> sound f p -> sound c p.
Proof. intros L S. destruct p as [q|pos d l|]; cbn [sound] in *; [exact S| |exact S]. destruct S as (q & st & A & B & C & D & E & F). exists q, st. split; [exact A|]. split; [exact B|]. split; [exact C|]. split; [exact D|]. split; [exact E|lia]. Qed.
Definition start : option str * list visitor := (Some old, map Idle qs).
Lemma kept_old : kept old.
Proof. split; [lia|]. split; [reflexivity|]. intros i A B. lia. Qed.
Lemma reaches_sound x y : reaches cap x y -> x = start -> exists f ps, y = (Some f, ps) /\ kept f /\ Forall (sound f) ps.
Proof.
  induction 1 as [x|x y z R IH S]; intro E.
  - subst x. exists old, (map Idle qs). split; [reflexivity|]. split; [exact kept_old|]. apply Forall_forall. intros p I. apply in_map_iff in I as (q & <- & I). exact I.
  - destruct (IH E) as (f & ps & -> & K & F). inversion S; subst.
    + apply Forall_app in F as [F1 F2]. inversion F2 as [|? ? F3 F4]; subst. match goal with H : moves _ _ _ |- _ => destruct (moves_sound _ _ _ _ H K F3) as (c & -> & Kc & Sc & Lc) end. exists c. eexists. split; [reflexivity|]. split; [exact Kc|].
      apply Forall_app. split; [|constructor; [exact Sc|]]; (eapply Forall_impl; [|eassumption]); intros p0; apply sound_mono, Lc.
    + exists f. eexists. split; [reflexivity|]. split; [exact K|]. apply Forall_app in F as [F1 F2]. inversion F2; subst. apply Forall_app. split; [exact F1|]. constructor; [exact Logic.I|assumption].
Qed.
Lemma kept_front f : kept f -> firstn (length old) f = old.
Proof.
  intros (K1 & K2 & _). revert f K1 K2. induction old as [|x o IH]; intros f L N; [reflexivity|]. destruct f as [|y f]; [cbn in L; lia|]. pose proof (N 0 ltac:(cbn; lia)) as X. cbn in X. injection X as <-. cbn [length firstn]. f_equal. apply IH; [cbn in L; lia|]. intros i Li. exact (N (S i) ltac:(cbn; lia)).
Qed.
(** *** whatever the schedule and whoever is killed: the old content stays in front, and every byte behind it is of a line of one of the requests *)
Theorem C114_kept f ps : reaches cap start (Some f, ps) -> exists new, f = old ++ new /\
  forall i c, nth_error new i = Some c -> exists q pos j, In q qs /\ recorded q = true /\ i = pos + j /\ nth_error (visit_line q) j = Some c.
Proof.
  intro R. destruct (reaches_sound _ _ R eq_refl) as (f' & ps' & E & (K1 & K2 & K3) & _). injection E as <- <-. exists (skipn (length old) f).
  pose proof (kept_front f (conj K1 (conj K2 K3))) as Fo.
  split; [rewrite <- Fo at 1; symmetry; apply firstn_skipn|]. intros i c Nc.
  assert (Sk : forall n k (l : str), nth_error (skipn n l) k = nth_error l (n + k)) by (induction n as [|n IH]; intros k [|x l]; [reflexivity..|destruct k; reflexivity|apply IH]). rewrite Sk in Nc.
  assert (Li : length old + i < length f) by (apply nth_error_Some; rewrite Nc; discriminate). destruct (K3 (length old + i) ltac:(lia) Li) as (q & pos & j & A & B & C & D & E & F). exists q, (pos - length old), j. split; [exact A|]. split; [exact B|]. split; [lia|]. rewrite <- E. exact Nc.
Qed.
Lemma reaches_none x y : reaches cap x y -> fst x = None -> (forall pos d l, ~ In (At pos d l) (snd x)) -> fst y = None /\ (forall pos d l, ~ In (At pos d l) (snd y)).
Proof.
  induction 1 as [x|x y z R IH S]; intros E N; [auto|]. destruct (IH E N) as [A B]. inversion S; subst; cbn [fst snd] in *; subst.
  - match goal with H : moves _ _ _ |- _ => inversion H; subst end; try (split; [reflexivity|]; intros pos0 d0 l0 I; apply in_app_iff in I as [I|[I|I]]; [apply (B pos0 d0 l0), in_app_iff; auto|discriminate I|apply (B pos0 d0 l0), in_app_iff; right; right; exact I]).
  - split; [reflexivity|]. intros pos0 d0 l0 I. apply in_app_iff in I as [I|[I|I]]; [apply (B pos0 d0 l0), in_app_iff; auto|discriminate I|apply (B pos0 d0 l0), in_app_iff; right; right; exact I].
Qed.
(** *** without the file nothing is recorded, and it is not made *)
Theorem C114_no_file f ps : reaches cap (None, map Idle qs) (f, ps) -> f = None.
Proof.
  intro R. apply (reaches_none _ _ R eq_refl). cbn [snd]. intros pos d l I. apply in_map_iff in I as (q & E & _). discriminate E.
Qed.
(** *** lines that fit in the buffer: if anything was recorded, a whole line of one of the requests stands behind the old content *)
Definition first_write (p : visitor) : Prop := match p with At pos d l => l = [] \/ d = [] | _ => True end.
Definition has_whole (f : str) : Prop := exists q x y, In q qs /\ recorded q = true /\ f = old ++ x ++ visit_line q ++ y.
Lemma overwrite_keeps_old pos b f : length old <= pos -> pos <= length f -> kept f -> exists x y, overwrite pos b f = old ++ x ++ b ++ y.
Proof.
  intros L1 L2 K. exists (skipn (length old) (firstn pos f)), (skipn (pos + length b) f). unfold overwrite. assert (E : firstn pos f = old ++ skipn (length old) (firstn pos f)).
  { rewrite <- (firstn_skipn (length old) (firstn pos f)) at 1. f_equal. rewrite firstn_firstn, Nat.min_l by exact L1. apply kept_front, K. }
  rewrite E at 1. rewrite <- app_assoc. reflexivity.
Qed.
Lemma short_step f ps z : (forall q, In q qs -> length (visit_line q) <= cap) -> kept f -> Forall (sound f) ps -> Forall first_write ps -> (f = old \/ has_whole f) -> step cap (Some f, ps) z ->
  exists f' ps', z = (Some f', ps') /\ Forall first_write ps' /\ (f' = old \/ has_whole f').
Proof.
  intros Sh K F W H S. inversion S; subst.
  - apply Forall_app in F as [F1 F2]. inversion F2 as [|? ? F3 F4]; subst. apply Forall_app in W as [W1 W2]. inversion W2 as [|? ? W3 W4]; subst. match goal with M : moves _ _ _ |- _ => inversion M; subst end.
    + eexists. eexists. split; [reflexivity|]. split; [|exact H]. apply Forall_app. split; [exact W1|]. constructor; [right; reflexivity|exact W4].
    + eexists. eexists. split; [reflexivity|]. split; [|exact H]. apply Forall_app. split; [exact W1|]. constructor; [exact Logic.I|exact W4].
    + cbn [sound] in F3. destruct F3 as (q & st & Iq & Rq_ & El & Ls & Ep & Lp). cbn [first_write] in W3.
      assert (Ed : d = []) by (destruct W3 as [X|X]; [apply app_eq_nil in X as [X _]; contradiction|exact X]). subst d. cbn [app length] in *. rewrite Nat.add_0_r in Ep. subst st.
      assert (Eb : b0 = []). { match goal with X : b0 = [] \/ _ |- _ => destruct X as [X|X]; [exact X|] end. exfalso. pose proof (Sh q Iq) as Y. rewrite <- El in Y. lia. }
      subst b0. rewrite app_nil_r in El. subst a0. eexists. eexists. split; [reflexivity|]. split.
      * apply Forall_app. split; [exact W1|]. constructor; [left; reflexivity|exact W4].
      * right. destruct (overwrite_keeps_old pos (visit_line q) f Ls Lp K) as (x & y & E). exists q, x, y. auto.
    + eexists. eexists. split; [reflexivity|]. split; [|exact H]. apply Forall_app. split; [exact W1|]. constructor; [exact Logic.I|exact W4].
  - apply Forall_app in W as [W1 W2]. inversion W2 as [|? ? W3 W4]; subst. eexists. eexists. split; [reflexivity|]. split; [|exact H]. apply Forall_app. split; [exact W1|]. constructor; [exact Logic.I|exact W4].
Qed.
Theorem C114_whole f ps : (forall q, In q qs -> length (visit_line q) <= cap) -> reaches cap start (Some f, ps) -> f = old \/ exists q x y, In q qs /\ recorded q = true /\ f = old ++ x ++ visit_line q ++ y.
Proof.
  intros Sh R. assert (G : forall x y, reaches cap x y -> x = start -> exists f ps, y = (Some f, ps) /\ Forall first_write ps /\ (f = old \/ has_whole f)).
  { induction 1 as [x|x y z R' IH S]; intro E.
    - subst x. exists old, (map Idle qs). split; [reflexivity|]. split; [|left; reflexivity]. apply Forall_forall. intros p I. apply in_map_iff in I as (q & <- & _). exact Logic.I.
    - destruct (IH E) as (g & qs' & Ey & W & H). destruct (reaches_sound _ _ R' E) as (g' & qs'' & E' & K & F). rewrite Ey in E'. injection E' as <- <-. subst y. exact (short_step g qs' z Sh K F W H S). }
  destruct (G _ _ R eq_refl) as (g & qs' & E & _ & H). injection E as <- <-. exact H.
Qed.
End Many.
End Props.

(** ** cases *)
Definition gcc : request := Rq (L "searchpkg=gcc") 5.
Definition vim : request := Rq (L "searchpkg=vim") 6.
Definition long : request := Rq (L "searchpkg=gcc&page=packages") 5.
Definition index : request := Rq (L "page=index") 7.
Definition was : str := L "1,searchpkg=x" ++ [nl].
Lemma runs_line cap f q : recorded q = true -> runs cap (Some f, Idle q) (Some (f ++ visit_line q), Over).
Proof.
  intro R. eapply r_more; [apply m_begin, R|]. eapply r_more; [rewrite <- (app_nil_r (visit_line q)); apply m_write; [unfold visit_line; intro E; apply app_eq_nil in E as [_ E]; discriminate E|left; reflexivity]|].
  pose proof (overwrite_end f [] (visit_line q)) as O. cbn [length app] in O. rewrite Nat.add_0_r, app_nil_r in O. rewrite O. eapply r_more; [apply m_end|]. apply r_here.
Qed.
Example C114_witness : one_by_one 4096 (Some was) [gcc; index; vim] (Some (was ++ L "5,searchpkg=gcc" ++ [nl] ++ L "6,searchpkg=vim" ++ [nl])) /\
  (forall q, In q [gcc; index; vim] -> length (visit_line q) <= 4096).
Proof.
  split.
  - eapply o_next; [apply (runs_line 4096 was gcc); vm_compute; reflexivity|]. eapply o_next; [eapply r_more; [apply m_no_search; vm_compute; reflexivity|apply r_here]|]. eapply o_next; [apply (runs_line 4096 _ vim); vm_compute; reflexivity|].
    replace (was ++ L "5,searchpkg=gcc" ++ [nl] ++ L "6,searchpkg=vim" ++ [nl]) with ((was ++ visit_line gcc) ++ visit_line vim) by (vm_compute; reflexivity). apply o_none.
  - intros q I. apply Nat.leb_le. repeat (destruct I as [<-|I]; [vm_compute; reflexivity|]). destruct I.
Qed.
(** both look for the end before either writes *)
Lemma at_once a b : recorded a = true -> recorded b = true ->
  reaches 4096 (start was [a; b]) (Some (overwrite (length was) (visit_line b) (overwrite (length was) (visit_line a) was)), [Over; Over]).
Proof.
  intros Ra Rb. assert (Ne : forall q, visit_line q <> []) by (intro q; unfold visit_line; intro E; apply app_eq_nil in E as [_ E]; discriminate E). unfold start. cbn [map].
  eapply g_more; [eapply g_more; [eapply g_more; [eapply g_more; [eapply g_more; [eapply g_more; [apply g_here|]|]|]|]|]|].
  - eapply (s_move 4096 _ _ [] _ _ [Idle b]). apply m_begin, Ra.
  - eapply (s_move 4096 _ _ [At (length was) [] (visit_line a)] _ _ []). apply m_begin, Rb.
  - eapply (s_move 4096 _ _ [] _ _ [At (length was) [] (visit_line b)]). rewrite <- (app_nil_r (visit_line a)). apply m_write; [apply Ne|left; reflexivity].
  - eapply (s_move 4096 _ _ [At (length was + length (visit_line a)) ([] ++ visit_line a) []] _ _ []). rewrite <- (app_nil_r (visit_line b)) at 1. apply m_write; [apply Ne|left; reflexivity].
  - eapply (s_move 4096 _ _ [] _ _ [At (length was + length (visit_line b)) ([] ++ visit_line b) []]). apply m_end.
  - eapply (s_move 4096 _ _ [Over] _ _ []). apply m_end.
Qed.
(** *** two searches at once: one is not recorded *)
Theorem C114_lost_refuted : reaches 4096 (start was [gcc; vim]) (Some (was ++ L "6,searchpkg=vim" ++ [nl]), [Over; Over]).
Proof. exact (at_once gcc vim eq_refl eq_refl). Qed.
(** *** or the end of it stands there as a line of its own *)
Theorem C114_torn_refuted : reaches 4096 (start was [long; vim]) (Some (was ++ L "6,searchpkg=vim" ++ [nl] ++ L "page=packages" ++ [nl]), [Over; Over]).
Proof. exact (at_once long vim eq_refl eq_refl). Qed.
(** *** the time of a search after January 2038 is recorded wrong *)
Theorem C114_date_refuted : visit_line (Rq (L "searchpkg=gcc") 2147483648) = L "-2147483648,searchpkg=gcc" ++ [nl].
Proof. vm_compute. reflexivity. Qed.
(** *** a request that shows a page, or lists the packages without a search, is not recorded *)
Theorem C114_page_refuted : recorded index = false /\ recorded (Rq (L "page=packages") 7) = false.
Proof. vm_compute. auto. Qed.
Print Assumptions C114_whole. Print Assumptions C114_torn_refuted.
