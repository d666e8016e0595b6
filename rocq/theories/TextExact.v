(** C29, C37 for every text: exactly what decoding hexadecimal text and reading a file line by line give. *)
From Verif Require Import Base BaseProofs StrModel FsModel MetaModel HexModel HexProps FsProofs.

(** * C29 *)
(** The byte that two characters stand for: two digits; one digit followed by anything else; one digit after white space or a sign. *)
Inductive pair_byte (a b : ascii) : N -> Prop :=
| pb_two x y : hexval a x -> hexval b y -> pair_byte a b (16 * x + y)
| pb_first x : hexval a x -> ~ hexdigit b -> pair_byte a b x
| pb_second y : is_space a = true \/ a = "+"%char -> hexval b y -> pair_byte a b y
| pb_minus y : a = "-"%char -> hexval b y -> pair_byte a b ((256 - y) mod 256).
(** the text is a sequence of such pairs *)
Inductive pairs : str -> str -> Prop :=
| pairs_nil : pairs [] []
| pairs_cons a b s c r : pair_byte a b (N_of_ascii c) -> pairs s r -> pairs (a :: b :: s) (c :: r).

Definition hv (c : ascii) : option N :=
  let n := N_of_ascii c in
  if ((48 <=? n) && (n <=? 57))%N then Some (n - 48)%N
  else if ((97 <=? n) && (n <=? 102))%N then Some (n - 87)%N
  else if ((65 <=? n) && (n <=? 70))%N then Some (n - 55)%N else None.
Lemma hv_spec c v : hv c = Some v <-> hexval c v.
Proof.
  unfold hv. cbv zeta. split.
  - destruct ((48 <=? N_of_ascii c) && (N_of_ascii c <=? 57))%N eqn:A; [intro E; injection E as <-; apply hv_num; apply andb_true_iff in A; destruct A as [P Q]; apply N.leb_le in P, Q; split; assumption|].
    destruct ((97 <=? N_of_ascii c) && (N_of_ascii c <=? 102))%N eqn:B; [intro E; injection E as <-; apply hv_low; apply andb_true_iff in B; destruct B as [P Q]; apply N.leb_le in P, Q; split; assumption|].
    destruct ((65 <=? N_of_ascii c) && (N_of_ascii c <=? 70))%N eqn:D; [intro E; injection E as <-; apply hv_up; apply andb_true_iff in D; destruct D as [P Q]; apply N.leb_le in P, Q; split; assumption|discriminate].
  - intros [d H|d H|d H].
    + rewrite (proj2 (N.leb_le 48 _)), (proj2 (N.leb_le _ 57)) by lia. reflexivity.
    + rewrite (proj2 (N.leb_gt _ 57)) by lia. rewrite andb_false_r. rewrite (proj2 (N.leb_le 97 _)), (proj2 (N.leb_le _ 102)) by lia. reflexivity.
    + rewrite (proj2 (N.leb_gt _ 57)) by lia. rewrite andb_false_r. rewrite (proj2 (N.leb_gt 97 _)) by lia. cbn [andb]. rewrite (proj2 (N.leb_le 65 _)), (proj2 (N.leb_le _ 70)) by lia. reflexivity.
Qed.
Lemma hv_none c : hv c = None <-> ~ hexdigit c.
Proof.
  split.
  - intros E [v H]. apply hv_spec in H. rewrite H in E. discriminate E.
  - intro N. destruct (hv c) as [v|] eqn:E; [|reflexivity]. exfalso. apply N. exists v. apply hv_spec, E.
Qed.
Definition pb (a b : ascii) : option N :=
  match hv a, hv b with
  | Some x, Some y => Some (16 * x + y)%N
  | Some x, None => Some x
  | None, Some y => if is_space a || ceqb a "+" then Some y else if ceqb a "-" then Some ((256 - y) mod 256)%N else None
  | None, None => None
  end.
Lemma pb_spec a b v : pb a b = Some v <-> pair_byte a b v.
Proof.
  unfold pb. split.
  - destruct (hv a) as [x|] eqn:A; destruct (hv b) as [y|] eqn:B.
    + intro E. injection E as <-. apply pb_two; apply hv_spec; assumption.
    + intro E. injection E as <-. apply pb_first; [apply hv_spec; assumption|apply hv_none; assumption].
    + destruct (is_space a || ceqb a "+") eqn:S.
      * intro E. injection E as <-. apply pb_second; [|apply hv_spec; assumption]. apply orb_true_iff in S. destruct S as [S|S]; [left; exact S|right; apply ceqb_eq, S].
      * destruct (ceqb a "-") eqn:M; [|discriminate]. intro E. injection E as <-. apply pb_minus; [apply ceqb_eq, M|apply hv_spec; assumption].
    + discriminate.
  - intros [x y A B|x A B|y A B|y A B].
    + apply hv_spec in A, B. rewrite A, B. reflexivity.
    + apply hv_spec in A. apply hv_none in B. rewrite A, B. reflexivity.
    + assert (N : hv a = None). { apply hv_none. intros [v0 H]. destruct (hexval_plain a v0 H) as (P & _ & Q & _). destruct A as [A|A]; [rewrite A in P; discriminate P|rewrite A in Q; discriminate Q]. }
      apply hv_spec in B. rewrite N, B. destruct A as [A|A]; [rewrite A; reflexivity|rewrite A; reflexivity].
    + assert (N : hv a = None). { apply hv_none. intros [v0 H]. destruct (hexval_plain a v0 H) as (_ & Q & _). rewrite A in Q. discriminate Q. }
      apply hv_spec in B. rewrite N, B, A. reflexivity.
Qed.
Definition pairokb (a b : ascii) : bool :=
  match stoi16 [a; b], pb a b with
  | Ok v, Some n => (N_of_ascii (uchar v) =? n)%N
  | Throw, None => true
  | _, _ => false
  end.
Lemma pair_ok a b : pairokb a b = true.
Proof.
  revert b. apply all_ascii. revert a. apply (all_ascii (fun a => forallb (fun n => pairokb a (ascii_of_nat n)) (seq 0 256))). vm_compute. reflexivity.
Qed.
Definition oneokb (a : ascii) : bool :=
  match stoi16 [a], hv a with Ok _, Some _ => true | Throw, None => true | _, _ => false end.
Lemma one_ok a : oneokb a = true.
Proof. revert a. apply all_ascii. vm_compute. reflexivity. Qed.

Lemma pairs_inv x y t b : pairs (x :: y :: t) b -> exists c r, b = c :: r /\ pair_byte x y (N_of_ascii c) /\ pairs t r.
Proof. intro H. inversion H as [|? ? ? c r Pc Pr]. exists c, r. split; [reflexivity|]. split; assumption. Qed.
Lemma decode_ok : forall n s, length s <= n -> forall b, decode s = Ok b <-> pairs s b.
Proof.
  induction n as [|n IH]; intros s Hn b; destruct s as [|x [|y t]]; try (cbn in Hn; lia).
  - cbn [decode]. split; [intro E; injection E as <-; constructor|intro H; inversion H; reflexivity].
  - cbn [decode]. split; [intro E; injection E as <-; constructor|intro H; inversion H; reflexivity].
  - cbn [decode]. split; [|intro H; inversion H]. destruct (stoi16 [x]); discriminate.
  - cbn [decode]. pose proof (pair_ok x y) as P. unfold pairokb in P. destruct (stoi16 [x; y]) as [v| |] eqn:E; cbn [rbind].
    + destruct (pb x y) as [m|] eqn:Q; [|discriminate P]. apply N.eqb_eq in P. destruct (decode t) as [r| |] eqn:D; cbn [rbind].
      * assert (Hr : pairs t r) by (apply (IH t); [cbn in Hn; lia|exact D]). split.
        -- intro J. injection J as <-. constructor; [apply pb_spec; rewrite P; exact Q|exact Hr].
        -- intro J. destruct (pairs_inv x y t _ J) as (c0 & r0 & -> & Pc & Pr). apply pb_spec in Pc. rewrite Q in Pc. injection Pc as Pc. rewrite <- P in Pc.
           assert (Ok r = Ok r0) as R by (rewrite <- D; apply (IH t); [cbn in Hn; lia|exact Pr]). injection R as <-.
           f_equal. f_equal. rewrite <- (ascii_N_embedding c0), <- Pc, ascii_N_embedding. reflexivity.
      * split; [discriminate|]. intro J. destruct (pairs_inv x y t _ J) as (c0 & r0 & -> & Pc & Pr). apply (IH t) in Pr; [|cbn in Hn; lia]. rewrite D in Pr. discriminate Pr.
      * split; [discriminate|]. intro J. destruct (pairs_inv x y t _ J) as (c0 & r0 & -> & Pc & Pr). apply (IH t) in Pr; [|cbn in Hn; lia]. rewrite D in Pr. discriminate Pr.
    + destruct (pb x y) as [m|] eqn:Q; [discriminate P|]. split; [discriminate|]. intro J. destruct (pairs_inv x y t _ J) as (c0 & r0 & -> & Pc & Pr). apply pb_spec in Pc. rewrite Q in Pc. discriminate Pc.
    + discriminate P.
Qed.
Lemma decode_ub : forall n s, length s <= n -> decode s = UB <-> exists u r c, s = u ++ [c] /\ pairs u r /\ hexdigit c.
Proof.
  induction n as [|n IH]; intros s Hn; destruct s as [|x [|y t]]; try (cbn in Hn; lia).
  - split; [discriminate|intros (u & r & c & E & _); destruct u; discriminate E].
  - split; [discriminate|intros (u & r & c & E & _); destruct u; discriminate E].
  - cbn [decode]. pose proof (one_ok x) as P. unfold oneokb in P. destruct (stoi16 [x]) as [v| |]; cbn [rbind].
    + destruct (hv x) as [m|] eqn:Q; [|discriminate P]. split; [|reflexivity]. intros _. exists [], [], x. split; [reflexivity|]. split; [constructor|]. exists m. apply hv_spec, Q.
    + destruct (hv x) as [m|] eqn:Q; [discriminate P|]. split; [discriminate|]. intros (u & r & c & E & U & H). destruct u as [|k u]; [|destruct u; discriminate E]. injection E as <-.
      apply hv_none in Q. contradiction.
    + discriminate P.
  - cbn [decode]. pose proof (pair_ok x y) as P. unfold pairokb in P.
    assert (Z : (exists u r c, x :: y :: t = u ++ [c] /\ pairs u r /\ hexdigit c) <-> (exists m, pb x y = Some m /\ (m < 256)%N) /\ (exists u r c, t = u ++ [c] /\ pairs u r /\ hexdigit c)).
    { split.
      - intros (u & r & c & E & U & H). destruct U as [|a b u c0 r0 Pc Pr]; [discriminate E|]. cbn [app] in E. injection E as <- <- E. split.
        + exists (N_of_ascii c0). split; [apply pb_spec, Pc|apply N_ascii_bounded].
        + exists u, r0, c. split; [exact E|]. split; assumption.
      - intros [(m & Q & B) (u & r & c & E & U & H)]. exists (x :: y :: u), (ascii_of_N m :: r), c. split; [cbn [app]; rewrite E; reflexivity|]. split; [|exact H].
        constructor; [rewrite N_ascii_embedding by exact B; apply pb_spec, Q|exact U]. }
    rewrite Z. destruct (stoi16 [x; y]) as [v| |] eqn:E; cbn [rbind].
    + destruct (pb x y) as [m|] eqn:Q; [|discriminate P]. apply N.eqb_eq in P.
      assert (B : (m < 256)%N) by (rewrite <- P; apply N_ascii_bounded).
      rewrite <- (IH t) by (cbn in Hn; lia). destruct (decode t) as [r| |]; cbn [rbind].
      * split; [discriminate|intros [_ J]; discriminate J].
      * split; [discriminate|intros [_ J]; discriminate J].
      * split; [intros _; split; [exists m; split; [reflexivity|exact B]|reflexivity]|reflexivity].
    + destruct (pb x y) as [m|] eqn:Q; [discriminate P|]. split; [discriminate|intros [(m & J & _) _]; discriminate J].
    + discriminate P.
Qed.
(** Any text: it is accepted exactly if it is a sequence of such pairs, and decodes to their bytes; a byte is written behind the buffer exactly if one more digit follows; everything else is refused. *)
Theorem C29_exact (s : str) :
  (forall b, decode s = Ok b <-> pairs s b) /\
  (decode s = UB <-> exists u r c, s = u ++ [c] /\ pairs u r /\ hexdigit c) /\
  (decode s = Throw <-> (forall b, ~ pairs s b) /\ ~ exists u r c, s = u ++ [c] /\ pairs u r /\ hexdigit c).
Proof.
  assert (A : forall b, decode s = Ok b <-> pairs s b) by (apply (decode_ok (length s)); lia).
  assert (B : decode s = UB <-> exists u r c, s = u ++ [c] /\ pairs u r /\ hexdigit c) by (apply (decode_ub (length s)); lia).
  split; [exact A|]. split; [exact B|]. split.
  - intro T. split; [intros b H; apply A in H; rewrite T in H; discriminate H|intro H; apply B in H; rewrite T in H; discriminate H].
  - intros [N M]. destruct (decode s) as [b| |] eqn:E.
    + destruct (N b). apply A. reflexivity.
    + reflexivity.
    + destruct (M (proj1 B eq_refl)).
Qed.
Example C29_exact_case : pairs (L "1g -7f") [ascii_of_N 1; ascii_of_N 0; ascii_of_N 127] -> False.
Proof. intro H. apply (proj2 (proj1 (C29_exact _) _)) in H. vm_compute in H. discriminate H. Qed.
Example C29_exact_case2 : pairs (L "1g-17f") [ascii_of_N 1; ascii_of_N 255; ascii_of_N 127].
Proof. apply (proj1 (proj1 (C29_exact _) _)). vm_compute. reflexivity. Qed.

(** * C37 *)
(** what one reading of at most [n] characters takes from a text with more behind it ([last] = false) or nothing behind it *)
Definition piece (n : nat) (last : bool) (p : str) : Prop :=
  (exists l, p = l ++ [nl] /\ ~ In nl l /\ length p <= n) \/
  (~ In nl p /\ (length p = n \/ last = true /\ 0 < length p <= n)).
Inductive pieces (n : nat) : str -> list str -> Prop :=
| pieces_nil : pieces n [] []
| pieces_cons p t ps : piece n (match t with [] => true | _ => false end) p -> pieces n t ps -> pieces n (p ++ t) (p :: ps).
Lemma chunks_pieces n s : 0 < n -> forall k cur, 0 < k -> length cur + k = n -> ~ In nl cur ->
  (cur = [] /\ s = [] /\ chunks n k cur s = []) \/
  exists p t, rev cur ++ s = p ++ t /\ piece n (match t with [] => true | _ => false end) p /\ chunks n k cur s = p :: chunks n n [] t /\ length t <= length s.
Proof.
  intro Hn. induction s as [|c s IH]; intros k cur Hk Hl Hc.
  - destruct cur as [|d cur]; [left; auto|]. right. exists (rev (d :: cur)), []. split; [reflexivity|]. split; [|split; [reflexivity|auto]].
    right. split; [intro I; apply in_rev in I; exact (Hc I)|]. right. split; [reflexivity|]. rewrite rev_length. cbn [List.length] in *. lia.
  - right. cbn [chunks]. destruct (ceqb c nl) eqn:E.
    + apply ceqb_eq in E. subst c. exists (rev (nl :: cur)), s. split; [cbn [rev]; rewrite <- app_assoc; reflexivity|]. split; [|split; [reflexivity|cbn [List.length]; lia]].
      left. exists (rev cur). split; [reflexivity|]. split; [intro I; apply in_rev in I; exact (Hc I)|]. rewrite rev_length. cbn [List.length]. lia.
    + apply ceqb_neq in E. assert (Hc' : ~ In nl (c :: cur)) by (intros [I|I]; [exact (E I)|exact (Hc I)]).
      destruct k as [|[|k]]; [lia| |].
      * exists (rev (c :: cur)), s. split; [cbn [rev]; rewrite <- app_assoc; reflexivity|]. split; [|split; [reflexivity|cbn [List.length]; lia]].
        right. split; [intro I; apply in_rev in I; exact (Hc' I)|]. left. rewrite rev_length. cbn [List.length]. lia.
      * destruct (IH (S k) (c :: cur)) as [(A & _)|(p & t & A & B & C & D)]; [lia|cbn [List.length]; lia|exact Hc'|discriminate A|].
        exists p, t. split; [rewrite <- A; cbn [rev]; rewrite <- app_assoc; reflexivity|]. split; [exact B|]. split; [exact C|cbn [List.length]; lia].
Qed.
Lemma piece_nonempty n b p : 0 < n -> piece n b p -> p <> [].
Proof. intros Hn [(l & -> & _)|(_ & H)] E; [destruct l; discriminate E|]. subst p. cbn in H. lia. Qed.
Lemma chunks_are n : 0 < n -> forall m s, length s <= m -> pieces n s (chunks n n [] s).
Proof.
  intro Hn. induction m as [|m IH]; intros s Hm.
  - destruct s; [constructor|cbn in Hm; lia].
  - destruct (chunks_pieces n s Hn n []) as [(_ & A & B)|(p & t & A & B & C & D)]; [exact Hn|reflexivity|intros []| |].
    + subst s. constructor.
    + cbn [rev app] in A. rewrite C. rewrite A. constructor; [exact B|]. apply IH.
      assert (p <> []) by (apply (piece_nonempty n _ p Hn B)). rewrite A in Hm. rewrite app_length in Hm. destruct p; [contradiction|]. cbn [List.length] in Hm. lia.
Qed.
(** [pieces] determines the list: the definition leaves no choice *)
Lemma first_nl (l : str) : forall l' a b, ~ In nl l -> ~ In nl l' -> l ++ nl :: a = l' ++ nl :: b -> l = l' /\ a = b.
Proof.
  induction l as [|c l IH]; intros [|c' l'] a b N N' E; cbn [app] in E.
  - injection E as <-. split; reflexivity.
  - injection E as <- _. exfalso. apply N'. left. reflexivity.
  - injection E as -> _. exfalso. apply N. left. reflexivity.
  - injection E as <- E. destruct (IH l' a b) as [A B]; [intro I; apply N; right; exact I|intro I; apply N'; right; exact I|exact E|]. subst. split; reflexivity.
Qed.
Lemma no_nl_prefix (q : str) : forall l t t', ~ In nl q -> q ++ t = (l ++ [nl]) ++ t' -> length q <= length l.
Proof.
  induction q as [|c q IH]; intros l t t' N E; cbn [List.length]; [lia|]. destruct l as [|d l]; cbn [app] in E.
  - injection E as -> _. exfalso. apply N. left. reflexivity.
  - injection E as <- E. cbn [List.length]. apply le_n_S. apply (IH l t t'); [intro I; apply N; right; exact I|exact E].
Qed.
Lemma app_same_length {A} (p : list A) : forall q t u, length p = length q -> p ++ t = q ++ u -> p = q /\ t = u.
Proof. induction p as [|c p IH]; intros [|d q] t u H E; try discriminate H; [split; [reflexivity|exact E]|]. cbn [app] in E. injection E as <- E. injection H as H. destruct (IH q t u H E) as [-> ->]. split; reflexivity. Qed.
Lemma piece_unique n p q t u : 0 < n -> piece n (match t with [] => true | _ => false end) p -> piece n (match u with [] => true | _ => false end) q -> p ++ t = q ++ u -> p = q /\ t = u.
Proof.
  intros Hn P Q E. destruct P as [(l & -> & Nl & Ll)|(Np & Lp)]; destruct Q as [(l' & -> & Nl' & Ll')|(Nq & Lq)].
  - rewrite <- !app_assoc in E. cbn [app] in E. destruct (first_nl l l' t u Nl Nl' E) as [-> ->]. split; reflexivity.
  - pose proof (no_nl_prefix q l u t Nq (eq_sym E)) as K. rewrite app_length in Ll. cbn [List.length] in Ll.
    destruct Lq as [Lq|[Lu Lq]]; [lia|]. destruct u; [|discriminate Lu]. rewrite app_nil_r in E. apply (f_equal (@List.length ascii)) in E. rewrite !app_length in E. cbn [List.length] in E. lia.
  - pose proof (no_nl_prefix p l' t u Np E) as K. rewrite app_length in Ll'. cbn [List.length] in Ll'.
    destruct Lp as [Lp|[Lu Lp]]; [lia|]. destruct t; [|discriminate Lu]. rewrite app_nil_r in E. apply (f_equal (@List.length ascii)) in E. rewrite !app_length in E. cbn [List.length] in E. lia.
  - apply app_same_length; [|exact E]. apply (f_equal (@List.length ascii)) in E. rewrite !app_length in E.
    destruct Lp as [Lp|[Lu Lp]]; destruct Lq as [Lq|[Lv Lq]]; try lia.
    + destruct u; [|discriminate Lv]. cbn [List.length] in E. lia.
    + destruct t; [|discriminate Lu]. cbn [List.length] in E. lia.
    + destruct t; [|discriminate Lu]. destruct u; [|discriminate Lv]. cbn [List.length] in E. lia.
Qed.
Lemma pieces_unique n s ps : 0 < n -> pieces n s ps -> forall qs, pieces n s qs -> qs = ps.
Proof.
  intros Hn H. induction H as [|p t ps P H IH]; intros qs Q.
  - destruct (list_eq_dec (list_eq_dec ascii_dec) qs []) as [D|D]; [exact D|]. remember (@nil ascii) as s0 eqn:E0. destruct Q as [|q u qs Pq Q]; [reflexivity|]. pose proof (piece_nonempty n _ q Hn Pq). destruct q; [contradiction|discriminate E0].
  - remember (p ++ t) as s eqn:E. destruct Q as [|q u qs Pq Q].
    + pose proof (piece_nonempty n _ p Hn P). destruct p; [contradiction|discriminate E].
    + destruct (piece_unique n p q t u Hn P Pq (eq_sym E)) as [<- <-]. f_equal. apply IH, Q.
Qed.
(** Any file: it is cut into pieces; of each piece the part before the first NUL is taken and its last character dropped; a piece that begins with NUL makes the program write before its buffer. *)
Theorem C37_exact (s : str) : exists ps, pieces (BUFSIZ - 1) s ps /\ (forall qs, pieces (BUFSIZ - 1) s qs -> qs = ps) /\
  ((forall ls, parse_lines s = Some ls <-> (forall p, In p ps -> cstr p <> []) /\ ls = map (fun p => removelast (cstr p)) ps) /\
   (parse_lines s = None <-> exists p, In p ps /\ cstr p = [])).
Proof.
  assert (Hn : 0 < BUFSIZ - 1) by (unfold BUFSIZ; apply Nat.ltb_lt; vm_compute; reflexivity).
  exists (chunks (BUFSIZ - 1) (BUFSIZ - 1) [] s). pose proof (chunks_are (BUFSIZ - 1) Hn (length s) s (le_n _)) as C. split; [exact C|]. split; [intros qs Q; exact (pieces_unique _ s _ Hn C qs Q)|].
  unfold parse_lines. generalize (chunks (BUFSIZ - 1) (BUFSIZ - 1) [] s) as ps. clear. intro ps.
  assert (A : (forall p, In p ps -> cstr p <> []) -> map_opt store_line ps = Some (map (fun p => removelast (cstr p)) ps)).
  { induction ps as [|p ps IH]; intro H; [reflexivity|]. cbn [map_opt map]. rewrite IH by (intros q I; apply H; right; exact I).
    assert (N : cstr p <> []) by (apply H; left; reflexivity). unfold store_line. destruct (cstr p); [contradiction|reflexivity]. }
  assert (B : (exists p, In p ps /\ cstr p = []) -> map_opt store_line ps = None).
  { clear A. induction ps as [|q ps IH]; intros (p & I & E); [destruct I|]. cbn [map_opt]. destruct I as [-> |I].
    - unfold store_line. rewrite E. reflexivity.
    - rewrite IH by eauto. destruct (store_line q); reflexivity. }
  assert (D : (forall p, In p ps -> cstr p <> []) \/ exists p, In p ps /\ cstr p = []).
  { clear A B. induction ps as [|q ps [IH|(p & I & E)]]; [left; intros p []| |right; exists p; split; [right; exact I|exact E]].
    destruct (cstr q) eqn:E; [right; exists q; split; [left; reflexivity|exact E]|]. left. intros p [<- |I]; [rewrite E; discriminate|exact (IH p I)]. }
  split.
  - intro ls. split.
    + intro E. destruct D as [D|D]; [|rewrite (B D) in E; discriminate E]. rewrite (A D) in E. injection E as <-. split; [exact D|reflexivity].
    + intros [H ->]. exact (A H).
  - split; [|exact B]. intro E. destruct D as [D|D]; [rewrite (A D) in E; discriminate E|exact D].
Qed.
(** read into a set: the same lines, sorted, each once *)
Theorem C37_set (s : str) : match parse_lines s with
  | None => parse_set s = None
  | Some ls => exists xs, parse_set s = Some xs /\ ssorted xs /\ NoDup xs /\ forall x, In x xs <-> In x ls
  end.
Proof.
  unfold parse_set. destruct (parse_lines s) as [ls|]; [|reflexivity]. exists (set_of ls). split; [reflexivity|]. split; [apply set_of_sorted|]. split; [apply ssorted_NoDup, set_of_sorted|]. intro x. apply set_of_In.
Qed.
Print Assumptions C37_set.
Example C37_exact_case : exists ps, pieces 5 (L "abcdefg" ++ nl :: L "xy") ps /\ map (fun p => removelast (cstr p)) ps = [L "abcd"; L "fg"; L "x"].
Proof. eexists. split; [apply (chunks_are 5 ltac:(lia) _ _ (le_n _))|reflexivity]. Qed.
