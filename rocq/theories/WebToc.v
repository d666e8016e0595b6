(** C88: the table of contents of a page of webcards. *)
From Verif Require Import Base BaseProofs StrModel StrSpec StrProofs RulesModel FsModel MetaModel WebModel.
From Coq Require Import ZArith NArith Lia.

(** ** specification *)
(** a line without any tag that begins with <h *)
Definition untagged (l : str) : Prop := ~ occurs (L "<h") l.
(** the title of the page: the first tag that begins with <h is <h1 *)
Definition titled (l : str) : Prop := exists a b, l = a ++ L "<h1" ++ b /\ untagged a.
(** a heading, opened and closed on its line: [pre]<h[n][attr]>[text]</[rest] *)
Definition heading_line (pre : str) (n : ascii) (attr text rest : str) : str := pre ++ L "<h" ++ n :: attr ++ ">"%char :: text ++ L "</" ++ rest.
Definition is_heading (pre : str) (n : ascii) (attr text rest : str) : Prop :=
  In n (L "23456") /\ untagged pre /\ ~ In ">"%char attr /\ ~ occurs (L "</") pre /\ ~ occurs (L "</") attr /\ ~ occurs (L "</") text.
(** 2 for <h2 ... *)
Definition rank (n : ascii) : nat := N.to_nat (N_of_ascii n - 48).
(** the lists opened or closed on the way from a heading of rank p to one of rank n *)
Definition nest (p n : nat) : str := times (n - p) t_open ++ times (p - n) t_close.
(** what becomes of the lines from the first heading on: the k-th heading of the page gets the k-th link in the table and an anchor of that number
    just before its text; the other lines stay as they are *)
Inductive numbered : nat -> nat -> list str -> list str -> list str -> Prop :=
| nb_end k p : numbered k p [] [] []
| nb_line k p l ls es bs : untagged l -> numbered k p ls es bs -> numbered k p (l :: ls) es (l :: bs)
| nb_head k p pre n attr text rest ls es bs : is_heading pre n attr text rest -> numbered (S k) (rank n) ls es bs ->
    numbered k p (heading_line pre n attr text rest :: ls)
      ((nest p (rank n) ++ L "<li><a href=" ++ quot :: "#"%char :: dec (N.of_nat k) ++ quot :: ">"%char :: text ++ L "</a>") :: es)
      (heading_line pre n attr (L "<a name=" ++ quot :: dec (N.of_nat k) ++ quot :: L "></a>" ++ text) rest :: bs).

(** ** proofs *)
Lemma sfind_pair (x y : ascii) (a b : str) : x <> y -> ~ occurs [x; y] a -> sfind [x; y] (a ++ x :: y :: b) = Some (length a).
Proof.
  intros D. induction a as [|c a IH]; intro N.
  - cbn [List.app sfind prefixb]. rewrite !ceqb_refl. reflexivity.
  - assert (P : prefixb [x; y] ((c :: a) ++ x :: y :: b) = false).
    { cbn [List.app prefixb]. destruct (ceqb_spec x c) as [->|]; [|reflexivity]. cbn [andb]. destruct a as [|d a]; cbn [List.app].
      - destruct (ceqb_spec y c) as [->|]; [exfalso; apply D; reflexivity|reflexivity].
      - destruct (ceqb_spec y d) as [->|]; [|reflexivity]. exfalso. apply N. exists [], a. reflexivity. }
    assert (F : sfind [x; y] ((c :: a) ++ x :: y :: b) = option_map S (sfind [x; y] (a ++ x :: y :: b))) by (cbn [List.app] in *; cbn [sfind]; rewrite P; reflexivity).
    rewrite F, IH; [reflexivity|]. intros (u & v & ->). apply N. exists (c :: u), v. reflexivity.
Qed.
Lemma toc_untagged title s l : untagged l -> toc_line (L "<h") title s l = if t_have s then Toc (t_page s) (t_body s ++ [l]) (t_have s) (t_ref s) (t_prev s) else Toc (t_page s ++ [l]) (t_body s) (t_have s) (t_ref s) (t_prev s).
Proof. intro U. unfold toc_line. apply sfind_None in U. rewrite U. reflexivity. Qed.
Lemma toc_titled title s l : titled l -> toc_line (L "<h") title s l = Toc (t_page s ++ [l]) (t_body s) (t_have s) (t_ref s) (t_prev s).
Proof.
  intros (a & b & -> & U). unfold toc_line. change (L "<h1" ++ b) with ("<"%char :: "h"%char :: "1"%char :: b). change (L "<h") with ["<"; "h"]%char. rewrite sfind_pair; [|discriminate|exact U].
  replace (nth (length a + 2) (a ++ "<"%char :: "h"%char :: "1"%char :: b) zero) with "1"%char; [reflexivity|]. rewrite app_nth2_plus. reflexivity.
Qed.
Lemma occurs_in_app p a b : ~ occurs p (a ++ b) -> ~ occurs p a /\ ~ occurs p b.
Proof. intro N. split; intros (u & v & ->); apply N; [exists u, (v ++ b); rewrite <- !app_assoc; reflexivity|exists (a ++ u), v; rewrite <- !app_assoc; reflexivity]. Qed.
Lemma no_close_app (a b : str) : ~ occurs (L "</") a -> ~ occurs (L "</") b -> (forall b', b <> "/"%char :: b') \/ (forall a', a <> a' ++ ["<"%char]) -> ~ occurs (L "</") (a ++ b).
Proof.
  intros A B F (u & v & E). change (L "</") with ["<"; "/"]%char in *. revert a A F E. induction u as [|c u IH]; intros a A F E.
  - destruct a as [|x a]; [apply B; exists [], v; exact E|]. injection E as -> E. destruct a as [|x a].
    + destruct F as [F|F]; [cbn [List.app] in E; exact (F _ E)|exact (F [] eq_refl)].
    + injection E as -> E. apply A. exists [], a. reflexivity.
  - destruct a as [|x a]; [apply B; exists (c :: u), v; exact E|]. injection E as -> E. apply (IH a); [| |exact E].
    + intros (u' & v' & ->). apply A. exists (c :: u'), v'. reflexivity.
    + destruct F as [F|F]; [left; exact F|right; intros a' ->; exact (F (c :: a') eq_refl)].
Qed.
Lemma rank_level n : In n (L "23456") -> hlevel n = Z.of_nat (48 + rank n).
Proof. intros [<-|[<-|[<-|[<-|[<-|[]]]]]]; reflexivity. Qed.
Lemma toc_heading title s pre n attr text rest p : is_heading pre n attr text rest -> t_prev s = Z.of_nat (48 + p) ->
  toc_line (L "<h") title s (heading_line pre n attr text rest) =
  Toc ((if t_have s then t_page s else t_page s ++ [t_first; title; L "</h2>"; t_list]) ++ [nest p (rank n) ++ t_link (S (t_ref s)) text])
      (t_body s ++ [heading_line pre n attr (t_anchor (S (t_ref s)) ++ text) rest]) true (S (t_ref s)) (Z.of_nat (48 + rank n)).
Proof.
  intros (Hn & U & A & C1 & C2 & C3) P.
  assert (Nn : n <> "<"%char /\ n <> "/"%char /\ n <> ">"%char) by (split; [|split]; intros ->; destruct Hn as [H|[H|[H|[H|[H|[]]]]]]; discriminate).
  assert (E7 : ceqb n "1"%char = false) by (apply ceqb_neq; intros ->; destruct Hn as [H|[H|[H|[H|[H|[]]]]]]; discriminate).
  set (line := heading_line pre n attr text rest).
  assert (E1 : sfind (L "<h") line = Some (length pre)). { unfold line, heading_line. change (L "<h" ++ n :: attr ++ ">"%char :: text ++ L "</" ++ rest) with ("<"%char :: "h"%char :: n :: attr ++ ">"%char :: text ++ L "</" ++ rest). change (L "<h") with ["<"; "h"]%char. apply sfind_pair; [discriminate|exact U]. }
  assert (E2 : nth (length pre + 2) line zero = n) by (unfold line, heading_line; rewrite app_nth2_plus; reflexivity).
  assert (E3 : cfind_from ">"%char (length pre + 1) line = Some (length pre + 3 + length attr)).
  { unfold cfind_from, line, heading_line. replace (skipn (length pre + 1) (pre ++ L "<h" ++ n :: attr ++ ">"%char :: text ++ L "</" ++ rest)) with (("h"%char :: n :: attr) ++ ">"%char :: text ++ L "</" ++ rest) by (rewrite skipn_app, skipn_all2 by lia; replace (length pre + 1 - length pre) with 1 by lia; reflexivity).
    rewrite cfind_app; [cbn [option_map List.length]; f_equal; lia|]. intros [H|[H|H]]; [discriminate|exact (proj2 (proj2 Nn) H)|contradiction]. }
  assert (E4 : sfind (L "</") line = Some (length pre + 4 + length attr + length text)).
  { replace line with ((pre ++ L "<h" ++ [n] ++ attr ++ [">"%char] ++ text) ++ "<"%char :: "/"%char :: rest).
    2:{ unfold line, heading_line. rewrite <- !app_assoc. reflexivity. }
    change (L "</") with ["<"; "/"]%char. rewrite sfind_pair; [f_equal; rewrite !app_length; change (length (L "<h")) with 2; cbn [List.length]; lia|discriminate|].
    assert (One : forall x, ~ occurs (L "</") [x]) by (intros x (u & v & X); destruct u as [|? [|? u]]; discriminate X).
    change ["<"; "/"]%char with (L "</"). apply no_close_app; [exact C1| |left; intros b' X; discriminate X].
    apply no_close_app; [intros (u & v & X); destruct u as [|? [|? [|? u]]]; discriminate X| |left; intros b' X; injection X as X _; exact (proj1 (proj2 Nn) X)].
    apply no_close_app; [apply One| |right; intros [|? [|? a']] X; [injection X as X; exact (proj1 Nn X)|discriminate X|discriminate X]].
    apply no_close_app; [exact C2| |left; intros b' X; discriminate X].
    apply no_close_app; [apply One|exact C3|right; intros [|? [|? a']] X; discriminate X]. }
  assert (E5 : firstn (S (length pre + 3 + length attr)) line = pre ++ L "<h" ++ n :: attr ++ [">"%char] /\ skipn (S (length pre + 3 + length attr)) line = text ++ L "</" ++ rest).
  { replace line with ((pre ++ L "<h" ++ n :: attr ++ [">"%char]) ++ text ++ L "</" ++ rest) by (unfold line, heading_line; rewrite <- !app_assoc; cbn [List.app]; rewrite <- !app_assoc; reflexivity).
    assert (Ln : length (pre ++ L "<h" ++ n :: attr ++ [">"%char]) = S (length pre + 3 + length attr)) by (rewrite !app_length; change (length (L "<h")) with 2; cbn [List.length]; rewrite app_length; cbn [List.length]; lia).
    rewrite <- Ln. split; [rewrite firstn_app, Nat.sub_diag, firstn_all, firstn_O, app_nil_r; reflexivity|rewrite skipn_app, skipn_all2 by lia; rewrite Nat.sub_diag; reflexivity]. }
  destruct E5 as [E5 E6]. unfold toc_line. rewrite E1, E2, E3, E4. cbv zeta. rewrite E5, E6.
  rewrite E7.
  assert (E8 : S (length pre + 3 + length attr) <=? length pre + 4 + length attr + length text = true) by (apply Nat.leb_le; lia). rewrite E8.
  replace (length pre + 4 + length attr + length text - S (length pre + 3 + length attr)) with (length text) by lia.
  rewrite firstn_app, Nat.sub_diag, firstn_all, firstn_O, app_nil_r. rewrite (rank_level n Hn), P. unfold nest.
  replace (Z.to_nat (Z.of_nat (48 + rank n) - Z.of_nat (48 + p))) with (rank n - p) by lia. replace (Z.to_nat (Z.of_nat (48 + p) - Z.of_nat (48 + rank n))) with (p - rank n) by lia.
  f_equal; [rewrite <- app_assoc; reflexivity|]. f_equal. f_equal. unfold heading_line. rewrite <- !app_assoc. cbn [List.app]. rewrite <- !app_assoc. reflexivity.
Qed.
Lemma num_small k : (N.of_nat k < 2 ^ 32)%N -> num k = dec (N.of_nat k).
Proof. intro H. unfold num. rewrite N.mod_small by exact H. reflexivity. Qed.
Definition front (l : str) : Prop := untagged l \/ titled l.
Lemma toc_front title : forall ls s, Forall front ls -> t_have s = false -> fold_left (toc_line (L "<h") title) ls s = Toc (t_page s ++ ls) (t_body s) false (t_ref s) (t_prev s).
Proof.
  induction ls as [|l ls IH]; intros s F H; [destruct s as [pg bd hv rf pv]; cbn [t_have] in H; subst; cbn [fold_left t_page t_body t_ref t_prev]; rewrite app_nil_r; reflexivity|].
  inversion F as [|x y Fl Fs]; subst. cbn [fold_left]. assert (E : toc_line (L "<h") title s l = Toc (t_page s ++ [l]) (t_body s) false (t_ref s) (t_prev s)) by (destruct Fl as [U|T]; [rewrite toc_untagged, H by exact U; reflexivity|rewrite toc_titled, H by exact T; reflexivity]).
  rewrite E, IH by (exact Fs || reflexivity). cbn [t_page t_body t_ref t_prev]. rewrite <- app_assoc. reflexivity.
Qed.
Lemma toc_numbered title : forall k p ls es bs, numbered k p ls es bs -> (N.of_nat (k + length ls) < 2 ^ 32)%N -> forall s, t_have s = true -> S (t_ref s) = k -> t_prev s = Z.of_nat (48 + p) ->
  exists r pr, fold_left (toc_line (L "<h") title) ls s = Toc (t_page s ++ es) (t_body s ++ bs) true r pr.
Proof.
  intros k p ls es bs H. induction H as [k p|k p l ls es bs U H IH|k p pre n attr text rest ls es bs Hd H IH]; intros B s Hh Hk Hp.
  - exists (t_ref s), (t_prev s). cbn [fold_left]. rewrite !app_nil_r, <- Hh. destruct s; reflexivity.
  - cbn [fold_left]. rewrite toc_untagged, Hh by exact U. destruct (IH) with (s := Toc (t_page s) (t_body s ++ [l]) true (t_ref s) (t_prev s)) as (r & pr & E); [cbn [List.length] in B; lia|reflexivity|exact Hk|exact Hp|]. exists r, pr. rewrite E. cbn [t_page t_body]. rewrite <- app_assoc. reflexivity.
  - cbn [fold_left]. rewrite (toc_heading title s pre n attr text rest p Hd Hp), Hh, Hk.
    assert (B1 : (N.of_nat (S k + length ls) < 2 ^ 32)%N) by (cbn [List.length] in B; lia).
    match goal with |- context [fold_left _ ls ?s1] => destruct (IH B1 s1 eq_refl eq_refl eq_refl) as (r & pr & E) end.
    exists r, pr. rewrite E. cbn [t_page t_body]. rewrite <- !app_assoc. cbn [List.app]. unfold t_link, t_anchor. rewrite num_small by (cbn [List.length] in B; lia).
    f_equal. do 2 f_equal. unfold heading_line. rewrite <- !app_assoc. cbn [List.app]. rewrite <- !app_assoc. reflexivity.
Qed.
Lemma numbered_inv k p l ls es bs : numbered k p (l :: ls) es bs -> untagged l \/ exists pre n attr text rest es' bs', is_heading pre n attr text rest /\ numbered (S k) (rank n) ls es' bs' /\ l = heading_line pre n attr text rest /\
  es = (nest p (rank n) ++ L "<li><a href=" ++ quot :: "#"%char :: dec (N.of_nat k) ++ quot :: ">"%char :: text ++ L "</a>") :: es' /\ bs = heading_line pre n attr (L "<a name=" ++ quot :: dec (N.of_nat k) ++ quot :: L "></a>" ++ text) rest :: bs'.
Proof. intro H. inversion H; [left; assumption|]. right. do 7 eexists. split; [eassumption|]. split; [eassumption|]. split; [reflexivity|]. split; reflexivity. Qed.
(** a page without headings is shown as it is *)
Theorem C88_plain : forall title ls, Forall front ls -> toc_page ls (L "<h") title = ls.
Proof. intros title ls F. unfold toc_page. rewrite toc_front by (exact F || reflexivity). reflexivity. Qed.
(** a page with headings: the lines before the first one, the table with one link per heading in the order of the page, then all the other lines,
    where every heading has got the anchor its link leads to *)
Theorem C88_contents : forall title a l ls es bs, Forall front a -> (exists pre n attr text rest, l = heading_line pre n attr text rest /\ is_heading pre n attr text rest) ->
  numbered 1 2 (l :: ls) es bs -> (N.of_nat (length ls) < 2 ^ 31)%N ->
  toc_page (a ++ l :: ls) (L "<h") title = a ++ [t_first; title; L "</h2>"; t_list] ++ es ++ [t_last] ++ bs.
Proof.
  intros title a l ls es bs F (pre0 & n0 & attr0 & text0 & rest0 & El & Hl) H B. unfold toc_page. rewrite fold_left_app, (toc_front title a) by (exact F || reflexivity).
  destruct (numbered_inv _ _ _ _ _ _ H) as [U|(pre & n & attr & text & rest & es' & bs' & Hd & H' & E1 & -> & ->)].
  - exfalso. apply U. rewrite El. exists pre0, (n0 :: attr0 ++ ">"%char :: text0 ++ L "</" ++ rest0). reflexivity.
  - cbn [fold_left t_page t_body t_ref t_prev List.app]. rewrite E1.
    match goal with |- context [toc_line _ _ ?s0 _] => rewrite (toc_heading title s0 pre n attr text rest 2 Hd eq_refl) end. cbn [t_page t_body t_ref t_prev t_have List.app].
    match goal with |- context [fold_left _ ls ?s1] => destruct (toc_numbered title 2 (rank n) ls es' bs' H' ltac:(lia) s1 eq_refl eq_refl eq_refl) as (r & pr & E) end.
    rewrite E. cbn [t_have t_page t_body]. unfold t_link, t_anchor. change (num 1) with (dec (N.of_nat 1)). rewrite <- !app_assoc. cbn [List.app]. 
    change (num 1) with (dec (N.of_nat 1)). do 6 f_equal.
Qed.
(** ** are the lists of the table closed? *)
(** how often [p] occurs in a text *)
Fixpoint count (p s : str) : nat := match s with [] => 0 | _ :: t => (if prefixb p s then 1 else 0) + count p t end.
Lemma count_skip (p : str) (a b : str) : ~ In "<"%char a -> count ("<"%char :: p) (a ++ b) = count ("<"%char :: p) b.
Proof.
  induction a as [|c a IH]; intro N; [reflexivity|]. cbn [List.app count prefixb]. destruct (ceqb_spec "<"%char c) as [Ec|_]; [exfalso; apply N; left; symmetry; exact Ec|]. cbn [andb]. apply IH. intro I. apply N. right. exact I.
Qed.
Lemma dec_digits k : (N.of_nat k < 2 ^ 64)%N -> ~ In "<"%char (dec (N.of_nat k)).
Proof. intros H I. destruct (dec_spec _ H) as (_ & F & _). rewrite Forall_forall in F. specialize (F _ I). unfold is_digit in F. change (N_of_ascii "<"%char) with 60%N in F. lia. Qed.
Definition lists_open (s : str) : nat := count (L "<ul") s.
Definition lists_closed (s : str) : nat := count (L "</ul>") s.
Lemma link_text k text b : (N.of_nat k < 2 ^ 64)%N -> ~ In "<"%char text ->
  lists_open ((L "<li><a href=" ++ quot :: "#"%char :: dec (N.of_nat k) ++ quot :: ">"%char :: text ++ L "</a>") ++ b) = lists_open b /\
  lists_closed ((L "<li><a href=" ++ quot :: "#"%char :: dec (N.of_nat k) ++ quot :: ">"%char :: text ++ L "</a>") ++ b) = lists_closed b.
Proof.
  intros H T. pose proof (dec_digits k H) as D. unfold lists_open, lists_closed. change (L "<ul") with ("<"%char :: L "ul"). change (L "</ul>") with ("<"%char :: L "/ul>").
  assert (G : forall p, prefixb p (L "li><a") = false -> prefixb p (L "a href=") = false -> (forall r, prefixb p (L "/a>" ++ r) = false) -> (forall u v, prefixb p u = false -> length p <= length u -> prefixb p (u ++ v) = false) -> length p <= 4 ->
    count ("<"%char :: p) ((L "<li><a href=" ++ quot :: "#"%char :: dec (N.of_nat k) ++ quot :: ">"%char :: text ++ L "</a>") ++ b) = count ("<"%char :: p) b).
  { intros p P1 P2 P3 Q Lp. rewrite <- app_assoc. cbn [List.app]. rewrite <- app_assoc. cbn [List.app]. rewrite <- app_assoc.
    set (rest := dec (N.of_nat k) ++ quot :: ">"%char :: text ++ L "</a>" ++ b).
    assert (R : count ("<"%char :: p) rest = count ("<"%char :: p) b).
    { unfold rest. rewrite count_skip by exact D. change (quot :: ">"%char :: text ++ L "</a>" ++ b) with ([quot; ">"%char] ++ text ++ L "</a>" ++ b). rewrite count_skip by (intros [X|[X|[]]]; discriminate). rewrite count_skip by exact T.
      change (L "</a>" ++ b) with ("<"%char :: L "/a>" ++ b). cbn [count prefixb]. rewrite ceqb_refl, P3. cbn [andb Nat.add]. apply count_skip. intros [X|[X|[X|[]]]]; discriminate. }
    change (L "<li><a href=" ++ quot :: "#"%char :: rest) with ("<"%char :: L "li>" ++ "<"%char :: L "a href=" ++ [quot; "#"%char] ++ rest).
    change (count ("<"%char :: p) ("<"%char :: L "li>" ++ "<"%char :: L "a href=" ++ [quot; "#"%char] ++ rest)) with ((if prefixb ("<"%char :: p) ("<"%char :: L "li>" ++ "<"%char :: L "a href=" ++ [quot; "#"%char] ++ rest) then 1 else 0) + count ("<"%char :: p) (L "li>" ++ "<"%char :: L "a href=" ++ [quot; "#"%char] ++ rest)).
    assert (Z1 : prefixb ("<"%char :: p) ("<"%char :: L "li>" ++ "<"%char :: L "a href=" ++ [quot; "#"%char] ++ rest) = false) by (cbn [prefixb]; rewrite ceqb_refl; cbn [andb]; change (L "li>" ++ "<"%char :: L "a href=" ++ [quot; "#"%char] ++ rest) with (L "li><a" ++ L " href=" ++ [quot; "#"%char] ++ rest); apply Q; [exact P1|cbn; lia]).
    rewrite Z1, count_skip by (intros [X|[X|[X|[]]]]; discriminate). cbn [Nat.add].
    change (count ("<"%char :: p) ("<"%char :: L "a href=" ++ [quot; "#"%char] ++ rest)) with ((if prefixb ("<"%char :: p) ("<"%char :: L "a href=" ++ [quot; "#"%char] ++ rest) then 1 else 0) + count ("<"%char :: p) (L "a href=" ++ [quot; "#"%char] ++ rest)).
    assert (Z2 : prefixb ("<"%char :: p) ("<"%char :: L "a href=" ++ [quot; "#"%char] ++ rest) = false) by (cbn [prefixb]; rewrite ceqb_refl; cbn [andb]; apply Q; [exact P2|cbn; lia]).
    rewrite Z2, count_skip by (cbn; intuition discriminate). rewrite count_skip by (intros [X|[X|[]]]; discriminate). exact R. }
  assert (Q : forall p u v, prefixb p u = false -> length p <= length u -> prefixb p (u ++ v) = false).
  { clear. induction p as [|x p IH]; intros u v P Le; [discriminate|]. destruct u as [|y u]; [cbn in Le; lia|]. cbn [prefixb List.app] in *. destruct (ceqb x y); [|reflexivity]. cbn [andb] in *. apply IH; [exact P|cbn in Le; lia]. }
  split; apply G; try reflexivity; try (apply Q); cbn; lia.
Qed.
Lemma open_times k b : lists_open (times k t_open ++ b) = k + lists_open b /\ lists_closed (times k t_open ++ b) = lists_closed b.
Proof. induction k as [|k [IH1 IH2]]; [split; reflexivity|]. cbn [times]. rewrite <- app_assoc. split; [change (S (lists_open (times k t_open ++ b)) = S k + lists_open b); lia|exact IH2]. Qed.
Lemma close_times k b : lists_open (times k t_close ++ b) = lists_open b /\ lists_closed (times k t_close ++ b) = k + lists_closed b.
Proof. induction k as [|k [IH1 IH2]]; [split; reflexivity|]. cbn [times]. rewrite <- app_assoc. split; [exact IH1|change (S (lists_closed (times k t_close ++ b)) = S k + lists_closed b); lia]. Qed.
(** the lines of a text, each followed by a newline as std::endl writes it *)
Definition written (ls : list str) : str := flat_map (fun l => l ++ [nl]) ls.
Lemma heading_unique pre n attr text rest pre' n' attr' text' rest' : is_heading pre n attr text rest -> is_heading pre' n' attr' text' rest' -> heading_line pre n attr text rest = heading_line pre' n' attr' text' rest' -> n = n'.
Proof.
  intros (_ & U & _) (_ & U' & _) E.
  assert (F : forall (p : str) m t, untagged p -> sfind (L "<h") (p ++ L "<h" ++ m :: t) = Some (length p) /\ nth (length p + 2) (p ++ L "<h" ++ m :: t) zero = m).
  { intros p m t Up. split; [change (L "<h" ++ m :: t) with ("<"%char :: "h"%char :: m :: t); apply (sfind_pair "<"%char "h"%char); [discriminate|exact Up]|rewrite app_nth2_plus; reflexivity]. }
  unfold heading_line in E. destruct (F pre n (attr ++ ">"%char :: text ++ L "</" ++ rest) U) as [A B]. destruct (F pre' n' (attr' ++ ">"%char :: text' ++ L "</" ++ rest') U') as [A' B']. rewrite E in A, B. rewrite A in A'. injection A' as A'. rewrite A' in B. rewrite B in B'. exact B'.
Qed.
Lemma rank_lower n : In n (L "23456") -> 2 <= rank n.
Proof. intros [<-|[<-|[<-|[<-|[<-|[]]]]]]; vm_compute; lia. Qed.
(** headings whose text has no tag in it *)
Definition bare_headings (ls : list str) : Prop := forall pre n attr text rest, In (heading_line pre n attr text rest) ls -> is_heading pre n attr text rest -> ~ In "<"%char text.
Lemma numbered_lists : forall k p ls es bs, numbered k p ls es bs -> (N.of_nat (k + length ls) < 2 ^ 64)%N -> bare_headings ls ->
  forall c pre n attr text rest d, ls = c ++ heading_line pre n attr text rest :: d -> is_heading pre n attr text rest -> Forall untagged d ->
  forall b, lists_open (written es ++ b) + p + lists_closed b = lists_closed (written es ++ b) + rank n + lists_open b.
Proof.
  assert (Dn : forall k p d es bs, numbered k p d es bs -> Forall untagged d -> es = []).
  { intros k p d es bs H. induction H as [|k p l ls es bs U H IH|k p pre n attr text rest ls es bs Hd H IH]; intro F; [reflexivity|inversion F; subst; apply IH; assumption|]. inversion F as [|x y Fx Fy]; subst. exfalso. apply Fx. exists pre, (n :: attr ++ ">"%char :: text ++ L "</" ++ rest). reflexivity. }
  intros k p ls es bs H. induction H as [k p|k p l ls es bs U H IH|k p pre0 n0 attr0 text0 rest0 ls es bs Hd H IH]; intros B Br c pre n attr text rest d E Hh F b.
  - destruct c; discriminate E.
  - destruct c as [|x c]; cbn [List.app] in E; injection E as E1 E2.
    + exfalso. apply U. rewrite E1. exists pre, (n :: attr ++ ">"%char :: text ++ L "</" ++ rest). reflexivity.
    + apply (IH ltac:(cbn [List.length] in B; lia)) with (c := c) (pre := pre) (attr := attr) (text := text) (rest := rest) (d := d); [|exact E2|exact Hh|exact F]. intros a1 a2 a3 a4 a5 I1 I2. apply (Br a1 a2 a3 a4 a5); [right; exact I1|exact I2].
  - assert (T : ~ In "<"%char text0) by (apply (Br pre0 n0 attr0 text0 rest0); [left; reflexivity|exact Hd]).
    assert (Bk : (N.of_nat k < 2 ^ 64)%N) by (cbn [List.length] in B; lia).
    set (tail := [nl] ++ written es ++ b).
    assert (St : lists_open tail = lists_open (written es ++ b) /\ lists_closed tail = lists_closed (written es ++ b)) by (split; reflexivity). destruct St as [St1 St2].
    destruct (link_text k text0 tail Bk T) as [K1 K2].
    set (link := L "<li><a href=" ++ quot :: "#"%char :: dec (N.of_nat k) ++ quot :: ">"%char :: text0 ++ L "</a>") in *. destruct (open_times (rank n0 - p) (times (p - rank n0) t_close ++ link ++ tail)) as [O1 O2]. destruct (close_times (p - rank n0) (link ++ tail)) as [C1 C2].
    replace (written ((nest p (rank n0) ++ link) :: es) ++ b) with (times (rank n0 - p) t_open ++ times (p - rank n0) t_close ++ link ++ tail) by (unfold written, tail, nest; cbn [flat_map]; rewrite <- !app_assoc; reflexivity).
    rewrite O1, O2, C1, C2, K1, K2, St1, St2.
    destruct c as [|x c]; cbn [List.app] in E; injection E as E1 E2.
    + assert (n0 = n) by (eapply heading_unique; [exact Hd|exact Hh|exact E1]). subst n0. subst d. rewrite (Dn _ _ _ _ _ H F). cbn [written flat_map List.app]. lia.
    + assert (IHb := IH ltac:(cbn [List.length] in B; lia)). specialize (IHb ltac:(intros a1 a2 a3 a4 a5 I1 I2; apply (Br a1 a2 a3 a4 a5); [right; exact I1|exact I2]) c pre n attr text rest d E2 Hh F b). lia.
Qed.
(** the table closes as many lists as it opens exactly when the last heading is an <h2> *)
Theorem C88_closed_iff : forall title c pre n attr text rest d es bs, ~ In "<"%char title -> numbered 1 2 (c ++ heading_line pre n attr text rest :: d) es bs -> is_heading pre n attr text rest -> Forall untagged d ->
  bare_headings (c ++ heading_line pre n attr text rest :: d) -> (N.of_nat (length (c ++ heading_line pre n attr text rest :: d)) < 2 ^ 31)%N ->
  let table := written ([t_first; title; L "</h2>"; t_list] ++ es ++ [t_last]) in (lists_open table = lists_closed table <-> n = "2"%char).
Proof.
  intros title c pre n attr text rest d es bs Tt H Hh F Br B. cbv zeta. set (tl := written [t_last]). pose proof (numbered_lists 1 2 _ es bs H ltac:(lia) Br c pre n attr text rest d eq_refl Hh F tl) as K.
  assert (W : forall x y, written (x ++ y) = written x ++ written y) by (intros; unfold written; apply flat_map_app).
  assert (T1 : forall b, lists_open (written [t_first; title; L "</h2>"; t_list] ++ b) = 1 + lists_open b /\ lists_closed (written [t_first; title; L "</h2>"; t_list] ++ b) = lists_closed b).
  { intro b. unfold written. cbn [flat_map]. rewrite <- !app_assoc. unfold lists_open, lists_closed. split.
    - change (count (L "<ul") (title ++ [nl] ++ L "</h2>" ++ [nl] ++ t_list ++ [nl] ++ [] ++ b) = 1 + count (L "<ul") b). change (L "<ul") with ("<"%char :: L "ul"). rewrite count_skip by exact Tt. reflexivity.
    - change (count (L "</ul>") (title ++ [nl] ++ L "</h2>" ++ [nl] ++ t_list ++ [nl] ++ [] ++ b) = count (L "</ul>") b). change (L "</ul>") with ("<"%char :: L "/ul>"). rewrite count_skip by exact Tt. reflexivity. }
  rewrite !W. fold tl. destruct (T1 (written es ++ tl)) as [O C]. rewrite O, C. change (lists_open tl) with 0 in K. change (lists_closed tl) with 1 in K.
  destruct Hh as (Hn & _). split.
  - intro E. destruct Hn as [<-|[<-|[<-|[<-|[<-|[]]]]]]; [reflexivity| | | |]; exfalso; match type of K with context [rank ?m] => let v := eval vm_compute in (rank m) in change (rank m) with v in K end; lia.
  - intros ->. change (rank "2"%char) with 2 in K. lia.
Qed.
(** ** what is not so *)
(** a horizontal rule, or a heading that is closed on a later line, is left out of the page *)
Theorem C88_dropped_refuted : exists ls l, In l ls /\ ~ occurs (L "</") l /\ ~ In l (toc_page ls (L "<h") (L "Contents")).
Proof.
  exists [L "<h1>Cards</h1>"; L "one"; L "<hr>"; L "two"], (L "<hr>"). split; [right; right; left; reflexivity|]. split; [apply sfind_None; reflexivity|].
  assert (E : toc_page [L "<h1>Cards</h1>"; L "one"; L "<hr>"; L "two"] (L "<h") (L "Contents") = [L "<h1>Cards</h1>"; L "one"; L "two"]) by (vm_compute; reflexivity).
  rewrite E. intros [X|[X|[X|[]]]]; discriminate X.
Qed.
(** the link of a heading with a tag in its text is cut at the first closing tag *)
Theorem C88_cut_refuted : exists l, l = L "<h2>The <code>cards</code> command</h2>" /\
  In (L "<li><a href=" ++ quot :: L "#1" ++ quot :: L ">The <code>cards</a>") (toc_page [l] (L "<h") (L "Contents")).
Proof. eexists. split; [reflexivity|]. assert (E : nth 4 (toc_page [L "<h2>The <code>cards</code> command</h2>"] (L "<h") (L "Contents")) [] = L "<li><a href=" ++ quot :: L "#1" ++ quot :: L ">The <code>cards</a>") by (vm_compute; reflexivity). rewrite <- E. apply nth_In. vm_compute. lia. Qed.
Definition page1 : list str := [L "<h1>Cards</h1>"; L "intro"; L "<h2 class=x>Install</h2>"; L "text"; L "<h3>From a depot</h3>"; L "more"; L "<h2>Remove</h2>"; L "end"].
Example page1_numbered : exists es bs, numbered 1 2 (skipn 2 page1) es bs /\ length es = 3 /\ bare_headings (skipn 2 page1).
Proof.
  assert (U : forall l, sfind (L "<h") l = None -> untagged l) by (intros l; apply sfind_None).
  assert (Hd : forall pre n attr text rest, In n (L "23456") -> sfind (L "<h") pre = None -> ~ In ">"%char attr -> sfind (L "</") pre = None -> sfind (L "</") attr = None -> sfind (L "</") text = None -> is_heading pre n attr text rest).
  { intros pre n attr text rest A B C D E F. split; [exact A|]. split; [apply sfind_None; exact B|]. split; [exact C|]. split; [apply sfind_None; exact D|]. split; apply sfind_None; assumption. }
  eexists. eexists. split; [|split].
  - change (skipn 2 page1) with [heading_line [] "2"%char (L " class=x") (L "Install") (L "h2>"); L "text"; heading_line [] "3"%char [] (L "From a depot") (L "h3>"); L "more"; heading_line [] "2"%char [] (L "Remove") (L "h2>"); L "end"].
    apply nb_head; [apply Hd; try reflexivity; [left; reflexivity|intros X; vm_compute in X; intuition discriminate]|]. apply nb_line; [apply U; reflexivity|]. apply nb_head; [apply Hd; try reflexivity; [right; left; reflexivity|intros []]|]. apply nb_line; [apply U; reflexivity|].
    apply nb_head; [apply Hd; try reflexivity; [left; reflexivity|intros []]|]. apply nb_line; [apply U; reflexivity|]. apply nb_end.
  - reflexivity.
  - intros pre n attr text rest I (Hn & Up & A & C1 & C2 & C3) T.
    assert (G : forall l, In l (skipn 2 page1) -> count (L "<") l <= 2) by (intros l [<-|[<-|[<-|[<-|[<-|[<-|[]]]]]]]; vm_compute; lia).
    specialize (G _ I). assert (Cx : forall a b, count (L "<") (a ++ b) = count (L "<") a + count (L "<") b).
    { clear. induction a as [|c a IH]; intro b; [reflexivity|]. cbn [List.app count]. rewrite IH. assert (P : prefixb (L "<") (c :: a ++ b) = prefixb (L "<") (c :: a)) by (cbn [L list_ascii_of_string prefixb]; destruct (ceqb "<"%char c); reflexivity). rewrite P. lia. }
    unfold heading_line in G. rewrite !Cx in G. change (n :: attr ++ ">"%char :: text ++ L "</" ++ rest) with ([n] ++ attr ++ [">"%char] ++ text ++ L "</" ++ rest) in G. rewrite !Cx in G. change (count (L "<") (L "<h")) with 1 in G. change (count (L "<") (L "</")) with 1 in G.
    assert (1 <= count (L "<") text) by (clear -T Cx; apply in_split in T; destruct T as (u & v & ->); change ("<"%char :: v) with (L "<" ++ v); rewrite !Cx; change (count (L "<") (L "<")) with 1; lia). lia.
Qed.
(** a page whose last heading is an <h3>: one list stays open *)
Theorem C88_open_refuted : exists ls, let t := written (toc_page ls (L "<h") (L "Contents")) in lists_open t = 2 /\ lists_closed t = 1.
Proof. exists [L "<h2>Install</h2>"; L "<h3>From a depot</h3>"]. vm_compute. split; reflexivity. Qed.
(** the hypotheses of C88_contents are met by the page above *)
Theorem C88_case : exists l ls es bs, page1 = firstn 2 page1 ++ l :: ls /\ Forall front (firstn 2 page1) /\
  (exists pre n attr text rest, l = heading_line pre n attr text rest /\ is_heading pre n attr text rest) /\ numbered 1 2 (l :: ls) es bs /\
  (N.of_nat (length ls) < 2 ^ 31)%N /\ length es = 3 /\ bare_headings (l :: ls) /\
  toc_page page1 (L "<h") (L "Contents") = firstn 2 page1 ++ [t_first; L "Contents"; L "</h2>"; t_list] ++ es ++ [t_last] ++ bs.
Proof.
  destruct page1_numbered as (es & bs & N & Le & B).
  assert (U : forall l, sfind (L "<h") l = None -> untagged l) by (intros l; apply sfind_None).
  assert (F : Forall front (firstn 2 page1)).
  { constructor; [right; exists [], (L ">Cards</h1>"); split; [reflexivity|apply U; reflexivity]|]. constructor; [left; apply U; reflexivity|constructor]. }
  assert (H : exists pre n attr text rest, L "<h2 class=x>Install</h2>" = heading_line pre n attr text rest /\ is_heading pre n attr text rest).
  { exists [], "2"%char, (L " class=x"), (L "Install"), (L "h2>"). split; [reflexivity|]. split; [left; reflexivity|]. split; [apply sfind_None; reflexivity|].
    split; [intros X; vm_compute in X; intuition discriminate|]. split; [apply sfind_None; reflexivity|]. split; apply sfind_None; reflexivity. }
  exists (L "<h2 class=x>Install</h2>"), (skipn 3 page1), es, bs. split; [reflexivity|]. split; [exact F|]. split; [exact H|]. split; [exact N|].
  split; [vm_compute; reflexivity|]. split; [exact Le|]. split; [exact B|].
  change page1 with (firstn 2 page1 ++ L "<h2 class=x>Install</h2>" :: skipn 3 page1) at 1. apply C88_contents; [exact F|exact H|exact N|vm_compute; reflexivity].
Qed.
