(** C84: the command lines of pkgadd, pkgrm and pkginfo *)
From Verif Require Import Base BaseProofs ToolModel.
From Coq Require Import ZArith Lia.

(** * What a command line of pkginfo says *)
Inductive said := SRoot (x : str) | SAsk (q : query) (v : str).
(** the help text of pkginfo (pkginfo.cxx:480-516) *)
Definition names (q : query) : list str :=
  match q with
  | QInstalled => [L "-i"; L "--installed"]
  | QNumber => [L "-n"; L "--number"]
  | QDetails => [L "-d"; L "--details"]
  | QList => [L "-l"; L "--list"]
  | QRuntime => [L "-R"; L "--runtimedep"]
  | QOwner => [L "-o"; L "--owner"]
  | QArchive => [L "-a"; L "--archive"]
  | QMeta => [L "-m"; L "--meta"]
  | QFootprint => [L "-f"; L "--footprint"]
  | QLibraries => [L "-L"; L "--libraries"]
  | QDepFiles => [L "--runtimedepfiles"]
  | QRtLibs => [L "--runtimelibs"]
  | QBuild => [L "-b"; L "--buildtime"]
  end.
Definition root_names : list str := [L "-r"; L "--root"].
Definition plain (q : query) : Prop := q = QInstalled \/ q = QNumber.
Inductive word : list str -> said -> Prop :=
| w_root o x : In o root_names -> word [o; x] (SRoot x)
| w_value o q v : In o (names q) -> ~ plain q -> word [o; v] (SAsk q v)
| w_plain o q : In o (names q) -> plain q -> word [o] (SAsk q []).
Inductive reads : list str -> list said -> Prop :=
| r_nil : reads [] []
| r_cons w i ws l : word w i -> reads ws l -> reads (w ++ ws) (i :: l).
(** every query asked for, with its value *)
Definition asks (l : list said) : list (query * str) := flat_map (fun i => match i with SAsk q v => [(q, v)] | SRoot _ => [] end) l.
(** the root: "/", each -r puts its path in front *)
Definition root_of (l : list said) : str := fold_left (fun r i => match i with SRoot x => x ++ r | SAsk _ _ => r end) l (L "/").
(** the value that counts: the last one given *)
Definition value_of (l : list said) : str := fold_left (fun a i => match i with SAsk q v => match q with QInstalled | QNumber => a | _ => v end | SRoot _ => a end) l [].
(** the queries of which at most one may be asked *)
Definition exclusive (q : query) : Prop := In q [QDepFiles; QRtLibs; QFootprint; QInstalled; QArchive; QList; QOwner; QNumber].
Definition exclusiveb (q : query) : bool := match q with QDepFiles | QRtLibs | QFootprint | QInstalled | QArchive | QList | QOwner | QNumber => true | _ => false end.
Definition exclusives (l : list said) : list (query * str) := filter (fun p => exclusiveb (fst p)) (asks l).
Definition count (q : query) (l : list said) : Z := Z.of_nat (length (filter (fun p => query_eqb q (fst p)) (asks l))).

Lemma exclusiveb_spec q : exclusiveb q = true <-> exclusive q.
Proof. unfold exclusive. destruct q; cbn; split; intro H; try discriminate H; try reflexivity; intuition discriminate. Qed.
Lemma query_eqb_spec a b : query_eqb a b = true <-> a = b.
Proof. destruct a, b; cbn; split; intro H; try reflexivity; discriminate H. Qed.
Lemma plain_dec q : {plain q} + {~ plain q}.
Proof. destruct q; try (left; left; reflexivity); try (left; right; reflexivity); right; intros [H|H]; discriminate H. Qed.

(** the option recognised is the one named *)
Definition names_of (o : ioption) : list str := match o with ORoot => root_names | OQuery q => names q end.
Lemma is2_spec s a b : is2 s a b = true <-> In s [a; b].
Proof. unfold is2. rewrite orb_true_iff, !seqb_eq. cbn. split; intros [H|H]; auto. destruct H as [H|[]]; auto. Qed.
Lemma info_option_in s o : info_option s = Some o -> In s (names_of o).
Proof.
  unfold info_option. intro H.
  repeat match type of H with (if ?b then _ else _) = _ => let E := fresh "E" in destruct b eqn:E; [injection H as <-; first [apply (proj1 (is2_spec _ _ _) E)|left; symmetry; apply seqb_eq; exact E]|] end.
  discriminate H.
Qed.
Lemma in_info_option s o : In s (names_of o) -> info_option s = Some o.
Proof.
  intro H. destruct o as [|q]; cbn [names_of] in H; [destruct H as [<-|[<-|[]]]; reflexivity|].
  destruct q; cbn [names] in H; repeat (destruct H as [<-|H]; [reflexivity|]); destruct H.
Qed.
Lemma takes_plain q : takes_value (OQuery q) = false <-> plain q.
Proof. unfold plain. destruct q; cbn; split; intro H; try discriminate H; auto; destruct H as [H|H]; discriminate H. Qed.

Definition apply (s : istate) (i : said) : istate :=
  match i with SRoot x => with_value ORoot x s | SAsk q v => if takes_value (OQuery q) then with_value (OQuery q) v s else without_value (OQuery q) s end.
Lemma loop_word w i ws s : word w i -> info_loop (w ++ ws) s = info_loop ws (apply s i).
Proof.
  intros [o x H|o q v H np|o q H p].
  - cbn [app info_loop]. rewrite (in_info_option o ORoot H). reflexivity.
  - cbn [app info_loop]. rewrite (in_info_option o (OQuery q) H). cbn [apply]. destruct (takes_value (OQuery q)) eqn:E; [reflexivity|]. exfalso. apply np. apply takes_plain. exact E.
  - cbn [app info_loop]. rewrite (in_info_option o (OQuery q) H). cbn [apply]. rewrite (proj2 (takes_plain q) p). reflexivity.
Qed.
Lemma loop_reads args l : reads args l -> forall rest s, info_loop (args ++ rest) s = info_loop rest (fold_left apply l s).
Proof.
  induction 1 as [|w i ws l W R IH]; intros rest s; [reflexivity|]. rewrite <- app_assoc, (loop_word _ _ _ _ W), IH. reflexivity.
Qed.
Lemma loop_accepted n : forall args s s', length args <= n -> info_loop args s = Accepted s' -> exists l, reads args l /\ s' = fold_left apply l s.
Proof.
  induction n as [|n IH]; intros args s s' LE H.
  - destruct args; [|cbn in LE; lia]. injection H as <-. exists []. split; [constructor|reflexivity].
  - destruct args as [|a rest]; [injection H as <-; exists []; split; [constructor|reflexivity]|].
    cbn [info_loop] in H. destruct (info_option a) as [o|] eqn:O; [|discriminate H]. apply info_option_in in O. cbn [length] in LE.
    destruct (takes_value o) eqn:T.
    + destruct rest as [|v rest']; [discriminate H|]. cbn [length] in LE. apply IH in H; [|lia]. destruct H as (l & R & ->). destruct o as [|q].
      * exists (SRoot v :: l). split; [apply (r_cons [a; v]); [constructor; exact O|exact R]|reflexivity].
      * exists (SAsk q v :: l). split; [apply (r_cons [a; v]); [constructor; [exact O|intro p; apply takes_plain in p; congruence]|exact R]|]. cbn [fold_left apply]. rewrite T. reflexivity.
    + apply IH in H; [|lia]. destruct H as (l & R & ->). destruct o as [|q]; [discriminate T|].
      exists (SAsk q [] :: l). split; [apply (r_cons [a]); [constructor; [exact O|apply takes_plain; exact T]|exact R]|]. cbn [fold_left apply]. rewrite T. reflexivity.
Qed.
(** refusals of the loop *)
Definition stuck (rest : list str) (r : refusal) : Prop :=
  exists o tail, rest = o :: tail /\
    ((~ In o root_names /\ (forall q, ~ In o (names q)) /\ r = InvalidOption o) \/
     (tail = [] /\ (In o root_names \/ exists q, In o (names q) /\ ~ plain q) /\ r = ArgumentMissing o)).
Lemma loop_rejected n : forall args s r, length args <= n -> info_loop args s = Rejected r -> exists pre rest l, args = pre ++ rest /\ reads pre l /\ stuck rest r.
Proof.
  induction n as [|n IH]; intros args s r LE H.
  - destruct args; [discriminate H|cbn in LE; lia].
  - destruct args as [|a rest]; [discriminate H|]. cbn [info_loop] in H. cbn [length] in LE. destruct (info_option a) as [o|] eqn:O.
    + pose proof (info_option_in _ _ O) as I. destruct (takes_value o) eqn:T.
      * destruct rest as [|v rest'].
        -- injection H as <-. exists [], [a], []. split; [reflexivity|]. split; [constructor|]. exists a, []. split; [reflexivity|]. right. split; [reflexivity|]. split; [|reflexivity].
           destruct o as [|q]; [left; exact I|]. right. exists q. split; [exact I|]. intro p. apply takes_plain in p. congruence.
        -- cbn [length] in LE. apply IH in H; [|lia]. destruct H as (pre & tl & l & -> & R & K). destruct o as [|q].
           ++ exists (a :: v :: pre), tl, (SRoot v :: l). split; [reflexivity|]. split; [|exact K]. apply (r_cons [a; v]); [constructor; exact I|exact R].
           ++ exists (a :: v :: pre), tl, (SAsk q v :: l). split; [reflexivity|]. split; [|exact K]. apply (r_cons [a; v]); [constructor; [exact I|intro p; apply takes_plain in p; congruence]|exact R].
      * apply IH in H; [|lia]. destruct H as (pre & tl & l & -> & R & K). destruct o as [|q]; [discriminate T|].
        exists (a :: pre), tl, (SAsk q [] :: l). split; [reflexivity|]. split; [|exact K]. apply (r_cons [a]); [constructor; [exact I|apply takes_plain; exact T]|exact R].
    + injection H as <-. exists [], (a :: rest), []. split; [reflexivity|]. split; [constructor|]. exists a, rest. split; [reflexivity|]. left. split; [|split; [|reflexivity]].
      * intro K. pose proof (in_info_option a ORoot K) as Z. congruence.
      * intros q K. pose proof (in_info_option a (OQuery q) K) as Z. congruence.
Qed.
Lemma stuck_loop rest r s : stuck rest r -> info_loop rest s = Rejected r.
Proof.
  intros (o & tl & -> & [(A & B & ->)|(-> & K & ->)]).
  - cbn [info_loop]. destruct (info_option o) as [x|] eqn:O; [|reflexivity]. apply info_option_in in O. destruct x as [|q]; [elim (A O)|elim (B q O)].
  - cbn [info_loop]. destruct K as [K|(q & K & np)].
    + rewrite (in_info_option o ORoot K). reflexivity.
    + rewrite (in_info_option o (OQuery q) K). destruct (takes_value (OQuery q)) eqn:T; [reflexivity|]. elim np. apply takes_plain. exact T.
Qed.

(** the state after a line *)
Lemma state_root l : forall s, i_root (fold_left apply l s) = fold_left (fun r i => match i with SRoot x => x ++ r | SAsk _ _ => r end) l (i_root s).
Proof. induction l as [|i l IH]; intro s; [reflexivity|]. cbn [fold_left]. rewrite IH. f_equal. destruct i as [x|q v]; cbn [apply]; [reflexivity|]. destruct (takes_value (OQuery q)); reflexivity. Qed.
Lemma state_arg l : forall s, i_arg (fold_left apply l s) = fold_left (fun a i => match i with SAsk q v => match q with QInstalled | QNumber => a | _ => v end | SRoot _ => a end) l (i_arg s).
Proof. induction l as [|i l IH]; intro s; [reflexivity|]. cbn [fold_left]. rewrite IH. f_equal. destruct i as [x|q v]; [reflexivity|]. destruct q; reflexivity. Qed.
Lemma count_cons q i l : count q (i :: l) = ((match i with SAsk p _ => if query_eqb q p then 1 else 0 | SRoot _ => 0 end) + count q l)%Z.
Proof. unfold count. destruct i as [x|p v]; cbn [asks flat_map]; [cbn [app]; fold (asks l); lia|]. cbn [app]. fold (asks l). cbn [filter fst]. destruct (query_eqb q p); cbn [length]; lia. Qed.
Lemma state_count l : forall s q, i_n (fold_left apply l s) q = (i_n s q + count q l)%Z.
Proof.
  induction l as [|i l IH]; intros s q; [unfold count; cbn; lia|]. cbn [fold_left]. rewrite IH, count_cons. destruct i as [x|p v]; [cbn [apply with_value i_n]; lia|].
  assert (E : i_n (apply s (SAsk p v)) q = (i_n s q + (if query_eqb q p then 1 else 0))%Z) by (cbn [apply]; destruct (takes_value (OQuery p)); cbn [with_value without_value i_n bump]; unfold bump; destruct (query_eqb q p); lia).
  rewrite E. lia.
Qed.

(** the sums *)
Lemma count_nonneg q l : (0 <= count q l)%Z.
Proof. unfold count. lia. Qed.
Lemma sum_all_ext f g : (forall q, f q = g q) -> sum_all f = sum_all g.
Proof. intro H. unfold sum_all. rewrite !H. reflexivity. Qed.
Lemma sum_some_ext f g : (forall q, f q = g q) -> sum_some f = sum_some g.
Proof. intro H. unfold sum_some. rewrite !H. reflexivity. Qed.
Lemma sum_all_bump f p : (sum_all f + 1 <= sum_all (fun q => (if query_eqb q p then 1 else 0) + f q))%Z.
Proof. unfold sum_all. destruct p; cbn [query_eqb]; lia. Qed.
Lemma sum_some_bump f p : sum_some (fun q => (if query_eqb q p then 1 else 0) + f q)%Z = ((if exclusiveb p then 1 else 0) + sum_some f)%Z.
Proof. unfold sum_some. destruct p; cbn [query_eqb exclusiveb]; lia. Qed.
Lemma sum_all_asks l : (Z.of_nat (length (asks l)) <= sum_all (fun q => count q l))%Z.
Proof.
  induction l as [|i l IH]; [apply Z.le_refl|]. rewrite (sum_all_ext _ _ (fun q => count_cons q i l)). destruct i as [x|p v].
  - rewrite (sum_all_ext _ (fun q => count q l)) by (intro q; apply Z.add_0_l). exact IH.
  - pose proof (sum_all_bump (fun q => count q l) p) as B. cbv beta in B. change (asks (SAsk p v :: l)) with ((p, v) :: asks l). cbn [length]. rewrite Nat2Z.inj_succ. lia.
Qed.
Lemma sum_some_asks l : sum_some (fun q => count q l) = Z.of_nat (length (exclusives l)).
Proof.
  induction l as [|i l IH]; [reflexivity|]. rewrite (sum_some_ext _ _ (fun q => count_cons q i l)). destruct i as [x|p v].
  - rewrite (sum_some_ext _ (fun q => count q l)) by (intro q; apply Z.add_0_l). exact IH.
  - rewrite (sum_some_bump (fun q => count q l) p), IH. unfold exclusives. change (asks (SAsk p v :: l)) with ((p, v) :: asks l). cbn [filter fst]. destruct (exclusiveb p); cbn [length]; [rewrite Nat2Z.inj_succ|]; lia.
Qed.
Lemma sums l : (sum_all (fun q => count q l) = 0 <-> asks l = [])%Z /\ sum_some (fun q => count q l) = Z.of_nat (length (exclusives l)).
Proof.
  split; [|apply sum_some_asks]. pose proof (sum_all_asks l) as A. split; intro H.
  - destruct (asks l); [reflexivity|]. cbn [length] in A. lia.
  - rewrite (sum_all_ext _ (fun _ => 0%Z)); [reflexivity|]. intro q. unfold count. rewrite H. reflexivity.
Qed.
Lemma start_counts l q : i_n (fold_left apply l (info_start 0 0)) q = count q l.
Proof. rewrite state_count. destruct q; cbn [info_start i_n]; lia. Qed.
Lemma parse_reads args l : reads args l ->
  info_parse 0 0 args = if match asks l with [] => true | _ => false end then Rejected (OptionMissing (value_of l))
                        else if 1 <? length (exclusives l) then Rejected (TooMany (value_of l)) else Accepted (fold_left apply l (info_start 0 0)).
Proof.
  intro R. unfold info_parse. pose proof (loop_reads _ _ R [] (info_start 0 0)) as H. rewrite app_nil_r in H. rewrite H. cbn [info_loop].
  rewrite (sum_all_ext _ _ (start_counts l)), (sum_some_ext _ _ (start_counts l)). destruct (sums l) as (A & B). rewrite B.
  assert (V : i_arg (fold_left apply l (info_start 0 0)) = value_of l) by (rewrite state_arg; reflexivity). rewrite V.
  destruct (Z.eqb_spec (sum_all (fun q => count q l)) 0) as [E|E].
  - rewrite (proj1 A E). reflexivity.
  - destruct (asks l) as [|x y] eqn:K; [elim E; apply A; reflexivity|].
    destruct (Z.ltb_spec 1 (Z.of_nat (length (exclusives l)))), (Nat.ltb_spec 1 (length (exclusives l))); try lia; reflexivity.
Qed.

(** the words of a line are unambiguous *)
Lemma word_det w i w' i' x y : word w i -> word w' i' -> w ++ x = w' ++ y -> w = w' /\ i = i' /\ x = y.
Proof.
  assert (D : forall o o' a, In a (names_of o) -> In a (names_of o') -> o = o') by (intros o o' a H H'; apply in_info_option in H, H'; congruence).
  intros [o v H|o q v H np|o q H p] [o' v' H'|o' q' v' H' np'|o' q' H' p'] E; cbn [app] in E.
  - injection E as -> -> ->. auto.
  - injection E as -> -> ->. pose proof (D ORoot (OQuery q') o' H H'); discriminate.
  - injection E as -> _. pose proof (D ORoot (OQuery q') o' H H'); discriminate.
  - injection E as -> -> ->. pose proof (D ORoot (OQuery q) o' H' H); discriminate.
  - injection E as -> -> ->. pose proof (D (OQuery q) (OQuery q') o' H H') as Q. injection Q as ->. auto.
  - injection E as -> _. pose proof (D (OQuery q) (OQuery q') o' H H') as Q. injection Q as ->. contradiction.
  - injection E as -> _. pose proof (D ORoot (OQuery q) o' H' H); discriminate.
  - injection E as -> _. pose proof (D (OQuery q) (OQuery q') o' H H') as Q. injection Q as ->. contradiction.
  - injection E as -> ->. pose proof (D (OQuery q) (OQuery q') o' H H') as Q. injection Q as ->. auto.
Qed.
Lemma word_cons w i : word w i -> exists a b, w = a :: b.
Proof. intros [o v H|o q v H np|o q H p]; eauto. Qed.
Theorem C84_unambiguous args l l' : reads args l -> reads args l' -> l = l'.
Proof.
  intro R. revert l'. induction R as [|w i ws l W R IH]; intros l' R'.
  - inversion R' as [|w i ws l W R E]; [reflexivity|]. apply word_cons in W. destruct W as (a & b & ->). discriminate E.
  - inversion R' as [E|w' i' ws' l2 W' R2 E]; subst.
    + apply word_cons in W. destruct W as (a & b & ->). discriminate E.
    + destruct (word_det _ _ _ _ _ _ W' W E) as (_ & -> & ->). f_equal. apply IH. exact R2.
Qed.

(** * What pkginfo accepts, when the two modes its constructor forgets start as 0 *)
Lemma accepted_reads args s : info_parse 0 0 args = Accepted s -> exists l, reads args l /\ asks l <> [] /\ length (exclusives l) <= 1 /\ s = fold_left apply l (info_start 0 0).
Proof.
  intro H. assert (K : exists s0, info_loop args (info_start 0 0) = Accepted s0) by (unfold info_parse in H; destruct (info_loop args (info_start 0 0)) as [s0|r]; [eauto|discriminate H]).
  destruct K as (s0 & Lp). destruct (loop_accepted _ _ _ _ (le_n _) Lp) as (l & R & _). rewrite (parse_reads _ _ R) in H.
  destruct (asks l) as [|x y] eqn:A; [discriminate H|]. destruct (Nat.ltb_spec 1 (length (exclusives l))); [discriminate H|]. injection H as <-.
  exists l. split; [exact R|]. split; [congruence|]. split; [lia|reflexivity].
Qed.
Theorem C84_pkginfo_accepts args : (exists s, info_parse 0 0 args = Accepted s) <-> exists l, reads args l /\ asks l <> [] /\ length (exclusives l) <= 1.
Proof.
  split.
  - intros (s & H). destruct (accepted_reads _ _ H) as (l & R & A & E & _). exists l. auto.
  - intros (l & R & A & E). rewrite (parse_reads _ _ R). destruct (asks l); [elim A; reflexivity|]. destruct (Nat.ltb_spec 1 (length (exclusives l))); [lia|]. eauto.
Qed.
(** and why it refuses *)
Theorem C84_pkginfo_refuses args r : info_parse 0 0 args = Rejected r <->
  (exists pre rest l, args = pre ++ rest /\ reads pre l /\ stuck rest r) \/
  (exists l, reads args l /\ asks l = [] /\ r = OptionMissing []) \/
  (exists l, reads args l /\ 1 < length (exclusives l) /\ r = TooMany (value_of l)).
Proof.
  assert (NV : forall l, asks l = [] -> value_of l = []).
  { intro l. unfold value_of. induction l as [|i l IH]; intro H; [reflexivity|]. cbn [fold_left]. destruct i as [x|q v]; [apply IH; exact H|discriminate H]. }
  split.
  - intro H. destruct (info_loop args (info_start 0 0)) as [s|r'] eqn:Lp.
    + destruct (loop_accepted _ _ _ _ (le_n _) Lp) as (l & R & _). rewrite (parse_reads _ _ R) in H. right. destruct (asks l) eqn:A.
      * left. injection H as <-. exists l. rewrite (NV l A). auto.
      * destruct (Nat.ltb_spec 1 (length (exclusives l))); [|discriminate H]. injection H as <-. right. exists l. auto.
    + left. unfold info_parse in H. rewrite Lp in H. injection H as ->. exact (loop_rejected _ _ _ _ (le_n _) Lp).
  - intros [(pre & rest & l & -> & R & K)|[(l & R & A & ->)|(l & R & A & ->)]].
    + unfold info_parse. rewrite (loop_reads _ _ R), (stuck_loop _ _ _ K). reflexivity.
    + rewrite (parse_reads _ _ R), A. rewrite (NV l A). reflexivity.
    + rewrite (parse_reads _ _ R). destruct (asks l) eqn:E; [unfold exclusives in A; rewrite E in A; cbn in A; lia|]. destruct (Nat.ltb_spec 1 (length (exclusives l))); [reflexivity|lia].
Qed.
(** the root is "/" with the paths of -r in front, the last one first *)
Theorem C84_pkginfo_root args l s : reads args l -> info_parse 0 0 args = Accepted s -> i_root s = root_of l.
Proof. intros R H. destruct (accepted_reads _ _ H) as (l' & R' & _ & _ & ->). rewrite (C84_unambiguous _ _ _ R R'). apply state_root. Qed.

(** One query, wherever it stands among the -r options: it is accepted, that query is answered, with its argument, and nothing else *)
Lemma one_counts l q v : asks l = [(q, v)] -> forall p, count p l = if query_eqb p q then 1%Z else 0%Z.
Proof. intros A p. unfold count. rewrite A. cbn [filter fst]. destruct (query_eqb p q); reflexivity. Qed.
Lemma one_value l q v : asks l = [(q, v)] -> (plain q -> v = []) -> value_of l = v.
Proof.
  intros A P. unfold value_of.
  assert (NV : forall l a, asks l = [] -> fold_left (fun a i => match i with SAsk q v => match q with QInstalled | QNumber => a | _ => v end | SRoot _ => a end) l a = a).
  { intro m. induction m as [|i m IH]; intros a H; [reflexivity|]. cbn [fold_left]. destruct i as [x|p u]; [apply IH; exact H|discriminate H]. }
  generalize (eq_refl (@nil ascii)). generalize (@nil ascii) at 1 3. intro a0. induction l as [|i l IH]; intro Z; [discriminate A|]. destruct i as [x|p u].
  - cbn [fold_left]. apply IH; [exact A|exact Z].
  - cbn [asks flat_map app] in A. fold (asks l) in A. injection A as -> -> A. cbn [fold_left]. rewrite (NV l _ A). subst a0. destruct q; try reflexivity; symmetry; apply P; [left|right]; reflexivity.
Qed.
Lemma reads_plain args l : reads args l -> forall q v, In (q, v) (asks l) -> plain q -> v = [].
Proof.
  induction 1 as [|w i ws l W R IH]; intros q v I P; [destruct I|]. destruct W as [o x H|o q' v' H np|o q' H p]; cbn [asks flat_map app] in I.
  - exact (IH q v I P).
  - destruct I as [E|I]; [injection E as -> ->; contradiction|exact (IH q v I P)].
  - destruct I as [E|I]; [injection E as -> <-; reflexivity|exact (IH q v I P)].
Qed.
Theorem C84_one_query args l q v : reads args l -> asks l = [(q, v)] ->
  exists s, info_parse 0 0 args = Accepted s /\ i_root s = root_of l /\ info_run s = [(q, v)].
Proof.
  intros R A. exists (fold_left apply l (info_start 0 0)). split; [|split].
  - rewrite (parse_reads _ _ R), A. destruct (Nat.ltb_spec 1 (length (exclusives l))) as [H|H]; [|reflexivity]. unfold exclusives in H. rewrite A in H. cbn [filter] in H. destruct (exclusiveb (fst (q, v))); cbn in H; lia.
  - apply state_root.
  - assert (V : i_arg (fold_left apply l (info_start 0 0)) = v).
    { rewrite state_arg. apply (one_value l q v A). intro P. apply (reads_plain _ _ R q v); [rewrite A; left; reflexivity|exact P]. }
    unfold info_run. cbv zeta. rewrite V, !start_counts, !(one_counts l q v A). destruct q; reflexivity.
Qed.
(** Several queries: what is answered was asked, and with the last value given on the line *)
Theorem C84_answers args l s q a : reads args l -> info_parse 0 0 args = Accepted s -> In (q, a) (info_run s) -> a = value_of l /\ exists v, In (q, v) (asks l).
Proof.
  intros R H I. destruct (accepted_reads _ _ H) as (l' & R' & _ & _ & ->). rewrite <- (C84_unambiguous _ _ _ R R') in *. clear l' R'.
  assert (ON : forall p, on (count p l) = true -> exists v, In (p, v) (asks l)).
  { intros p K. unfold count in K. destruct (filter (fun x => query_eqb p (fst x)) (asks l)) as [|(p', v) tl] eqn:F; [discriminate K|].
    assert (J : In (p', v) (filter (fun x => query_eqb p (fst x)) (asks l))) by (rewrite F; left; reflexivity). apply filter_In in J. destruct J as (J1 & J2). apply query_eqb_spec in J2. cbn [fst] in J2. subst p'. exists v. exact J1. }
  assert (V : i_arg (fold_left apply l (info_start 0 0)) = value_of l) by (rewrite state_arg; reflexivity).
  unfold info_run in I. cbv zeta in I. rewrite V, !start_counts in I.
  assert (ONE : forall p, In (q, a) [(p, value_of l)] -> on (count p l) = true -> a = value_of l /\ exists v, In (q, v) (asks l)).
  { intros p [E|[]] K. injection E as -> <-. split; [reflexivity|apply ON; exact K]. }
  apply in_app_or in I. destruct I as [I|I]; [destruct (on (count QMeta l)) eqn:E; [exact (ONE _ I E)|destruct I]|].
  apply in_app_or in I. destruct I as [I|I]; [destruct (on (count QArchive l)) eqn:E; [exact (ONE _ I E)|destruct I]|].
  destruct (on (count QFootprint l)) eqn:E1; [exact (ONE _ I E1)|]. destruct (on (count QNumber l)) eqn:E2; [exact (ONE _ I E2)|].
  destruct (on (count QInstalled l)) eqn:E3; [exact (ONE _ I E3)|]. destruct (on (count QList l)) eqn:E4; [exact (ONE _ I E4)|].
  destruct (on (count QRtLibs l)) eqn:E5; [exact (ONE _ I E5)|]. destruct (on (count QDepFiles l)) eqn:E6; [exact (ONE _ I E6)|].
  destruct (Z.ltb_spec 0 (count QLibraries l + count QRuntime l)) as [E7|E7].
  - destruct (on (count QRuntime l)) eqn:E8; [exact (ONE _ I E8)|]. apply (ONE _ I). unfold on in *. apply negb_true_iff. apply negb_false_iff in E8. apply Z.eqb_eq in E8. apply Z.eqb_neq. lia.
  - destruct (on (count QBuild l)) eqn:E9; [exact (ONE _ I E9)|]. destruct (on (count QDetails l)) eqn:E10; [exact (ONE _ I E10)|]. destruct (on (count QOwner l)) eqn:E11; [exact (ONE _ I E11)|]. destruct I.
Qed.
(** but not: what is asked on an accepted line is answered, about what was named: pkginfo -l foo -d bar lists the files of bar (and says
    nothing else), pkginfo -o x -d y never looks for owners *)
Theorem C84_several_refuted : ~ (forall args l s, reads args l -> info_parse 0 0 args = Accepted s -> forall q v, In (q, v) (asks l) -> In (q, v) (info_run s)) /\
  (exists s, info_parse 0 0 [L "-l"; L "foo"; L "-d"; L "bar"] = Accepted s /\ info_run s = [(QList, L "bar")]) /\
  (exists s, info_parse 0 0 [L "-o"; L "x"; L "-d"; L "y"] = Accepted s /\ info_run s = [(QDetails, L "y")]).
Proof.
  assert (A : exists s, info_parse 0 0 [L "-l"; L "foo"; L "-d"; L "bar"] = Accepted s /\ info_run s = [(QList, L "bar")]) by (eexists; split; reflexivity).
  split; [|split; [exact A|eexists; split; reflexivity]]. intro H. destruct A as (s & P & E).
  assert (R : reads [L "-l"; L "foo"; L "-d"; L "bar"] [SAsk QList (L "foo"); SAsk QDetails (L "bar")]).
  { apply (r_cons [L "-l"; L "foo"]); [apply w_value; [left; reflexivity|intros [X|X]; discriminate X]|].
    apply (r_cons [L "-d"; L "bar"] _ []); [apply w_value; [left; reflexivity|intros [X|X]; discriminate X]|constructor]. }
  specialize (H _ _ s R P QDetails (L "bar") (or_intror (or_introl eq_refl))). rewrite E in H. destruct H as [H|[]]. discriminate H.
Qed.
(** Nor can the zeros be dropped: with other values in the two modes the constructor of the tool leaves alone, pkginfo -i is refused
    as too many options, or prints the number of packages instead of the list; and a line with no query at all is accepted *)
Theorem C84_start_refuted :
  (exists num0, info_parse 0 num0 [L "-i"] = Rejected (TooMany [])) /\
  (exists num0 s, info_parse 0 num0 [L "-i"] = Accepted s /\ info_run s = [(QNumber, [])]) /\
  (exists libs0 s, info_parse libs0 0 [] = Accepted s /\ info_run s = [(QRtLibs, [])]).
Proof. split; [exists 1%Z; reflexivity|]. split; [exists (-5)%Z; eexists; split; reflexivity|]. exists 1%Z. eexists. split; reflexivity. Qed.
Example C84_pkginfo_example : exists s, info_parse 0 0 [L "-r"; L "/mnt"; L "--list"; L "foo"; L "-r"; L "/x"] = Accepted s /\ i_root s = L "/x/mnt/" /\ info_run s = [(QList, L "foo")].
Proof. eexists. split; [reflexivity|]. split; reflexivity. Qed.

(** * pkgadd and pkgrm *)
Inductive asaid := ARoot (x : str) | AIgnore | AUpgrade | AForce | AProgress | AName (x : str).
Definition reserved (full : bool) : list str :=
  root_names ++ [L "-p"; L "--progress"] ++ (if full then [L "-i"; L "--ignore"; L "-u"; L "--upgrade"; L "-f"; L "--force"] else []).
(** [full]: pkgadd; pkgrm only has -r and -p *)
Inductive aword (full : bool) : list str -> asaid -> Prop :=
| aw_root o x : In o root_names -> aword full [o; x] (ARoot x)
| aw_progress o : In o [L "-p"; L "--progress"] -> aword full [o] AProgress
| aw_ignore o : full = true -> In o [L "-i"; L "--ignore"] -> aword full [o] AIgnore
| aw_upgrade o : full = true -> In o [L "-u"; L "--upgrade"] -> aword full [o] AUpgrade
| aw_force o : full = true -> In o [L "-f"; L "--force"] -> aword full [o] AForce
| aw_name x : (forall r, x <> "-"%char :: r) -> aword full [x] (AName x).
Inductive areads (full : bool) : list str -> list asaid -> Prop :=
| ar_nil : areads full [] []
| ar_cons w i ws l : aword full w i -> areads full ws l -> areads full (w ++ ws) (i :: l).
(** the names given, but for empty words in front of the first *)
Definition anames (l : list asaid) : list str := flat_map (fun i => match i with AName x => [x] | _ => [] end) l.
Definition aroot (l : list asaid) : str := fold_left (fun r i => match i with ARoot x => x ++ r | _ => r end) l (L "/").
(** the package named by a line: one word, after any number of empty ones; nothing when they are all empty *)
Inductive one_name : list str -> str -> Prop :=
| on_none : one_name [] []
| on_empty l x : one_name l x -> one_name ([] :: l) x
| on_one x : x <> [] -> one_name [x] x.
Definition same_settings (s : astate) (l : list asaid) (x : str) : Prop :=
  d_root s = aroot l /\ (d_scripts s = false <-> In AIgnore l) /\ (d_upgrade s = true <-> In AUpgrade l) /\ (d_force s = true <-> In AForce l) /\
  (d_progress s = true <-> In AProgress l) /\ d_name s = x.

Fixpoint gen_loop (full : bool) (args : list str) (s : astate) : parsed astate :=
  match args with
  | [] => Accepted s
  | a :: rest =>
    if is2 a (L "-r") (L "--root")
    then match rest with
         | [] => Rejected (ArgumentMissing a)
         | v :: rest' => gen_loop full rest' (AState (v ++ d_root s) (d_scripts s) (d_upgrade s) (d_force s) (d_progress s) (d_name s))
         end
    else if full && is2 a (L "-i") (L "--ignore") then gen_loop full rest (AState (d_root s) false (d_upgrade s) (d_force s) (d_progress s) (d_name s))
    else if full && is2 a (L "-u") (L "--upgrade") then gen_loop full rest (AState (d_root s) (d_scripts s) true (d_force s) (d_progress s) (d_name s))
    else if full && is2 a (L "-f") (L "--force") then gen_loop full rest (AState (d_root s) (d_scripts s) (d_upgrade s) true (d_progress s) (d_name s))
    else if is2 a (L "-p") (L "--progress") then gen_loop full rest (AState (d_root s) (d_scripts s) (d_upgrade s) (d_force s) true (d_name s))
    else if starts_dash a || match d_name s with [] => false | _ => true end then Rejected (InvalidOption a)
    else gen_loop full rest (AState (d_root s) (d_scripts s) (d_upgrade s) (d_force s) (d_progress s) a)
  end.
Lemma gen_add n : forall args s, length args <= n -> add_loop args s = gen_loop true args s.
Proof.
  induction n as [|n IH]; intros args s LE; (destruct args as [|a rest]; [reflexivity|]); cbn [length] in LE; [lia|]. cbn [add_loop gen_loop andb].
  destruct rest as [|v rest'].
  - destruct (is2 a (L "-r") (L "--root")); [reflexivity|]. repeat match goal with |- (if ?b then _ else _) = _ => destruct b; [reflexivity|] end. reflexivity.
  - cbn [length] in LE. destruct (is2 a (L "-r") (L "--root")); [apply IH; lia|].
    repeat match goal with |- (if ?b then _ else _) = _ => destruct b; [try reflexivity; apply IH; cbn [length]; lia|] end. apply IH; cbn [length]; lia.
Qed.
Lemma gen_rm n : forall args s, length args <= n -> rm_loop args s = gen_loop false args s.
Proof.
  induction n as [|n IH]; intros args s LE; (destruct args as [|a rest]; [reflexivity|]); cbn [length] in LE; [lia|]. cbn [rm_loop gen_loop andb].
  destruct rest as [|v rest'].
  - destruct (is2 a (L "-r") (L "--root")); [reflexivity|]. repeat match goal with |- (if ?b then _ else _) = _ => destruct b; [reflexivity|] end. reflexivity.
  - cbn [length] in LE. destruct (is2 a (L "-r") (L "--root")); [apply IH; lia|].
    repeat match goal with |- (if ?b then _ else _) = _ => destruct b; [try reflexivity; apply IH; cbn [length]; lia|] end. apply IH; cbn [length]; lia.
Qed.
Definition aapply (s : astate) (i : asaid) : astate :=
  match i with
  | ARoot v => AState (v ++ d_root s) (d_scripts s) (d_upgrade s) (d_force s) (d_progress s) (d_name s)
  | AIgnore => AState (d_root s) false (d_upgrade s) (d_force s) (d_progress s) (d_name s)
  | AUpgrade => AState (d_root s) (d_scripts s) true (d_force s) (d_progress s) (d_name s)
  | AForce => AState (d_root s) (d_scripts s) (d_upgrade s) true (d_progress s) (d_name s)
  | AProgress => AState (d_root s) (d_scripts s) (d_upgrade s) (d_force s) true (d_name s)
  | AName a => AState (d_root s) (d_scripts s) (d_upgrade s) (d_force s) (d_progress s) a
  end.
Lemma starts_dash_spec x : starts_dash x = false <-> forall r, x <> "-"%char :: r.
Proof.
  destruct x as [|c x]; cbn [starts_dash]; [split; [intros _ r H; discriminate H|reflexivity]|]. split.
  - intros H r E. injection E as -> _. discriminate H.
  - intro H. destruct (ceqb c "-"%char) eqn:E; [|reflexivity]. apply Ascii.eqb_eq in E. subst c. elim (H x). reflexivity.
Qed.
Lemma name_not_option x a b : (forall r, x <> "-"%char :: r) -> is2 x ("-"%char :: a) ("-"%char :: b) = false.
Proof. intro H. destruct (is2 x ("-"%char :: a) ("-"%char :: b)) eqn:E; [|reflexivity]. apply is2_spec in E. destruct E as [E|[E|[]]]; symmetry in E; elim (H _ E). Qed.
Lemma gen_word full w i ws s : aword full w i -> (forall x, i = AName x -> d_name s = []) -> gen_loop full (w ++ ws) s = gen_loop full ws (aapply s i).
Proof.
  intros W N. destruct W as [o x H|o H|o F H|o F H|o F H|x H]; cbn [app gen_loop].
  - rewrite (proj2 (is2_spec _ _ _) H). reflexivity.
  - destruct H as [<-|[<-|[]]]; destruct full; reflexivity.
  - subst full. destruct H as [<-|[<-|[]]]; reflexivity.
  - subst full. destruct H as [<-|[<-|[]]]; reflexivity.
  - subst full. destruct H as [<-|[<-|[]]]; reflexivity.
  - unfold L; cbn [list_ascii_of_string]. rewrite !(name_not_option x _ _ H), !andb_false_r, (proj2 (starts_dash_spec x) H), (N x eq_refl). reflexivity.
Qed.
Lemma one_name_det l x : one_name l x -> forall y, one_name l y -> x = y.
Proof.
  induction 1 as [|l x H IH|x H]; intros y Y.
  - inversion Y. reflexivity.
  - inversion Y; subst; [apply IH; assumption|congruence].
  - inversion Y; subst; [congruence|reflexivity].
Qed.
Lemma gen_accepts full args l : areads full args l -> forall s x, d_name s = [] -> one_name (anames l) x -> gen_loop full args s = Accepted (fold_left aapply l s) /\ d_name (fold_left aapply l s) = x.
Proof.
  assert (KEEP : forall l s, anames l = [] -> d_name (fold_left aapply l s) = d_name s).
  { intro m. induction m as [|i m IH]; intros s H; [reflexivity|]. destruct i as [v| | | | |v]; cbn [anames flat_map app] in H; [..|discriminate H]; cbn [fold_left]; rewrite (IH _ H); reflexivity. }
  assert (LOOP : forall args l, areads full args l -> anames l = [] -> forall s, gen_loop full args s = Accepted (fold_left aapply l s)).
  { intros as0 l0 R. induction R as [|w i ws l1 W R IH]; intros A s; [reflexivity|]. rewrite (gen_word _ _ _ _ _ W).
    - cbn [fold_left]. apply IH. destruct i; cbn [anames flat_map app] in A; [exact A..|discriminate A].
    - intros x ->. discriminate A. }
  induction 1 as [|w i ws l W R IH]; intros s x N O.
  - inversion O. split; [reflexivity|exact N].
  - rewrite (gen_word _ _ _ _ _ W); [|intros y _; exact N]. cbn [fold_left].
    destruct i as [v| | | | |v]; try (apply IH; [exact N|exact O]). cbn [anames flat_map app] in O. fold (anames l) in O. inversion O as [|l0 x0 O'|x0 NE E]; subst.
    + apply IH; [reflexivity|exact O'].
    + split; [apply LOOP; [exact R|symmetry; assumption]|]. rewrite KEEP by (symmetry; assumption). reflexivity.
Qed.
Lemma gen_accepted full n : forall args s s', length args <= n -> gen_loop full args s = Accepted s' ->
  exists l, areads full args l /\ s' = fold_left aapply l s /\ (d_name s = [] -> exists x, one_name (anames l) x) /\ (d_name s <> [] -> anames l = []).
Proof.
  induction n as [|n IH]; intros args s s' LE H.
  - destruct args; [|cbn in LE; lia]. injection H as <-. exists []. split; [constructor|]. split; [reflexivity|]. split; [intros _; exists []; constructor|reflexivity].
  - destruct args as [|a rest]; [injection H as <-; exists []; split; [constructor|]; split; [reflexivity|]; split; [intros _; exists []; constructor|reflexivity]|].
    cbn [length] in LE. cbn [gen_loop] in H.
    destruct (is2 a (L "-r") (L "--root")) eqn:E1.
    { destruct rest as [|v rest']; [discriminate H|]. cbn [length] in LE. apply IH in H; [|lia]. destruct H as (l & R & -> & A & B). exists (ARoot v :: l).
      split; [apply (ar_cons _ [a; v]); [constructor; apply is2_spec; exact E1|exact R]|]. split; [reflexivity|]. split; [exact A|exact B]. }
    destruct (full && is2 a (L "-i") (L "--ignore"))%bool eqn:E2.
    { apply andb_true_iff in E2. destruct E2 as (F & E2). apply IH in H; [|lia]. destruct H as (l & R & -> & A & B). exists (AIgnore :: l).
      split; [apply (ar_cons _ [a]); [constructor; [exact F|apply is2_spec; exact E2]|exact R]|]. split; [reflexivity|]. split; [exact A|exact B]. }
    destruct (full && is2 a (L "-u") (L "--upgrade"))%bool eqn:E3.
    { apply andb_true_iff in E3. destruct E3 as (F & E3). apply IH in H; [|lia]. destruct H as (l & R & -> & A & B). exists (AUpgrade :: l).
      split; [apply (ar_cons _ [a]); [constructor; [exact F|apply is2_spec; exact E3]|exact R]|]. split; [reflexivity|]. split; [exact A|exact B]. }
    destruct (full && is2 a (L "-f") (L "--force"))%bool eqn:E4.
    { apply andb_true_iff in E4. destruct E4 as (F & E4). apply IH in H; [|lia]. destruct H as (l & R & -> & A & B). exists (AForce :: l).
      split; [apply (ar_cons _ [a]); [apply aw_force; [exact F|apply is2_spec; exact E4]|exact R]|]. split; [reflexivity|]. split; [exact A|exact B]. }
    destruct (is2 a (L "-p") (L "--progress")) eqn:E5.
    { apply IH in H; [|lia]. destruct H as (l & R & -> & A & B). exists (AProgress :: l).
      split; [apply (ar_cons _ [a]); [constructor; apply is2_spec; exact E5|exact R]|]. split; [reflexivity|]. split; [exact A|exact B]. }
    destruct (starts_dash a) eqn:D; [discriminate H|]. cbn [orb] in H. destruct (d_name s) as [|c nm] eqn:N; [|discriminate H].
    apply IH in H; [|lia]. destruct H as (l & R & -> & A & B). cbn [d_name] in A, B. exists (AName a :: l).
    split; [apply (ar_cons _ [a]); [constructor; apply starts_dash_spec; exact D|exact R]|]. split; [reflexivity|]. split; [|intro K; elim K; reflexivity]. intros _.
    cbn [anames flat_map app]. fold (anames l). destruct a as [|c a].
    + destruct (A eq_refl) as (x & O). exists x. constructor. exact O.
    + rewrite B by discriminate. exists (c :: a). constructor. discriminate.
Qed.
Lemma settings l : forall s, d_root (fold_left aapply l s) = fold_left (fun r i => match i with ARoot x => x ++ r | _ => r end) l (d_root s) /\
  (d_scripts (fold_left aapply l s) = false <-> d_scripts s = false \/ In AIgnore l) /\ (d_upgrade (fold_left aapply l s) = true <-> d_upgrade s = true \/ In AUpgrade l) /\
  (d_force (fold_left aapply l s) = true <-> d_force s = true \/ In AForce l) /\ (d_progress (fold_left aapply l s) = true <-> d_progress s = true \/ In AProgress l).
Proof.
  induction l as [|i l IH]; intro s; [cbn; tauto|]. cbn [fold_left In]. destruct (IH (aapply s i)) as (A & B & C & D & E). rewrite A, B, C, D, E.
  split; [destruct i; reflexivity|]. destruct i; cbn [aapply d_scripts d_upgrade d_force d_progress]; repeat split; intros; intuition (try discriminate; auto).
Qed.
Lemma settings_start l x : d_name (fold_left aapply l add_start) = x -> same_settings (fold_left aapply l add_start) l x.
Proof.
  intro N. destruct (settings l add_start) as (A & B & C & D & E). cbn [add_start d_scripts d_upgrade d_force d_progress] in *. unfold same_settings.
  split; [exact A|]. split; [|split; [|split; [|split; [|exact N]]]]; [rewrite B|rewrite C|rewrite D|rewrite E]; intuition discriminate.
Qed.
(** pkgadd runs exactly on the lines of its grammar that name one archive (as root), with the settings the line says *)
Theorem C84_pkgadd args : (forall s, add_parse true args = Accepted s -> exists l x, areads true args l /\ one_name (anames l) x /\ x <> [] /\ same_settings s l x) /\
  (forall l x, areads true args l -> one_name (anames l) x -> x <> [] -> exists s, add_parse true args = Accepted s /\ same_settings s l x).
Proof.
  unfold add_parse. rewrite (gen_add _ _ _ (le_n _)). split.
  - intros s H. destruct (gen_loop true args add_start) as [s0|r] eqn:G; [|discriminate H]. destruct (gen_accepted _ _ _ _ _ (le_n _) G) as (l & R & E & A & _). destruct (A eq_refl) as (x & O).
    destruct (gen_accepts _ _ _ R add_start x eq_refl O) as (_ & N). rewrite <- E in N.
    assert (NE : x <> []) by (intros ->; rewrite N in H; discriminate H). assert (S0 : s = s0) by (destruct (d_name s0); [congruence|injection H as <-; reflexivity]). subst s.
    exists l, x. split; [exact R|]. split; [exact O|]. split; [exact NE|]. rewrite E in *. apply settings_start. exact N.
  - intros l x R O NE. destruct (gen_accepts _ _ _ R add_start x eq_refl O) as (G & N). rewrite G, N. destruct x as [|c x]; [congruence|]. eexists. split; [reflexivity|]. apply settings_start. exact N.
Qed.
(** and pkgrm on those of its own, also on a line that names no package *)
Theorem C84_pkgrm args : (forall s, rm_parse true args = Accepted s -> exists l x, areads false args l /\ one_name (anames l) x /\ same_settings s l x) /\
  (forall l x, areads false args l -> one_name (anames l) x -> exists s, rm_parse true args = Accepted s /\ same_settings s l x).
Proof.
  unfold rm_parse. rewrite (gen_rm _ _ _ (le_n _)). split.
  - intros s H. destruct (gen_loop false args add_start) as [s0|r] eqn:G; [|discriminate H]. injection H as <-. destruct (gen_accepted _ _ _ _ _ (le_n _) G) as (l & R & E & A & _). destruct (A eq_refl) as (x & O).
    destruct (gen_accepts _ _ _ R add_start x eq_refl O) as (_ & N). exists l, x. split; [exact R|]. split; [exact O|]. rewrite E. apply settings_start. exact N.
  - intros l x R O. destruct (gen_accepts _ _ _ R add_start x eq_refl O) as (G & N). rewrite G. eexists. split; [reflexivity|]. apply settings_start. exact N.
Qed.
(** * The program *)
(** nothing is installed, removed or asked when the line holds -v, --version, -h or --help anywhere, even where another option expects
    its value; otherwise what runs is what the tool's own parser accepted; for someone else than root pkgadd and pkgrm run nothing *)
Theorem C84_common libs0 num0 uid0 name args : In name [L "pkgadd"; L "pkgrm"; L "pkginfo"] ->
  (exists a, In a args /\ In a [L "-v"; L "--version"; L "-h"; L "--help"]) <-> (tool_main libs0 num0 uid0 name args = Version \/ tool_main libs0 num0 uid0 name args = Help).
Proof.
  intro N.
  assert (C : match common args with Some c => (c = Version \/ c = Help) /\ exists a, In a args /\ In a [L "-v"; L "--version"; L "-h"; L "--help"] | None => ~ exists a, In a args /\ In a [L "-v"; L "--version"; L "-h"; L "--help"] end).
  { induction args as [|a args IH]; cbn [common]; [intros (a & [] & _)|]. destruct (is2 a (L "-v") (L "--version")) eqn:E1.
    - split; [left; reflexivity|]. exists a. split; [left; reflexivity|]. apply is2_spec in E1. destruct E1 as [E|[E|[]]]; rewrite <- E; [left|right; left]; reflexivity.
    - destruct (is2 a (L "-h") (L "--help")) eqn:E2.
      + split; [right; reflexivity|]. exists a. split; [left; reflexivity|]. apply is2_spec in E2. destruct E2 as [E|[E|[]]]; rewrite <- E; [right; right; left|right; right; right; left]; reflexivity.
      + destruct (common args) as [c|].
        * destruct IH as (IH & x & I & J). split; [exact IH|]. exists x. split; [right; exact I|exact J].
        * intros (x & [<-|I] & J); [|apply IH; exists x; auto].
          destruct J as [E|[E|[E|[E|[]]]]]; [rewrite (proj2 (is2_spec a _ _)) in E1 by (left; exact E)|rewrite (proj2 (is2_spec a _ _)) in E1 by (right; left; exact E)|rewrite (proj2 (is2_spec a _ _)) in E2 by (left; exact E)|rewrite (proj2 (is2_spec a _ _)) in E2 by (right; left; exact E)]; congruence. }
  assert (LI : forall A (f : A -> outcome) p, (forall a, f a <> Version /\ f a <> Help) -> lift f p <> Version /\ lift f p <> Help).
  { intros A f p H. destruct p as [a|r]; [apply H|split; discriminate]. }
  assert (G : forall o, o <> Version /\ o <> Help -> ((exists a, In a args /\ In a [L "-v"; L "--version"; L "-h"; L "--help"]) <-> match common args with Some c => c | None => o end = Version \/ match common args with Some c => c | None => o end = Help)).
  { intros o (O1 & O2). destruct (common args) as [c|]; [destruct C as (C1 & C2); split; intros _; assumption|]. split; [intro K; contradiction|intros [K|K]; congruence]. }
  unfold tool_main. cbv zeta. destruct N as [<-|[<-|[<-|[]]]].
  - change (seqb (L "pkgadd") (L "pkgadd")) with true. cbv iota. apply G. apply LI. intro a. split; discriminate.
  - change (seqb (L "pkgrm") (L "pkgadd")) with false. change (seqb (L "pkgrm") (L "pkgrm")) with true. cbv iota. apply G. apply LI. intro a. split; discriminate.
  - change (seqb (L "pkginfo") (L "pkgadd")) with false. change (seqb (L "pkginfo") (L "pkgrm")) with false. change (seqb (L "pkginfo") (L "pkginfo")) with true. cbv iota. apply G. apply LI. intro a. split; discriminate.
Qed.
Theorem C84_only_root libs0 num0 name args : (forall s, tool_main libs0 num0 false name args <> RunAdd s) /\ (forall s, tool_main libs0 num0 false name args <> RunRm s).
Proof.
  assert (C : forall c, common args = Some c -> c = Version \/ c = Help).
  { induction args as [|a l IH]; intros c H; [discriminate H|]. cbn [common] in H. destruct (is2 a (L "-v") (L "--version")); [injection H as <-; auto|]. destruct (is2 a (L "-h") (L "--help")); [injection H as <-; auto|]. apply IH. exact H. }
  assert (A : forall s, lift RunAdd (add_parse false args) <> RunAdd s) by (intros s; unfold add_parse; destruct (add_loop args add_start) as [s0|]; [destruct (d_name s0)|]; discriminate).
  assert (B : forall s, lift RunRm (rm_parse false args) <> RunRm s) by (intros s; unfold rm_parse; destruct (rm_loop args add_start) as [s0|]; discriminate).
  assert (A' : forall s, lift RunAdd (add_parse false args) <> RunRm s) by (intros s; unfold add_parse; destruct (add_loop args add_start) as [s0|]; [destruct (d_name s0)|]; discriminate).
  assert (B' : forall s, lift RunRm (rm_parse false args) <> RunAdd s) by (intros s; unfold rm_parse; destruct (rm_loop args add_start) as [s0|]; discriminate).
  assert (I : forall s, lift RunInfo (info_parse libs0 num0 args) <> RunAdd s) by (intros s; destruct (info_parse libs0 num0 args); discriminate).
  assert (I' : forall s, lift RunInfo (info_parse libs0 num0 args) <> RunRm s) by (intros s; destruct (info_parse libs0 num0 args); discriminate).
  assert (G : forall o x, o <> x -> x <> Version -> x <> Help -> match common args with Some c => c | None => o end <> x).
  { intros o x N V H. destruct (common args) as [c|]; [|exact N]. destruct (C c eq_refl) as [->| ->]; congruence. }
  unfold tool_main. cbv zeta. split; intro s; (destruct (seqb name (L "pkgadd")); [|destruct (seqb name (L "pkgrm")); [|destruct (seqb name (L "pkginfo")); [|discriminate]]]); (apply G; [auto|discriminate|discriminate]).
Qed.
(** what runs is what the parser of the tool accepted *)
Theorem C84_runs libs0 num0 uid0 name args : (forall a, In a args -> ~ In a [L "-v"; L "--version"; L "-h"; L "--help"]) ->
  tool_main libs0 num0 uid0 name args =
    if seqb name (L "pkgadd") then lift RunAdd (add_parse uid0 args) else if seqb name (L "pkgrm") then lift RunRm (rm_parse uid0 args)
    else if seqb name (L "pkginfo") then lift RunInfo (info_parse libs0 num0 args) else Unsupported.
Proof.
  intro H. assert (C : common args = None).
  { induction args as [|a l IH]; [reflexivity|]. cbn [common]. destruct (is2 a (L "-v") (L "--version")) eqn:E1.
    - exfalso. apply (H a (or_introl eq_refl)). apply is2_spec in E1. destruct E1 as [E|[E|[]]]; rewrite <- E; [left|right; left]; reflexivity.
    - destruct (is2 a (L "-h") (L "--help")) eqn:E2.
      + exfalso. apply (H a (or_introl eq_refl)). apply is2_spec in E2. destruct E2 as [E|[E|[]]]; rewrite <- E; [right; right; left|right; right; right; left]; reflexivity.
      + apply IH. intros x I. apply H. right. exact I. }
  unfold tool_main. cbv zeta. rewrite C. reflexivity.
Qed.
Example C84_tools_example : (exists s, tool_main 0 0 true (L "pkgadd") [L "-u"; L "-r"; L "/mnt"; L "foo.cards.tar.xz"; L "-f"] = RunAdd s /\ d_root s = L "/mnt/" /\ d_upgrade s = true /\ d_force s = true /\ d_name s = L "foo.cards.tar.xz") /\
  tool_main 0 0 true (L "pkgadd") [L "a"; L "b"] = Refusal (InvalidOption (L "b")) /\ tool_main 0 0 true (L "pkgrm") [L "-r"; L "-h"; L "foo"] = Help.
Proof. split; [eexists; repeat split|split; reflexivity]. Qed.
