(** C22: exactly which archives 'cards install' can read (pkgrepo.cxx:629-672, archive.cxx:5-25, 107-117, 222-258), and what it takes from them. *)
From Verif Require Import Base BaseProofs StrModel StrSpec StrProofs FsModel FsSpec FsProofs MetaModel MetaSpec MetaProofs MetaProps DbModel DbLoad GenDeps OpenExact.
From Coq Require Import Lia ZArith.

(** [z] is the number written at the beginning of [v] *)
Definition int_value (v : str) (z : Z) : Prop := exists sp sg ds rest, v = sp ++ sg ++ ds ++ rest /\ Forall (fun c => is_space c = true) sp /\
  (sg = [] \/ sg = ["+"%char] \/ sg = ["-"%char]) /\ ds <> [] /\ Forall is_digit ds /\ (forall d t, rest = d :: t -> ~ is_digit d) /\
  z = (if seqb sg ["-"%char] then - Z.of_N (read_dec ds) else Z.of_N (read_dec ds))%Z /\ (- 2 ^ 31 <= z < 2 ^ 31)%Z.
(** the line of the description with this letter, or nothing *)
Definition field (c : ascii) (ls : list str) (v : str) : Prop := first_line c ls v \/ (v = [] /\ forall w, ~ In (c :: w) ls).
(** dependency [k] of date [t] stated by a line R, name, ten characters of date; of a line of nine characters behind R the date takes the R as well *)
Definition states (ls : list str) (k : str) (t : Z) : Prop :=
  (exists dt, length dt = 10 /\ In ("R"%char :: k ++ dt) ls /\ t = epoch dt) \/ (length k = 9 /\ In ("R"%char :: k) ls /\ t = epoch ("R"%char :: k)).
(** what the program has to say about an archive, given the lines of its description *)
Record told (ls : list str) (p : apkg) : Prop := Told {
  to_name : first_line "N"%char ls (a_name p);
  to_version : field "V"%char ls (a_version p);
  to_coll : field "c"%char ls (a_coll p);
  to_release : (exists v, first_line "r"%char ls v /\ int_value v (a_release p)) \/ ((forall w, ~ In ("r"%char :: w) ls) /\ a_release p = 0%Z);
  to_build : (exists v, first_line "B"%char ls v /\ a_build p = epoch v) \/ ((forall w, ~ In ("B"%char :: w) ls) /\ a_build p = 0%Z);
  to_deps : forall k t, In (k, t) (a_deps p) <-> (k = a_name p /\ t = a_build p) \/ states ls k t }.

Lemma first_tag_no c ls : first_tag c ls = None <-> forall w, ~ In (c :: w) ls.
Proof.
  induction ls as [|s t IH]; cbn [first_tag]; [split; [intros _ w []|reflexivity]|]. destruct s as [|x w].
  - rewrite IH. split; intros H u; [intros [K|K]; [discriminate K|exact (H u K)]|intro K; apply (H u); right; exact K].
  - destruct (ceqb x c) eqn:C.
    + apply ceqb_eq in C. subst x. split; [discriminate|]. intro H. exfalso. apply (H w). left. reflexivity.
    + rewrite IH. split; intros H u; [intros [K|K]; [injection K as -> _; rewrite ceqb_refl in C; discriminate C|exact (H u K)]|intro K; apply (H u); right; exact K].
Qed.
Lemma tag_field c ls : field c ls (tag_or_empty c ls).
Proof.
  unfold field, tag_or_empty. destruct (first_tag c ls) as [v|] eqn:E; [left; apply first_tag_spec, E|right]. split; [reflexivity|apply first_tag_no, E].
Qed.
Lemma stoi_bounds (v : N) (b : bool) :
  let z := (if b then - Z.of_N v else Z.of_N v)%Z in let y := (if b then Z.max (- 2 ^ 63) (- Z.of_N v) else Z.min (2 ^ 63 - 1) (Z.of_N v))%Z in
  ((y <? - 2 ^ 31) || (2 ^ 31 <=? y))%Z = false <-> (- 2 ^ 31 <= z < 2 ^ 31)%Z.
Proof.
  cbv zeta. rewrite orb_false_iff, Z.ltb_ge, Z.leb_gt. change (2 ^ 63 - 1)%Z with 9223372036854775807%Z. change (- 2 ^ 63)%Z with (-9223372036854775808)%Z. change (- 2 ^ 31)%Z with (-2147483648)%Z. change (2 ^ 31)%Z with 2147483648%Z. destruct b; lia.
Qed.
Lemma stoi_same (v : N) (b : bool) : let z := (if b then - Z.of_N v else Z.of_N v)%Z in let y := (if b then Z.max (- 2 ^ 63) (- Z.of_N v) else Z.min (2 ^ 63 - 1) (Z.of_N v))%Z in
  (- 2 ^ 31 <= z < 2 ^ 31)%Z -> y = z.
Proof.
  cbv zeta. change (2 ^ 63 - 1)%Z with 9223372036854775807%Z. change (- 2 ^ 63)%Z with (-9223372036854775808)%Z. change (- 2 ^ 31)%Z with (-2147483648)%Z. change (2 ^ 31)%Z with 2147483648%Z. destruct b; lia.
Qed.
Lemma stoi_int_spec v z : stoi_int v = Ok z <-> int_value v z.
Proof.
  unfold stoi_int, strtol10. split.
  - destruct (cstr_split v) as (tl & Ev & Htl). set (u := cstr v) in *. destruct (spaces_of u) as (sp & u1 & Eu & Fs & Ed). rewrite Ed.
    destruct (sign u1) as [ng u2] eqn:Sg.
    assert (Sgs : exists sg, u1 = sg ++ u2 /\ (sg = [] \/ sg = ["+"%char] \/ sg = ["-"%char]) /\ seqb sg ["-"%char] = ng).
    { unfold sign in Sg. destruct u1 as [|c t]; [injection Sg as <- <-; exists []; split; [reflexivity|split; [left|]; reflexivity]|].
      destruct (ceqb c "-") eqn:M; [apply ceqb_eq in M; subst c; injection Sg as <- <-; exists ["-"%char]; split; [reflexivity|split; [right; right|]; reflexivity]|].
      destruct (ceqb c "+") eqn:P; [apply ceqb_eq in P; subst c; injection Sg as <- <-; exists ["+"%char]; split; [reflexivity|split; [right; left|]; reflexivity]|].
      injection Sg as <- <-. exists []. split; [reflexivity|split; [left|]; reflexivity]. }
    destruct Sgs as (sg & E1 & Hs & Hn). destruct (digits_of u2) as (ds & rest & E2 & Fd & Rr).
    destruct (has_digit 10 u2) eqn:Hd; [|intro X; discriminate X]. cbn [negb].
    assert (Nd : ds <> []). { intros ->. cbn [app] in E2. subst u2. unfold has_digit in Hd. destruct rest as [|d t]; [discriminate Hd|]. apply digval_digit in Hd. exact (Rr d t eq_refl Hd). }
    assert (Nm : num 10 0 u2 = read_dec ds). { rewrite E2, (num_rest ds 0%N rest Fd Rr). exact (num_digits ds Fd 0%N). }
    rewrite Nm. pose proof (stoi_bounds (read_dec ds) ng) as SB. pose proof (stoi_same (read_dec ds) ng) as SS. cbv zeta in SB, SS.
    match goal with |- (if ?b then _ else _) = _ -> _ => destruct b eqn:Q; [intro X; discriminate X|] end. intro X. injection X as X. pose proof (proj1 SB eq_refl) as B. assert (Zv : (if ng then - Z.of_N (read_dec ds) else Z.of_N (read_dec ds))%Z = z) by (rewrite <- (SS B); exact X). clear X. subst z.
    exists sp, sg, ds, (rest ++ tl). split; [rewrite Ev, Eu, E1, E2, <- !app_assoc; reflexivity|]. split; [exact Fs|]. split; [exact Hs|]. split; [exact Nd|]. split; [exact Fd|]. split.
    + intros d t E. destruct rest as [|d' r']; [|cbn [app] in E; injection E as <- _; exact (Rr d' r' eq_refl)]. cbn [app] in E. destruct Htl as [-> |(w & ->)]; [discriminate E|]. injection E as <- _. intros [P _]. cbn in P. lia.
    + rewrite Hn. split; [reflexivity|exact B].
  - intros (sp & sg & ds & rest & -> & Fs & Hs & Nd & Fd & Rr & Ez & B).
    assert (Z1 : ~ In zero sp) by (intro I; rewrite Forall_forall in Fs; exact (space_nozero _ (Fs _ I) eq_refl)).
    assert (Z2 : ~ In zero sg) by (destruct Hs as [-> |[-> | ->]]; [intros []|intros [X|[]]; discriminate X|intros [X|[]]; discriminate X]).
    assert (Z3 : ~ In zero ds) by (intro I; rewrite Forall_forall in Fd; apply Fd in I; apply is_digit_nozero in I; auto).
    rewrite (cstr_app sp) by exact Z1. rewrite (cstr_app sg) by exact Z2. rewrite (cstr_app ds) by exact Z3. rewrite (drop_spaces sp) by exact Fs.
    destruct ds as [|c ds]; [contradiction|]. inversion Fd as [|? ? Dc Fd']; subst. destruct (digit_plain c Dc) as (P1 & P2 & P3).
    assert (Rc : forall d t, cstr rest = d :: t -> ~ is_digit d). { intros d t E. destruct rest as [|d' r']; [discriminate E|]. cbn [cstr] in E. destruct (ceqb d' zero); [discriminate E|]. injection E as <- _. exact (Rr d' r' eq_refl). }
    assert (Nm : num 10 0 ((c :: ds) ++ cstr rest) = read_dec (c :: ds)). { rewrite (num_rest (c :: ds) 0%N (cstr rest) Fd Rc). exact (num_digits (c :: ds) Fd 0%N). }
    assert (Hd : has_digit 10 ((c :: ds) ++ cstr rest) = true) by (cbn [app has_digit]; apply digval_digit, Dc).
    assert (Ds : drop_space (sg ++ (c :: ds) ++ cstr rest) = sg ++ (c :: ds) ++ cstr rest). { destruct Hs as [-> |[-> | ->]]; cbn [app drop_space]; [rewrite P1; reflexivity|reflexivity|reflexivity]. }
    rewrite Ds. assert (Sg : sign (sg ++ (c :: ds) ++ cstr rest) = (seqb sg ["-"%char], (c :: ds) ++ cstr rest)). { destruct Hs as [-> |[-> | ->]]; [cbn [app sign]; rewrite P2, P3; reflexivity|reflexivity|reflexivity]. }
    rewrite Sg, Hd. cbn [negb]. rewrite Nm. pose proof (stoi_bounds (read_dec (c :: ds)) (seqb sg ["-"%char])) as SB. pose proof (stoi_same (read_dec (c :: ds)) (seqb sg ["-"%char])) as SS. cbv zeta in SB, SS.
    rewrite (proj2 SB B), (SS B). reflexivity.
Qed.
Lemma value_text v : (exists z, int_value v z) <-> int_text v.
Proof.
  split.
  - intros (z & sp & sg & ds & rest & E & Fs & Hs & Nd & Fd & Rr & Ez & B). exists sp, sg, ds, rest. split; [exact E|]. split; [exact Fs|]. split; [exact Hs|]. split; [exact Nd|]. split; [exact Fd|]. split; [exact Rr|].
    change (- 2 ^ 31)%Z with (-2147483648)%Z in B. change (2 ^ 31)%Z with 2147483648%Z in B. change (2 ^ 31)%N with 2147483648%N. destruct (seqb sg ["-"%char]); lia.
  - intros (sp & sg & ds & rest & E & Fs & Hs & Nd & Fd & Rr & B). exists (if seqb sg ["-"%char] then - Z.of_N (read_dec ds) else Z.of_N (read_dec ds))%Z, sp, sg, ds, rest. split; [exact E|]. split; [exact Fs|]. split; [exact Hs|]. split; [exact Nd|]. split; [exact Fd|]. split; [exact Rr|]. split; [reflexivity|].
    change (- 2 ^ 31)%Z with (-2147483648)%Z. change (2 ^ 31)%Z with 2147483648%Z. change (2 ^ 31)%N with 2147483648%N in B. destruct (seqb sg ["-"%char]); lia.
Qed.
Lemma stoi_int_total v : stoi_int v <> UB.
Proof. unfold stoi_int. destruct (sign (drop_space (cstr v))) as [b s]. destruct (negb (has_digit 10 s)); [discriminate|]. cbv zeta. match goal with |- context [if ?b then _ else _] => destruct b; discriminate end. Qed.
Lemma deps_In ls : forall acc deps d, arch_deps ls acc = Ok deps -> (In d deps <-> In d acc \/ exists s, In s ls /\ has_tag "R" s = true /\ dep_of_line s = Ok d).
Proof.
  induction ls as [|s t IH]; intros acc deps d E; cbn [arch_deps] in E.
  - injection E as <-. split; [auto|]. intros [J|[s [[] _]]]. exact J.
  - destruct (has_tag "R" s) eqn:T.
    + destruct (dep_of_line s) as [d1| |] eqn:Ds; try discriminate E. cbn [rbind] in E. rewrite (IH _ _ d E), dins_In. split.
      * intros [[->|J]|[x [J1 J2]]]; [right; exists s; split; [left; reflexivity|auto]|left; exact J|right; exists x; split; [right; exact J1|exact J2]].
      * intros [J|[x [[<-|J1] [J2 J3]]]]; [auto|left; left; congruence|right; exists x; auto].
    + rewrite (IH _ _ d E). split.
      * intros [J|[x [J1 J2]]]; [auto|right; exists x; split; [right; exact J1|exact J2]].
      * intros [J|[x [[<-|J1] J2]]]; [auto|destruct J2; congruence|right; exists x; auto].
Qed.
Lemma line_states ls k t : (exists s, In s ls /\ has_tag "R" s = true /\ dep_of_line s = Ok (k, t)) <-> states ls k t.
Proof.
  unfold states. split.
  - intros (s & I & T & D). apply has_tag_In in T. destruct T as [v ->]. unfold dep_of_line in D. cbn [List.length skipn] in D. destruct (S (length v) <? 10) eqn:B; [discriminate D|]. apply Nat.ltb_ge in B. injection D as Dk Dt.
    destruct (S (length v) <? 11) eqn:C; [apply Nat.ltb_lt in C|apply Nat.ltb_ge in C].
    + right. subst k. assert (E : length v = 9) by lia. split; [exact E|]. split; [exact I|]. rewrite <- Dt, E. reflexivity.
    + left. assert (E9 : length v - 9 = S (length v - 10)) by lia. cbn [Nat.sub] in Dt, Dk. rewrite E9 in Dt. cbn [skipn] in Dt. exists (skipn (length v - 10) v). split; [rewrite skipn_length; lia|]. split; [|symmetry; exact Dt]. rewrite <- Dk, firstn_skipn. exact I.
  - intros [(dt & Ld & I & ->)|(Lk & I & ->)].
    + exists ("R"%char :: k ++ dt). split; [exact I|]. split; [reflexivity|]. unfold dep_of_line. cbn [List.length skipn]. rewrite app_length, Ld.
      rewrite (proj2 (Nat.ltb_ge _ _)) by lia. rewrite (proj2 (Nat.ltb_ge _ _)) by lia. replace (S (length k + 10) - 11) with (length k + 0) by lia. rewrite firstn_app_2, firstn_O, app_nil_r. replace (S (length k + 10) - 10) with (S (length k)) by lia. cbn [skipn]. rewrite skipn_app, skipn_all, Nat.sub_diag. reflexivity.
    + exists ("R"%char :: k). split; [exact I|]. split; [reflexivity|]. unfold dep_of_line. cbn [List.length skipn]. rewrite Lk. reflexivity.
Qed.
(** Exactly the archives with a description and a list, a name, a readable release and readable dependencies are read; the others are
    refused, but for an empty description or list, which the program has no defined answer to. What is read is what the description says. *)
Theorem C22_reads a :
  ((exists p, read_arch a = Ok p) <->
   exists meta mtree ls fl name, usable a (L ".META") meta ls /\ usable a (L ".MTREE") mtree fl /\ first_line "N"%char ls name /\
     (forall v, first_line "r"%char ls v -> int_text v) /\ (forall v, In ("R"%char :: v) ls -> 9 <= length v)) /\
  (forall p, read_arch a = Ok p -> exists meta ls, usable a (L ".META") meta ls /\ told ls p) /\
  (read_arch a = UB <-> exists nm n, (nm = L ".META" \/ nm = L ".MTREE") /\ member a nm = Some n /\ n_data n = []).
Proof.
  split; [|split].
  - split.
    + intros (p & E). unfold read_arch in E. apply rbind_ok in E as [fl [E1 E]]. apply rbind_ok in E as [ls [E2 E]]. destruct ls as [|x ls]; [discriminate E|]. destruct fl as [|y fl]; [discriminate E|].
      destruct (usable_lines a _ _ E1 ltac:(discriminate)) as [mtree U1]. destruct (usable_lines a _ _ E2 ltac:(discriminate)) as [meta U2].
      destruct (first_tag "N" (x :: ls)) as [nn|] eqn:FN; [|discriminate E]. cbv zeta in E. apply rbind_ok in E as [rel [Er E]]. apply rbind_ok in E as [deps [Ed _]].
      exists meta, mtree, (x :: ls), (y :: fl), nn. split; [exact U2|]. split; [exact U1|]. split; [apply first_tag_spec, FN|]. split.
      * intros v Fv. apply first_tag_spec in Fv. rewrite Fv in Er. apply value_text. exists rel. apply stoi_int_spec, Er.
      * exact (proj1 (proj1 (arch_deps_ok (x :: ls) _)) (ex_intro _ deps Ed)).
    + intros (meta & mtree & ls & fl & name & U1 & U2 & FN & Fr & Fd). unfold read_arch. rewrite (lines_usable a _ _ _ U1), (lines_usable a _ _ _ U2). cbn [rbind].
      destruct U1 as (_ & _ & _ & Nl). destruct U2 as (_ & _ & _ & Nf). destruct ls as [|x ls]; [contradiction|]. destruct fl as [|y fl]; [contradiction|]. apply first_tag_spec in FN. rewrite FN. cbv zeta.
      assert (Rl : exists rel, match first_tag "r" (x :: ls) with Some v => stoi_int v | None => Ok 0%Z end = Ok rel). { destruct (first_tag "r" (x :: ls)) as [v|] eqn:F; [|eauto]. destruct (proj2 (value_text v) (Fr v (proj1 (first_tag_spec _ _ _) F))) as [z Hz]. exists z. apply stoi_int_spec, Hz. }
      destruct Rl as [rel Rl]. rewrite Rl. cbn [rbind]. match goal with |- context [arch_deps ?l ?b] => destruct (proj2 (proj1 (arch_deps_ok l b)) Fd) as [d Ed]; rewrite Ed end. cbn [rbind]. eauto.
  - intros p E. unfold read_arch in E. apply rbind_ok in E as [fl [E1 E]]. apply rbind_ok in E as [ls [E2 E]]. destruct ls as [|x ls]; [discriminate E|]. destruct fl as [|y fl]; [discriminate E|].
    destruct (usable_lines a _ _ E2 ltac:(discriminate)) as [meta U2]. exists meta, (x :: ls). split; [exact U2|].
    destruct (first_tag "N" (x :: ls)) as [nn|] eqn:FN; [|discriminate E]. cbv zeta in E. apply rbind_ok in E as [rel [Er E]]. apply rbind_ok in E as [deps [Ed E]].
    assert (Ep : APkg nn (tag_or_empty "V" (x :: ls)) rel (match first_tag "B" (x :: ls) with Some v => epoch v | None => 0%Z end) (tag_or_empty "c" (x :: ls)) deps = p) by (injection E; intros; assumption). subst p.
    constructor; cbn [a_name a_version a_coll a_release a_build a_deps].
    + apply first_tag_spec, FN.
    + apply tag_field.
    + apply tag_field.
    + destruct (first_tag "r" (x :: ls)) as [v|] eqn:F; [left; exists v; split; [apply first_tag_spec, F|apply stoi_int_spec, Er]|right; split; [apply first_tag_no, F|congruence]].
    + destruct (first_tag "B" (x :: ls)) as [v|] eqn:F; [left; exists v; split; [apply first_tag_spec, F|reflexivity]|right; split; [apply first_tag_no, F|reflexivity]].
    + intros k t. rewrite (deps_In _ _ _ (k, t) Ed), dins_In, line_states. split; [intros [[K|[]]|K]; [left; split; congruence|right; exact K]|intros [[-> ->]|K]; [left; left; reflexivity|right; exact K]].
  - assert (K : forall nm, (member_lines a nm = UB <-> exists n, member a nm = Some n /\ n_data n = []) /\ member_lines a nm <> Throw).
    { intro nm. unfold member_lines. destruct (member a nm) as [n|]; [|split; [split; [discriminate|intros (n & X & _); discriminate X]|discriminate]]. destruct (n_data n) as [|x d] eqn:D.
      - split; [|discriminate]. split; [intros _; exists n; split; [reflexivity|exact D]|reflexivity].
      - split; [|discriminate]. split; [discriminate|]. intros (m & X & Y). injection X as <-. rewrite D in Y. discriminate Y. }
    destruct (K (L ".MTREE")) as [K1 K1']. destruct (K (L ".META")) as [K2 K2']. unfold read_arch. split.
    + destruct (member_lines a (L ".MTREE")) as [fl| |] eqn:E1; [|contradiction|intros _; destruct (proj1 K1 eq_refl) as (n & X & Y); exists (L ".MTREE"), n; auto]. cbn [rbind].
      destruct (member_lines a (L ".META")) as [ls| |] eqn:E2; [|contradiction|intros _; destruct (proj1 K2 eq_refl) as (n & X & Y); exists (L ".META"), n; auto]. cbn [rbind].
      destruct ls as [|x ls]; [discriminate|]. destruct fl as [|y fl]; [discriminate|]. destruct (first_tag "N" (x :: ls)) as [nn|]; [|discriminate]. cbv zeta.
      destruct (match first_tag "r" (x :: ls) with Some v => stoi_int v | None => Ok 0%Z end) as [rel| |] eqn:Er; cbn [rbind]; [|discriminate|].
      * match goal with |- context [arch_deps ?l ?b] => pose proof (proj2 (arch_deps_ok l b)) as U; destruct (arch_deps l b); cbn [rbind]; [discriminate|discriminate|contradiction] end.
      * intros _. destruct (first_tag "r" (x :: ls)) as [v|]; [destruct (stoi_int_total v Er)|discriminate Er].
    + intros (nm & n & [-> | ->] & X & Y).
      * destruct (member_lines a (L ".MTREE")) as [fl| |]; [|contradiction|reflexivity]. cbn [rbind]. rewrite (proj2 K2) by (exists n; auto). reflexivity.
      * rewrite (proj2 K1) by (exists n; auto). reflexivity.
Qed.
Example C22_reads_case : (exists p, read_arch demo_archive = Ok p) /\ int_value (L " -12rc") (-12)%Z /\ int_value (L "-2147483648") (- 2 ^ 31)%Z /\ ~ exists z, int_value (L "2147483648") z.
Proof.
  split; [eexists; vm_compute; reflexivity|]. split; [apply stoi_int_spec; reflexivity|]. split; [apply stoi_int_spec; reflexivity|]. intros [z H]. apply stoi_int_spec in H. discriminate H.
Qed.
Print Assumptions C22_reads.
