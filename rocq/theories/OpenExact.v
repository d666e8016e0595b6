(** C47: exactly which archives are accepted. *)
From Verif Require Import Base BaseProofs StrModel StrSpec StrProofs FsModel FsSpec FsProofs MetaModel MetaSpec MetaProofs MetaProps DbModel DbLoad.
From Coq Require Import Lia ZArith.

(** the first line with that tag *)
Definition first_line (c : ascii) (ls : list str) (v : str) : Prop := exists a b, ls = a ++ (c :: v) :: b /\ forall w, ~ In (c :: w) a.
(** a text that begins, after white space and a sign, with a decimal number that fits in an int *)
Definition int_text (v : str) : Prop := exists sp sg ds rest, v = sp ++ sg ++ ds ++ rest /\ Forall (fun c => is_space c = true) sp /\
  (sg = [] \/ sg = ["+"%char] \/ sg = ["-"%char]) /\ ds <> [] /\ Forall is_digit ds /\ (forall d t, rest = d :: t -> ~ is_digit d) /\
  (if seqb sg ["-"%char] then (read_dec ds <= 2 ^ 31)%N else (read_dec ds < 2 ^ 31)%N).

Lemma first_tag_spec c ls v : first_tag c ls = Some v <-> first_line c ls v.
Proof.
  split.
  - revert v. induction ls as [|s t IH]; intros v E; [discriminate E|]. cbn [first_tag] in E. destruct s as [|x w].
    + destruct (IH v E) as (a & b & -> & N). exists ([] :: a), b. split; [reflexivity|]. intros u [U|U]; [discriminate U|exact (N u U)].
    + destruct (ceqb x c) eqn:C.
      * injection E as <-. apply ceqb_eq in C. subst x. exists [], t. split; [reflexivity|intros u []].
      * destruct (IH v E) as (a & b & -> & N). exists ((x :: w) :: a), b. split; [reflexivity|]. intros u [U|U]; [injection U as -> _; rewrite ceqb_refl in C; discriminate C|exact (N u U)].
  - intros (a & b & -> & N). induction a as [|s a IH]; cbn [app first_tag]; [rewrite ceqb_refl; reflexivity|]. destruct s as [|x w]; [apply IH; intros u U; apply (N u); right; exact U|].
    destruct (ceqb x c) eqn:C; [apply ceqb_eq in C; subst x; exfalso; apply (N w); left; reflexivity|]. apply IH. intros u U. apply (N u). right. exact U.
Qed.
Lemma first_tag_none c ls : first_tag c ls = None -> forall v, ~ first_line c ls v.
Proof. intros E v H. apply first_tag_spec in H. rewrite H in E. discriminate E. Qed.

Lemma digval_digit c : (digval c <? 10)%N = true <-> is_digit c.
Proof.
  unfold is_digit, digval. split.
  - destruct ((48 <=? N_of_ascii c) && (N_of_ascii c <=? 57))%N eqn:A; [intros _; apply andb_true_iff in A; destruct A as [P Q]; apply N.leb_le in P, Q; split; assumption|].
    destruct ((97 <=? N_of_ascii c) && (N_of_ascii c <=? 122))%N eqn:B; [apply andb_true_iff in B; destruct B as [P Q]; apply N.leb_le in P, Q; intro H; apply N.ltb_lt in H; lia|].
    destruct ((65 <=? N_of_ascii c) && (N_of_ascii c <=? 90))%N eqn:D; [apply andb_true_iff in D; destruct D as [P Q]; apply N.leb_le in P, Q; intro H; apply N.ltb_lt in H; lia|]. intro H. discriminate H.
  - intros [P Q]. rewrite (proj2 (N.leb_le _ _) P), (proj2 (N.leb_le _ _) Q). cbn [andb]. apply N.ltb_lt. lia.
Qed.
Lemma num_rest ds : forall acc rest, Forall is_digit ds -> (forall d t, rest = d :: t -> ~ is_digit d) -> num 10 acc (ds ++ rest) = num 10 acc ds.
Proof.
  induction ds as [|c ds IH]; intros acc rest F R; cbn [app].
  - destruct rest as [|d t]; [reflexivity|]. cbn [num]. destruct (digval d <? 10)%N eqn:E; [|reflexivity]. apply digval_digit in E. destruct (R d t eq_refl E).
  - inversion F as [|? ? Fc Fd]; subst. cbn [num]. apply digval_digit in Fc. rewrite Fc. apply IH; assumption.
Qed.
Lemma digits_of s : exists ds rest, s = ds ++ rest /\ Forall is_digit ds /\ (forall d t, rest = d :: t -> ~ is_digit d).
Proof.
  induction s as [|c s (ds & rest & -> & F & R)]; [exists [], []; split; [reflexivity|]; split; [constructor|intros d t E; discriminate E]|].
  destruct (digval c <? 10)%N eqn:E.
  - exists (c :: ds), rest. split; [reflexivity|]. split; [constructor; [apply digval_digit, E|exact F]|exact R].
  - exists [], (c :: ds ++ rest). split; [reflexivity|]. split; [constructor|]. intros d t X. injection X as <- _. intro D. apply digval_digit in D. rewrite D in E. discriminate E.
Qed.
Lemma spaces_of s : exists sp rest, s = sp ++ rest /\ Forall (fun c => is_space c = true) sp /\ drop_space s = rest.
Proof.
  induction s as [|c s (sp & rest & E1 & F & E2)]; [exists [], []; split; [reflexivity|split; [constructor|reflexivity]]|]. cbn [drop_space]. destruct (is_space c) eqn:E.
  - exists (c :: sp), rest. split; [rewrite E1; reflexivity|]. split; [constructor; assumption|exact E2].
  - exists [], (c :: s). split; [reflexivity|]. split; [constructor|reflexivity].
Qed.
Lemma drop_spaces sp s : Forall (fun c => is_space c = true) sp -> drop_space (sp ++ s) = drop_space s.
Proof. induction 1 as [|c sp H _ IH]; [reflexivity|]. cbn [app drop_space]. rewrite H. exact IH. Qed.
Lemma cstr_split s : exists t, s = cstr s ++ t /\ (t = [] \/ exists u, t = zero :: u).
Proof. induction s as [|c s (t & E & H)]; [exists []; split; [reflexivity|left; reflexivity]|]. cbn [cstr]. destruct (ceqb c zero) eqn:Z; [apply ceqb_eq in Z; subst c; exists (zero :: s); split; [reflexivity|right; exists s; reflexivity]|]. exists t. split; [cbn [app]; rewrite <- E; reflexivity|exact H]. Qed.
Lemma space_nozero c : is_space c = true -> c <> zero.
Proof. intros H ->. discriminate H. Qed.
Lemma cstr_app a b : ~ In zero a -> cstr (a ++ b) = a ++ cstr b.
Proof. induction a as [|c a IH]; intro N; [reflexivity|]. cbn [app cstr]. rewrite (proj2 (ceqb_neq c zero)) by (intro E; apply N; left; exact E). rewrite IH; [reflexivity|]. intro I. apply N. right. exact I. Qed.
Lemma digit_plain c : is_digit c -> is_space c = false /\ ceqb c "-" = false /\ ceqb c "+" = false.
Proof.
  intro D. split; [apply is_digit_nospace, D|]. split; apply ceqb_neq; intros ->; destruct D as [P Q]; cbn in P; lia.
Qed.
(** the value std::stoi reads *)
Lemma stoi_ok v : (exists n, stoi_u16 v = Ok n) <-> int_text v.
Proof.
  unfold stoi_u16, strtol10. split.
  - destruct (cstr_split v) as (tl & Ev & Htl). set (u := cstr v) in *. destruct (spaces_of u) as (sp & u1 & Eu & Fs & Ed). rewrite Ed.
    destruct (sign u1) as [ng u2] eqn:Sg.
    assert (Sgs : exists sg, u1 = sg ++ u2 /\ ((sg = [] \/ sg = ["+"%char]) /\ ng = false \/ sg = ["-"%char] /\ ng = true)).
    { unfold sign in Sg. destruct u1 as [|c t]; [injection Sg as <- <-; exists []; split; [reflexivity|left; split; [left|]; reflexivity]|].
      destruct (ceqb c "-") eqn:M; [apply ceqb_eq in M; subst c; injection Sg as <- <-; exists ["-"%char]; split; [reflexivity|right; split; reflexivity]|].
      destruct (ceqb c "+") eqn:P; [apply ceqb_eq in P; subst c; injection Sg as <- <-; exists ["+"%char]; split; [reflexivity|left; split; [right|]; reflexivity]|].
      injection Sg as <- <-. exists []. split; [reflexivity|left; split; [left|]; reflexivity]. }
    destruct Sgs as (sg & E1 & Hs). destruct (digits_of u2) as (ds & rest & E2 & Fd & Rr).
    destruct (has_digit 10 u2) eqn:Hd; [|intros [n X]; discriminate X]. cbn [negb].
    assert (Nd : ds <> []). { intros ->. cbn [app] in E2. subst u2. unfold has_digit in Hd. destruct rest as [|d t]; [discriminate Hd|]. apply digval_digit in Hd. exact (Rr d t eq_refl Hd). }
    assert (Nm : num 10 0 u2 = read_dec ds). { rewrite E2, (num_rest ds 0%N rest Fd Rr). exact (num_digits ds Fd 0%N). }
    rewrite Nm. intros [n X].
    exists sp, sg, ds, (rest ++ tl). split; [rewrite Ev, Eu, E1, E2, <- !app_assoc; reflexivity|]. split; [exact Fs|]. split; [destruct Hs as [[[-> | ->] _]|[-> _]]; auto|]. split; [exact Nd|]. split; [exact Fd|]. split.
    + intros d t E. destruct rest as [|d' r']; [|cbn [app] in E; injection E as <- _; exact (Rr d' r' eq_refl)]. cbn [app] in E. destruct Htl as [-> |(w & ->)]; [discriminate E|]. injection E as <- _. intros [P _]. cbn in P. lia.
    + destruct Hs as [[Hs ->]|[-> ->]].
      * assert (Ng : seqb sg ["-"%char] = false) by (destruct Hs as [-> | ->]; reflexivity). rewrite Ng.
        destruct ((Z.min (2 ^ 63 - 1) (Z.of_N (read_dec ds)) <? - 2 ^ 31) || (2 ^ 31 <=? Z.min (2 ^ 63 - 1) (Z.of_N (read_dec ds))))%Z eqn:Q; [discriminate X|]. apply orb_false_iff in Q. destruct Q as [_ Q]. apply Z.leb_gt in Q.
        change (2 ^ 63 - 1)%Z with 9223372036854775807%Z in Q. change (2 ^ 31)%Z with 2147483648%Z in Q. change (2 ^ 31)%N with 2147483648%N. lia.
      * change (seqb ["-"%char] ["-"%char]) with true. cbv iota. destruct ((Z.max (- 2 ^ 63) (- Z.of_N (read_dec ds)) <? - 2 ^ 31) || (2 ^ 31 <=? Z.max (- 2 ^ 63) (- Z.of_N (read_dec ds))))%Z eqn:Q; [discriminate X|]. apply orb_false_iff in Q. destruct Q as [Q _]. apply Z.ltb_ge in Q.
        change (- 2 ^ 63)%Z with (-9223372036854775808)%Z in Q. change (- 2 ^ 31)%Z with (-2147483648)%Z in Q. change (2 ^ 31)%N with 2147483648%N. lia.
  - intros (sp & sg & ds & rest & -> & Fs & Hs & Nd & Fd & Rr & B).
    assert (Z1 : ~ In zero sp) by (intro I; rewrite Forall_forall in Fs; exact (space_nozero _ (Fs _ I) eq_refl)).
    assert (Z2 : ~ In zero sg) by (destruct Hs as [-> |[-> | ->]]; [intros []|intros [X|[]]; discriminate X|intros [X|[]]; discriminate X]).
    assert (Z3 : ~ In zero ds) by (intro I; rewrite Forall_forall in Fd; apply Fd in I; apply is_digit_nozero in I; auto).
    rewrite (cstr_app sp) by exact Z1. rewrite (cstr_app sg) by exact Z2. rewrite (cstr_app ds) by exact Z3. rewrite (drop_spaces sp) by exact Fs.
    destruct ds as [|c ds]; [contradiction|]. inversion Fd as [|? ? Dc Fd']; subst. destruct (digit_plain c Dc) as (P1 & P2 & P3).
    assert (Rc : forall d t, cstr rest = d :: t -> ~ is_digit d). { intros d t E. destruct rest as [|d' r']; [discriminate E|]. cbn [cstr] in E. destruct (ceqb d' zero); [discriminate E|]. injection E as <- _. exact (Rr d' r' eq_refl). }
    assert (Nm : num 10 0 ((c :: ds) ++ cstr rest) = read_dec (c :: ds)). { rewrite (num_rest (c :: ds) 0%N (cstr rest) Fd Rc). exact (num_digits (c :: ds) Fd 0%N). }
    assert (Hd : has_digit 10 ((c :: ds) ++ cstr rest) = true) by (cbn [app has_digit]; apply digval_digit, Dc).
    assert (Ds : drop_space (sg ++ (c :: ds) ++ cstr rest) = sg ++ (c :: ds) ++ cstr rest). { destruct Hs as [-> |[-> | ->]]; cbn [app drop_space]; [rewrite P1; reflexivity|reflexivity|reflexivity]. }
    rewrite Ds. assert (Sg : sign (sg ++ (c :: ds) ++ cstr rest) = (seqb sg ["-"%char], (c :: ds) ++ cstr rest)). { destruct Hs as [-> |[-> | ->]]; [cbn [app sign]; rewrite P2, P3; reflexivity|reflexivity|reflexivity]. }
    rewrite Sg, Hd. cbn [negb]. rewrite Nm. set (val := read_dec (c :: ds)) in *. destruct (seqb sg ["-"%char]).
    + assert (Q : ((Z.max (- 2 ^ 63) (- Z.of_N val) <? - 2 ^ 31) || (2 ^ 31 <=? Z.max (- 2 ^ 63) (- Z.of_N val)))%Z = false); [|rewrite Q; eauto]. apply orb_false_iff. change (2 ^ 31)%N with 2147483648%N in B. change (2 ^ 31)%Z with 2147483648%Z. change (- 2 ^ 31)%Z with (-2147483648)%Z. change (- 2 ^ 63)%Z with (-9223372036854775808)%Z. split; [apply Z.ltb_ge|apply Z.leb_gt]; lia.
    + assert (Q : ((Z.min (2 ^ 63 - 1) (Z.of_N val) <? - 2 ^ 31) || (2 ^ 31 <=? Z.min (2 ^ 63 - 1) (Z.of_N val)))%Z = false); [|rewrite Q; eauto]. apply orb_false_iff. change (2 ^ 31)%N with 2147483648%N in B. change (2 ^ 31)%Z with 2147483648%Z. change (- 2 ^ 31)%Z with (-2147483648)%Z. change (2 ^ 63 - 1)%Z with 9223372036854775807%Z. split; [apply Z.ltb_ge|apply Z.leb_gt]; lia.
Qed.
Lemma stoi_total v : stoi_u16 v <> UB.
Proof. unfold stoi_u16. destruct (sign (drop_space (cstr v))) as [b s]. destruct (negb (has_digit 10 s)); [discriminate|]. match goal with |- context [if ?b then _ else _] => destruct b; discriminate end. Qed.
Lemma arch_deps_ok ls : forall acc, ((exists d, arch_deps ls acc = Ok d) <-> forall v, In ("R"%char :: v) ls -> 9 <= length v) /\ arch_deps ls acc <> UB.
Proof.
  induction ls as [|s t IH]; intro acc; cbn [arch_deps].
  - split; [split; [intros _ v []|intros _; eauto]|discriminate].
  - destruct (has_tag "R" s) eqn:T.
    + apply has_tag_In in T. destruct T as [v ->]. unfold dep_of_line. cbn [List.length]. destruct (S (length v) <? 10) eqn:B; cbn [rbind].
      * apply Nat.ltb_lt in B. split; [|discriminate]. split; [intros [d X]; discriminate X|]. intro H. specialize (H v (or_introl eq_refl)). lia.
      * apply Nat.ltb_ge in B. destruct (IH (dins (if S (length v) <? 11 then skipn 1 ("R"%char :: v) else firstn (S (length v) - 11) (skipn 1 ("R"%char :: v)), epoch (skipn (S (length v) - 10) ("R"%char :: v))) acc)) as [A C]. split; [|exact C].
        rewrite A. split; intros H w; [intros [E|I]; [injection E as <-; lia|exact (H w I)]|intro I; apply H; right; exact I].
    + destruct (IH acc) as [A C]. split; [|exact C]. rewrite A. split; intros H w; [intros [E|I]; [subst s; discriminate T|exact (H w I)]|intro I; apply H; right; exact I].
Qed.
Definition usable (a : archive) (name : str) (n : node) (ls : list str) : Prop := member a name = Some n /\ n_data n <> [] /\ tokens (eq nl) (cstr (removelast (n_data n))) ls /\ ls <> [].
Lemma usable_lines a name ls : member_lines a name = Ok ls -> ls <> [] -> exists n, usable a name n ls.
Proof.
  unfold member_lines. destruct (member a name) as [n|] eqn:M; [|intros E Ne; injection E as <-; contradiction]. destruct (n_data n) as [|x d] eqn:D; [discriminate|]. intros E Ne. injection E as <-. exists n. split; [exact M|]. rewrite D. split; [discriminate|]. split; [apply split_char_tokens|exact Ne].
Qed.
Lemma lines_usable a name n ls : usable a name n ls -> member_lines a name = Ok ls.
Proof.
  intros (M & D & T & _). unfold member_lines. rewrite M. destruct (n_data n) as [|x d]; [contradiction|]. f_equal. eapply tokens_det; [apply split_char_tokens|exact T].
Qed.
(** An archive is accepted exactly if it has META and MTREE members that state something, a name, an architecture that fits (or the root is not "/"), a release that is a number if there is one, and dependency lines long enough. Reading runs out of its buffer exactly if one of the two members is empty. *)
Theorem C47_exact junk machine root a : machine <> [] ->
  ((exists name r, open_archive junk machine root a = Ok (name, r)) <->
   exists meta mtree ls fl name, usable a (L ".META") meta ls /\ usable a (L ".MTREE") mtree fl /\ first_line "N"%char ls name /\ name <> [] /\
     (1 < length root \/ exists ar, first_line "a"%char ls ar /\ (ar = machine \/ ar = L "any")) /\
     (forall v, first_line "r"%char ls v -> int_text v) /\ (forall v, In ("R"%char :: v) ls -> 9 <= length v)) /\
  (open_archive junk machine root a = UB <-> exists nm n, (nm = L ".META" \/ nm = L ".MTREE") /\ member a nm = Some n /\ n_data n = []).
Proof.
  intro Mc. unfold open_archive. split.
  - split.
    + intros (name & r & E). apply rbind_ok in E as [fl [E1 E]]. apply rbind_ok in E as [ls [E2 E]]. destruct ls as [|x ls]; [discriminate E|]. destruct fl as [|y fl]; [discriminate E|].
      destruct (usable_lines a _ _ E1 ltac:(discriminate)) as [mtree U1]. destruct (usable_lines a _ _ E2 ltac:(discriminate)) as [meta U2].
      destruct (first_tag "N" (x :: ls)) as [nn|] eqn:FN; [|discriminate E]. cbv zeta in E.
      destruct (negb (seqb (tag_or_empty "a" (x :: ls)) machine) && negb (seqb (tag_or_empty "a" (x :: ls)) (L "any")) && (length root <=? 1)) eqn:Ar; [discriminate E|].
      apply rbind_ok in E as [rel [Er E]]. destruct nn as [|z nn]; [discriminate E|]. apply rbind_ok in E as [deps [Ed _]].
      exists meta, mtree, (x :: ls), (y :: fl), (z :: nn). split; [exact U2|]. split; [exact U1|]. split; [apply first_tag_spec, FN|]. split; [discriminate|]. split; [|split].
      * apply andb_false_iff in Ar. destruct Ar as [Ar|Ar]; [|left; apply Nat.leb_gt in Ar; exact Ar]. right. apply andb_false_iff in Ar. unfold tag_or_empty in Ar. destruct (first_tag "a" (x :: ls)) as [ar|] eqn:Fa.
        -- exists ar. split; [apply first_tag_spec, Fa|]. destruct Ar as [Ar|Ar]; apply negb_false_iff, seqb_eq in Ar; [left|right]; exact Ar.
        -- destruct Ar as [Ar|Ar]; apply negb_false_iff, seqb_eq in Ar; [subst machine; contradiction|discriminate Ar].
      * intros v Fv. apply first_tag_spec in Fv. unfold arch_release in Er. rewrite Fv in Er. apply stoi_ok. exists rel. exact Er.
      * apply (proj1 (arch_deps_ok (x :: ls) (dins (z :: nn, match first_tag "B" (x :: ls) with Some v => epoch v | None => 0%Z end) []))). exists deps. exact Ed.
    + intros (meta & mtree & ls & fl & name & U1 & U2 & FN & Nn & Ar & Fr & Fd). rewrite (lines_usable a _ _ _ U1), (lines_usable a _ _ _ U2). cbn [rbind].
      destruct U1 as (_ & _ & _ & Nl). destruct U2 as (_ & _ & _ & Nf). destruct ls as [|x ls]; [contradiction|]. destruct fl as [|y fl]; [contradiction|]. apply first_tag_spec in FN. rewrite FN. cbv zeta.
      assert (Ab : negb (seqb (tag_or_empty "a" (x :: ls)) machine) && negb (seqb (tag_or_empty "a" (x :: ls)) (L "any")) && (length root <=? 1) = false).
      { destruct Ar as [Ar|(ar & Fa & Ar)]; [rewrite (proj2 (Nat.leb_gt _ _)) by exact Ar; apply andb_false_r|]. apply first_tag_spec in Fa. unfold tag_or_empty. rewrite Fa. destruct Ar as [-> | ->]; rewrite seqb_refl; cbn [negb]; [reflexivity|rewrite andb_false_r; reflexivity]. }
      rewrite Ab. assert (Rl : exists rel, arch_release (x :: ls) = Ok rel). { unfold arch_release. destruct (first_tag "r" (x :: ls)) as [v|] eqn:F; [|eauto]. apply stoi_ok. apply Fr, first_tag_spec, F. }
      destruct Rl as [rel Rl]. rewrite Rl. cbn [rbind]. destruct name as [|z nn]; [contradiction|].
      cbv zeta. match goal with |- context [arch_deps ?l ?b] => destruct (proj2 (proj1 (arch_deps_ok l b)) Fd) as [d Ed]; rewrite Ed end. cbn [rbind]. eauto.
  - assert (K : forall nm, (member_lines a nm = UB <-> exists n, member a nm = Some n /\ n_data n = []) /\ member_lines a nm <> Throw).
    { intro nm. unfold member_lines. destruct (member a nm) as [n|]; [|split; [split; [discriminate|intros (n & X & _); discriminate X]|discriminate]]. destruct (n_data n) as [|x d] eqn:D.
      - split; [|discriminate]. split; [intros _; exists n; split; [reflexivity|exact D]|reflexivity].
      - split; [|discriminate]. split; [discriminate|]. intros (m & X & Y). injection X as <-. rewrite D in Y. discriminate Y. }
    destruct (K (L ".MTREE")) as [K1 K1']. destruct (K (L ".META")) as [K2 K2'].
    split.
    + destruct (member_lines a (L ".MTREE")) as [fl| |] eqn:E1; [|contradiction|intros _; destruct (proj1 K1 eq_refl) as (n & X & Y); exists (L ".MTREE"), n; auto]. cbn [rbind].
      destruct (member_lines a (L ".META")) as [ls| |] eqn:E2; [|contradiction|intros _; destruct (proj1 K2 eq_refl) as (n & X & Y); exists (L ".META"), n; auto]. cbn [rbind].
      destruct ls as [|x ls]; [discriminate|]. destruct fl as [|y fl]; [discriminate|]. destruct (first_tag "N" (x :: ls)) as [nn|]; [|discriminate]. cbv zeta. match goal with |- (if ?b then _ else _) = _ -> _ => destruct b; [discriminate|] end.
      unfold arch_release. destruct (match first_tag "r" (x :: ls) with Some v => stoi_u16 v | None => Ok 0%N end) as [rel| |] eqn:Er; cbn [rbind]; [|discriminate|].
      * destruct nn as [|z nn]; [discriminate|]. cbv zeta. match goal with |- context [arch_deps ?l ?b] => pose proof (proj2 (arch_deps_ok l b)) as U; destruct (arch_deps l b); cbn [rbind]; [discriminate|discriminate|contradiction] end.
      * intros _. destruct (first_tag "r" (x :: ls)) as [v|]; [destruct (stoi_total v Er)|discriminate Er].
    + intros (nm & n & [-> | ->] & X & Y).
      * destruct (member_lines a (L ".MTREE")) as [fl| |]; [|contradiction|reflexivity]. cbn [rbind]. rewrite (proj2 K2) by (exists n; auto). reflexivity.
      * rewrite (proj2 K1) by (exists n; auto). reflexivity.
Qed.
Example C47_exact_case : (exists name r, open_archive false (L "x86_64") (L "/") demo_archive = Ok (name, r)) /\ int_text (L " +12rc") /\ ~ int_text (L "rc1").
Proof.
  split; [destruct C47_witness as (r & E & _); eauto|]. split; [apply stoi_ok; exists 12%N; reflexivity|]. intro H. apply stoi_ok in H. destruct H as [n H]. discriminate H.
Qed.
