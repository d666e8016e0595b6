From Verif Require Import Base BaseProofs StrModel StrSpec StrProofs FsModel FsProofs MetaModel MetaSpec.

Lemma rbind_ok {A B} (x : res A) (g : A -> res B) b : rbind x g = Ok b -> exists a, x = Ok a /\ g a = Ok b.
Proof. destruct x; cbn; try discriminate. eauto. Qed.

(** ** META lines *)
Lemma meta_fold {A} (proj : rec -> A) (g : A -> str -> A) i :
  (forall r s r', meta_line i r s = Ok r' -> proj r' = g (proj r) s) ->
  forall ls r r', meta_lines i r ls = Ok r' -> proj r' = fold_left g ls (proj r).
Proof.
  intro H. induction ls as [|s t IH]; intros r r' E; cbn in E |- *; [inversion E; auto|].
  apply rbind_ok in E as [r1 [E1 E2]]. rewrite (IH _ _ E2). f_equal. apply H; auto.
Qed.

(** one-valued field [c] read by [read] *)
Definition set_field {A} (c : ascii) (read : str -> A) (a : A) (s : str) : A := if has_tag c s then read (skipn 1 s) else a.
(** many-valued field *)
Definition ins_field (c : ascii) (a : list str) (s : str) : list str := if has_tag c s then sins (skipn 1 s) a else a.

Lemma char_test c x y : ceqb c x = true -> ceqb c y = ceqb x y.
Proof. intro H. apply ceqb_eq in H. subst. reflexivity. Qed.
Lemma d1_test c v : seqb (c :: v) (L "d1") = true -> c = "d"%char.
Proof. intro H. apply seqb_eq in H. inversion H. reflexivity. Qed.
Ltac meta_step :=
  let r := fresh "r" in let s := fresh "s" in let r' := fresh "r'" in let E := fresh "E" in
  intros r s r' E; destruct s as [|c v]; [inversion E; reflexivity|];
  unfold meta_line in E; unfold set_field, ins_field; cbn [has_tag skipn];
  repeat match type of E with
  | (if ceqb c ?x then _ else _) = _ =>
      let B := fresh "B" in destruct (ceqb c x) eqn:B;
      [rewrite ?(char_test c x _ B) | ]
  end;
  try (inversion E; subst; cbn; repeat match goal with H : ceqb _ _ = false |- _ => rewrite ?H end; reflexivity);
  try (apply rbind_ok in E as [? [_ E]]; inversion E; subst; cbn; reflexivity);
  try (destruct (seqb (c :: v) (L "d1")); inversion E; subst; cbn; repeat match goal with H : ceqb _ _ = false |- _ => rewrite ?H end; reflexivity).

Section Steps.
  Variable i : str.
  Lemma step_version : forall r s r', meta_line i r s = Ok r' -> r_version r' = set_field "V" (fun v => v) (r_version r) s. Proof. meta_step. Qed.
  Lemma step_descr : forall r s r', meta_line i r s = Ok r' -> r_descr r' = set_field "D" (fun v => v) (r_descr r) s. Proof. meta_step. Qed.
  Lemma step_url : forall r s r', meta_line i r s = Ok r' -> r_url r' = set_field "U" (fun v => v) (r_url r) s. Proof. meta_step. Qed.
  Lemma step_contrib : forall r s r', meta_line i r s = Ok r' -> r_contrib r' = set_field "C" (fun v => v) (r_contrib r) s. Proof. meta_step. Qed.
  Lemma step_maint : forall r s r', meta_line i r s = Ok r' -> r_maint r' = set_field "M" (fun v => v) (r_maint r) s. Proof. meta_step. Qed.
  Lemma step_packager : forall r s r', meta_line i r s = Ok r' -> r_packager r' = set_field "P" (fun v => v) (r_packager r) s. Proof. meta_step. Qed.
  Lemma step_license : forall r s r', meta_line i r s = Ok r' -> r_license r' = set_field "L" (fun v => v) (r_license r) s. Proof. meta_step. Qed.
  Lemma step_arch : forall r s r', meta_line i r s = Ok r' -> r_arch r' = set_field "a" (fun v => v) (r_arch r) s. Proof. meta_step. Qed.
  Lemma step_coll : forall r s r', meta_line i r s = Ok r' -> r_coll r' = set_field "c" (fun v => v) (r_coll r) s. Proof. meta_step. Qed.
  Lemma step_group : forall r s r', meta_line i r s = Ok r' -> r_group r' = set_field "g" (fun v => v) (r_group r) s. Proof. meta_step. Qed.
  Lemma step_base : forall r s r', meta_line i r s = Ok r' -> r_base r' = set_field "g" (fun v => base_name i ("g"%char :: v)) (r_base r) s.
  Proof. meta_step. Qed.
  Lemma step_release : forall r s r', meta_line i r s = Ok r' -> r_release r' = set_field "r" (fun v => Some (atoi_u16 v)) (r_release r) s. Proof. meta_step. Qed.
  Lemma step_build : forall r s r', meta_line i r s = Ok r' -> r_build r' = set_field "B" (fun v => Some (epoch v)) (r_build r) s. Proof. meta_step. Qed.
  Lemma step_space : forall r s r', meta_line i r s = Ok r' -> r_space r' = set_field "S" (fun v => Some (atoi_u32 v)) (r_space r) s. Proof. meta_step. Qed.
  Lemma step_alias : forall r s r', meta_line i r s = Ok r' -> r_alias r' = ins_field "A" (r_alias r) s. Proof. meta_step. Qed.
  Lemma step_sets : forall r s r', meta_line i r s = Ok r' -> r_sets r' = ins_field "s" (r_sets r) s. Proof. meta_step. Qed.
  Lemma step_cats : forall r s r', meta_line i r s = Ok r' -> r_cats r' = ins_field "T" (r_cats r) s. Proof. meta_step. Qed.
  Lemma step_files : forall r s r', meta_line i r s = Ok r' -> r_files r' = (fun a _ => a) (r_files r) s. Proof. meta_step. Qed.
  Lemma step_auto : forall r s r', meta_line i r s = Ok r' -> r_auto r' = (fun a s => seqb s (L "d1") || a) (r_auto r) s.
  Proof.
    intros r s r' E. destruct s as [|c v]; [inversion E; reflexivity|]. unfold meta_line in E.
    destruct (seqb (c :: v) (L "d1")) eqn:D.
    - pose proof (d1_test _ _ D) as ->. cbn in E. destruct (seqb v ["1"%char]) eqn:D'; [inversion E; reflexivity|].
      cbn in D. rewrite D' in D. discriminate.
    - cbn [orb].
      repeat match type of E with (if ceqb c ?x then _ else _) = _ => destruct (ceqb c x) end;
      try (inversion E; subst; reflexivity); apply rbind_ok in E as [? [_ E]]; inversion E; reflexivity.
  Qed.
  Lemma step_deps : forall r s r', meta_line i r s = Ok r' ->
    r_deps r' = (fun a s => if has_tag "R" s then match dep_of_line s with Ok d => dins d a | _ => a end else a) (r_deps r) s.
  Proof.
    meta_step. apply rbind_ok in E as [d [E1 E]]. inversion E; subst. cbn beta. rewrite E1. reflexivity.
  Qed.
  (** failure happens exactly on a short R line; nothing is undefined *)
  Lemma meta_line_cases r s : (exists r', meta_line i r s = Ok r') \/ (meta_line i r s = Throw /\ has_tag "R" s = true /\ length s < 10).
  Proof.
    destruct s as [|c v]; [left; eexists; reflexivity|]. unfold meta_line.
    repeat match goal with |- context [if ceqb c ?x then _ else _] =>
      destruct (ceqb c x) eqn:?; [ try (left; eexists; reflexivity) | ] end.
    - unfold dep_of_line. destruct (length (c :: v) <? 10) eqn:E; [right; cbn; apply Nat.ltb_lt in E; auto | left; eexists; reflexivity].
    - destruct (seqb (c :: v) (L "d1")); left; eexists; reflexivity.
  Qed.
  Lemma meta_line_short r s : has_tag "R" s = true -> length s < 10 -> meta_line i r s = Throw.
  Proof.
    intros T S. destruct s as [|c v]; [discriminate|]. cbn in T. apply ceqb_eq in T. subst c.
    apply Nat.ltb_lt in S. unfold meta_line. cbn [ceqb Ascii.eqb]. cbn. unfold dep_of_line. rewrite S. reflexivity.
  Qed.
  Lemma meta_lines_ok r ls : (forall s, In s ls -> has_tag "R" s = true -> 10 <= length s) -> exists r', meta_lines i r ls = Ok r'.
  Proof.
    revert r. induction ls as [|s t IH]; intros r H; cbn; [eauto|].
    destruct (meta_line_cases r s) as [[r' ->]|[_ [T S]]].
    - apply IH. intros; apply H; cbn; auto.
    - exfalso. pose proof (H s (or_introl eq_refl) T). lia.
  Qed.
  Lemma meta_lines_short r ls : (exists s, In s ls /\ has_tag "R" s = true /\ length s < 10) -> meta_lines i r ls = Throw.
  Proof.
    revert r. induction ls as [|s t IH]; intros r [x [I [T S]]]; [destruct I|]. cbn.
    destruct (meta_line_cases r s) as [[r' E]|[E _]]; rewrite E; [|reflexivity]. cbn. apply IH.
    destruct I as [->|I]; [rewrite meta_line_short in E by auto; discriminate | eauto].
  Qed.
End Steps.

Lemma has_tag_In c s : has_tag c s = true <-> exists v, s = c :: v.
Proof.
  destruct s as [|x v]; cbn; [split; [discriminate|intros [? ?]; discriminate]|].
  rewrite ceqb_eq. split; [intros ->; eauto | intros [w E]; inversion E; auto].
Qed.

Lemma set_field_fold {A} c (read : str -> A) ls : ssorted ls -> forall d,
  field c ls read d (fold_left (set_field c read) ls d).
Proof.
  induction ls as [|s t IH] using rev_ind; intros Sd d.
  - apply field_none. auto.
  - rewrite fold_left_app. cbn [fold_left].
    assert (S1 : ssorted t /\ Forall (fun x => slt x s) t).
    { clear IH. induction t as [|x t IHt]; [split; constructor|].
      cbn in Sd. inversion Sd as [|? ? S1 F1]; subst. destruct (IHt S1) as [A1 A2].
      apply Forall_app in F1 as [F1 F2]. inversion F2; subst. split; [constructor; auto | constructor; auto]. }
    destruct S1 as [S1 F]. specialize (IH S1 d). unfold set_field at 1. destruct (has_tag c s) eqn:T.
    + apply has_tag_In in T as [v ->]. cbn [skipn]. apply field_line.
      * apply in_app_iff. cbn. auto.
      * intros w I. apply in_app_iff in I as [I|[I|[]]]; [|inversion I; auto]. right.
        rewrite Forall_forall in F. specialize (F _ I). unfold slt in *. cbn in F.
        assert (cltb c c = false) as E by (apply cltb_ge; lia). rewrite E in F. exact F.
    + assert (X : forall w, In (c :: w) (t ++ [s]) <-> In (c :: w) t).
      { intro w. rewrite in_app_iff. cbn. split; [intros [I|[I|[]]]; auto; subst; cbn in T; rewrite ceqb_refl in T; discriminate | auto]. }
      remember (fold_left (set_field c read) t d) as y eqn:Ey. clear Ey. destruct IH as [v I M|N].
      * apply field_line; [apply X; auto|]. intros w J. apply M, X, J.
      * apply field_none. intros w J. apply X in J. apply (N w J).
Qed.
Lemma ins_field_fold c ls x : forall a, In x (fold_left (ins_field c) ls a) <-> In x a \/ In (c :: x) ls.
Proof.
  induction ls as [|s t IH]; intro a; cbn [fold_left]; [cbn; tauto|]. rewrite IH. unfold ins_field. cbn [In].
  destruct (has_tag c s) eqn:T.
  - apply has_tag_In in T as [v ->]. cbn [skipn]. rewrite sins_In. split.
    + intros [[->|H]|H]; auto.
    + intros [H|[H|H]]; auto. inversion H; auto.
  - split; [tauto|]. intros [H|[H|H]]; auto. subst. cbn in T. rewrite ceqb_refl in T. discriminate.
Qed.
Lemma auto_fold ls : forall a, fold_left (fun a s => seqb s (L "d1") || a) ls a = true <-> a = true \/ In (L "d1") ls.
Proof.
  induction ls as [|s t IH]; intro a; cbn [fold_left In]; [tauto|]. rewrite IH, orb_true_iff, seqb_eq. tauto.
Qed.
Lemma dltb_spec a b : dltb a b = true <-> slt (fst a) (fst b) \/ (fst a = fst b /\ (snd a < snd b)%Z).
Proof. unfold dltb, slt. rewrite orb_true_iff, andb_true_iff, seqb_eq, Z.ltb_lt. tauto. Qed.
Lemma dins_In d x s : In x (dins d s) <-> x = d \/ In x s.
Proof.
  induction s as [|y t IH]; cbn; [intuition|]. destruct (dltb d y) eqn:E1; [cbn; intuition|].
  destruct (dltb y d) eqn:E2; [cbn; rewrite IH; intuition|].
  assert (d = y); [|subst; cbn; intuition].
  destruct d as [a u], y as [b v].
  assert (~ dltb (a, u) (b, v) = true) as H1 by congruence. assert (~ dltb (b, v) (a, u) = true) as H2 by congruence.
  rewrite dltb_spec in H1, H2. cbn in H1, H2. unfold slt in *.
  destruct (sltb_total a b) as [H|[H|H]]; [tauto| |tauto]. subst. f_equal.
  apply Z.le_antisymm; apply Z.nlt_ge; intro; tauto.
Qed.
Lemma deps_fold ls d : forall a,
  In d (fold_left (fun a s => if has_tag "R" s then match dep_of_line s with Ok d => dins d a | _ => a end else a) ls a) <->
  In d a \/ exists s, In s ls /\ has_tag "R" s = true /\ dep_of_line s = Ok d.
Proof.
  induction ls as [|s t IH]; intro a; cbn [fold_left]; [split; [auto|intros [H|[? [[] _]]]; auto]|]. rewrite IH.
  destruct (has_tag "R" s) eqn:T.
  - destruct (dep_of_line s) as [e| |] eqn:D; [rewrite dins_In|..].
    + split.
      * intros [[->|H]|[x [H1 H2]]]; [right; exists s; cbn; auto | auto | right; exists x; cbn; tauto].
      * intros [H|[x [[->|H1] [H2 H3]]]]; auto; [left; left; congruence | right; exists x; auto].
    + split; [intros [H|[x [H1 H2]]]; [auto | right; exists x; cbn; tauto]|].
      intros [H|[x [[->|H1] [H2 H3]]]]; auto; [congruence | right; exists x; auto].
    + split; [intros [H|[x [H1 H2]]]; [auto | right; exists x; cbn; tauto]|].
      intros [H|[x [[->|H1] [H2 H3]]]]; auto; [congruence | right; exists x; auto].
  - split; [intros [H|[x [H1 H2]]]; [auto | right; exists x; cbn; tauto]|].
    intros [H|[x [[->|H1] [H2 H3]]]]; auto; [congruence | right; exists x; auto].
Qed.

(** an R line of at least eleven characters: name and ten characters of date *)
Lemma dep_of_line_spec n dt : length dt = 10 -> dep_of_line ("R"%char :: n ++ dt) = Ok (n, epoch dt).
Proof.
  intro Ld. unfold dep_of_line. cbn [List.length skipn]. rewrite app_length.
  assert (S (length n + length dt) <? 10 = false) as -> by (apply Nat.ltb_ge; lia).
  assert (S (length n + length dt) <? 11 = false) as -> by (apply Nat.ltb_ge; lia).
  f_equal. f_equal.
  - replace (S (length n + length dt) - 11) with (length n) by lia. rewrite firstn_app, firstn_all, Nat.sub_diag. cbn. apply app_nil_r.
  - replace (S (length n + length dt) - 10) with (S (length n)) by lia. cbn [skipn]. rewrite skipn_app, skipn_all, Nat.sub_diag. reflexivity.
Qed.
Lemma split_last10 (s : str) : 10 <= length s -> exists n dt, s = n ++ dt /\ length dt = 10.
Proof.
  intro H. exists (firstn (length s - 10) s), (skipn (length s - 10) s). split; [symmetry; apply firstn_skipn|].
  rewrite skipn_length. lia.
Qed.
Lemma num_digits ds : Forall is_digit ds -> forall acc, num 10 acc ds = fold_left (fun a c => 10 * a + digit_value c)%N ds acc.
Proof.
  induction 1 as [|c ds H _ IH]; intro acc; [reflexivity|]. cbn [num fold_left].
  assert (D : digval c = digit_value c /\ (digit_value c < 10)%N).
  { destruct H as [H1 H2]. unfold digval, digit_value.
    rewrite (proj2 (N.leb_le _ _) H1), (proj2 (N.leb_le _ _) H2). cbn [andb]. split; [reflexivity|lia]. }
  destruct D as [-> D]. rewrite (proj2 (N.ltb_lt _ _) D), IH. f_equal. lia.
Qed.

Lemma is_digit_nospace c : is_digit c -> is_space c = false.
Proof.
  intros [H1 H2]. unfold is_space. apply orb_false_iff. split; [apply andb_false_iff; right; apply N.leb_gt; lia | apply N.eqb_neq; lia].
Qed.
Lemma is_digit_nozero c : is_digit c -> c <> zero.
Proof. intros [H _] ->. cbn in H. lia. Qed.
Lemma epoch_date dt : date dt -> epoch dt = Z.of_N (read_dec dt).
Proof.
  intros [Ln [F H0]]. unfold epoch, strtoul0.
  assert (Z0 : ~ In zero dt). { intro I. rewrite Forall_forall in F. apply F in I. apply is_digit_nozero in I. auto. }
  rewrite cstr_nozero by auto. destruct dt as [|c ds]; [discriminate|]. cbn [hd] in H0.
  inversion F as [|? ? Dc Fd]; subst. cbn [drop_space]. rewrite is_digit_nospace by auto.
  assert (S : sign (c :: ds) = (false, c :: ds)).
  { cbn. assert (ceqb c "-" = false) as ->. { apply ceqb_neq. intros ->. destruct Dc as [D1 D2]. cbn in *. lia. }
    assert (ceqb c "+" = false) as ->. { apply ceqb_neq. intros ->. destruct Dc as [D1 D2]. cbn in *. lia. } reflexivity. }
  rewrite S.
  assert (B : base0 (c :: ds) = (10%N, c :: ds)).
  { unfold base0. apply ceqb_neq in H0. destruct ds; rewrite H0; reflexivity. }
  rewrite B, num_digits by auto. fold (read_dec (c :: ds)).
  pose proof (read_dec_bound (c :: ds) F) as R. rewrite Ln in R. cbn [N.of_nat] in R.
  assert (10 ^ N.pos (Pos.of_succ_nat 9) < 2 ^ 63)%N as P by (vm_compute; reflexivity).
  assert (2 ^ 63 < 2 ^ 64)%N as P2 by (vm_compute; reflexivity).
  destruct (2 ^ 64 <=? read_dec (c :: ds))%N eqn:E; [apply N.leb_le in E; lia|].
  unfold to_time. destruct (read_dec (c :: ds) <? 2 ^ 63)%N eqn:E2; [reflexivity|]. apply N.ltb_ge in E2. lia.
Qed.

(** ** Reading the stored file list back *)
Lemma getlines_text ls : Forall (fun l => ~ In nl l) ls -> getlines (text_of ls) = ls ++ [[]].
Proof.
  induction 1 as [|l t H _ IH]; [reflexivity|]. unfold text_of in *. cbn [map concat]. rewrite <- app_assoc. cbn [app].
  induction l as [|c l IHl]; cbn [app getlines].
  - rewrite ceqb_refl. rewrite IH. reflexivity.
  - assert (ceqb c nl = false) as -> by (apply ceqb_neq; intros ->; apply H; cbn; auto).
    rewrite IHl by (intro; apply H; cbn; auto). reflexivity.
Qed.
Lemma read_files_text ls : ssorted ls -> Forall (fun l => l <> [] /\ ~ In nl l) ls ->
  set_of (filter (fun l => negb (length l =? 0)) (getlines (text_of ls))) = ls.
Proof.
  intros S F. rewrite getlines_text. 2:{ eapply Forall_impl; [|exact F]. cbn. tauto. }
  rewrite filter_app. cbn. rewrite app_nil_r. rewrite filter_all_true.
  - apply set_of_sorted_id; auto.
  - eapply Forall_impl; [|exact F]. cbn. intros l [H _]. destruct l; [congruence|reflexivity].
Qed.
