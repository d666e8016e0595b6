(** Exact statements for string_utils.cxx: the value of a key (C32), the letters and the mode text (C35). Written after seeded bugs
    (comment lines read, keys without a delimiter trimmed differently, a letter without its capital, group bits swapped) were not noticed. *)
From Verif Require Import Base BaseProofs StrModel StrSpec StrProofs.

(** ** C32: the value of a key *)
(** the line gives the key a value: it is not empty, does not start with '#' nor with the delimiter, and, trimmed, it is the key, the
    first delimiter and the value, each possibly with white space around; or there is no delimiter and the value is empty *)
Definition gives (d : ascii) (key value line : str) : Prop :=
  (exists c t, line = c :: t /\ c <> "#"%char /\ c <> d) /\
  exists a w b, line = a ++ w ++ b /\ Forall white a /\ Forall white b /\ no_outer_white w /\
    ((exists k v, w = k ++ d :: v /\ ~ In d k /\ key = strip k /\ value = strip v) \/ (~ In d w /\ key = w /\ value = [])).
Lemma key_line_spec line d : key_line line d = true <-> exists c t, line = c :: t /\ c <> "#"%char /\ c <> d.
Proof.
  destruct line as [|c t]; cbn [key_line].
  - split; [discriminate|]. intros (c & t & E & _). discriminate E.
  - cbn [cfind]. rewrite andb_true_iff, negb_true_iff. split.
    + intros [A B]. exists c, t. split; [reflexivity|]. split.
      * intros ->. rewrite ceqb_refl in A. discriminate A.
      * intros ->. rewrite ceqb_refl in B. discriminate B.
    + intros (c' & t' & E & A & B). injection E as <- <-. split; [apply ceqb_neq; exact A|].
      rewrite (proj2 (ceqb_neq c d) B). destruct (cfind d t); reflexivity.
Qed.
Lemma in_split_first (c : ascii) s : In c s -> exists a b, s = a ++ c :: b /\ ~ In c a.
Proof.
  induction s as [|x s IH]; [intros []|]. intro I. destruct (ceqb_spec x c) as [->|N]; [exists [], s; split; [reflexivity|intros []]|].
  destruct I as [I|I]; [contradiction|]. destruct (IH I) as (a & b & -> & Na). exists (x :: a), b. split; [reflexivity|]. intros [Q|Q]; [exact (N Q)|exact (Na Q)].
Qed.
Lemma strip_parts line : exists a b, line = a ++ strip line ++ b /\ Forall white a /\ Forall white b /\ no_outer_white (strip line).
Proof. destruct (strip_spec line) as ((a & b & E & A & B) & N). exists a, b. auto. Qed.
Lemma gives_model d key line : (exists value, gives d key value line) <-> key_line line d && seqb key (fst (split_key_value (strip line) d)) = true.
Proof.
  rewrite andb_true_iff, key_line_spec. split.
  - intros (value & F & a & w & b & E & A & B & N & H). split; [exact F|]. rewrite E, (strip_unique a w b A B N).
    destruct H as [(k & v & -> & Nk & -> & _)|(Nw & -> & _)].
    + rewrite split_key_value_found by exact Nk. apply seqb_refl.
    + unfold split_key_value. apply cfind_None in Nw. rewrite Nw. apply seqb_refl.
  - intros (F & K). destruct (strip_parts line) as (a & b & E & A & B & N). destruct (in_dec ascii_dec d (strip line)) as [I|I].
    + destruct (in_split_first d (strip line) I) as (k & v & Ew & Nk). exists (strip v). split; [exact F|]. exists a, (strip line), b. split; [exact E|]. split; [exact A|]. split; [exact B|]. split; [exact N|].
      left. exists k, v. rewrite Ew in K. rewrite split_key_value_found in K by exact Nk. destruct (seqb_spec key (fst (strip k, strip v))) as [Q|Q]; [|discriminate K]. auto.
    + exists []. split; [exact F|]. exists a, (strip line), b. split; [exact E|]. split; [exact A|]. split; [exact B|]. split; [exact N|]. right.
      unfold split_key_value in K. pose proof (proj2 (cfind_None d (strip line)) I) as Z. rewrite Z in K. cbn [fst] in K. destruct (seqb_spec key (strip line)) as [Q|Q]; [|discriminate K]. auto.
Qed.
Lemma gives_value d key value line : gives d key value line -> strip (snd (split_key_value (strip line) d)) = value.
Proof.
  intros (_ & a & w & b & E & A & B & N & H). rewrite E, (strip_unique a w b A B N). destruct H as [(k & v & -> & Nk & _ & ->)|(Nw & _ & ->)].
  - rewrite split_key_value_found by exact Nk. cbn [snd]. apply strip_idem.
  - unfold split_key_value. apply cfind_None in Nw. rewrite Nw. reflexivity.
Qed.
Lemma getlines_join ls : ls <> [] -> Forall (fun l => ~ In nl l) ls -> getlines (join nl ls) = ls.
Proof.
  induction ls as [|l ls IH]; intros Ne F; [contradiction|]. inversion F as [|? ? N F2]; subst. assert (P : forall l rest, ~ In nl l -> getlines (l ++ nl :: rest) = l :: getlines rest).
  { clear. induction l as [|c l IH]; intros rest N; cbn [List.app getlines]; [rewrite ceqb_refl; reflexivity|]. destruct (ceqb_spec c nl) as [->|Nc]; [exfalso; apply N; left; reflexivity|]. rewrite IH by (intro I; apply N; right; exact I). reflexivity. }
  assert (P0 : forall l, ~ In nl l -> getlines l = [l]).
  { clear. induction l as [|c l IH]; intro N; cbn [getlines]; [reflexivity|]. destruct (ceqb_spec c nl) as [->|Nc]; [exfalso; apply N; left; reflexivity|]. rewrite IH by (intro I; apply N; right; exact I). reflexivity. }
  destruct ls as [|l2 ls]; [cbn [join]; apply P0; exact N|]. change (join nl (l :: l2 :: ls)) with (l ++ nl :: join nl (l2 :: ls)). rewrite (P _ _ N), IH; [reflexivity|discriminate|exact F2].
Qed.
Lemma find_last {A} (p : A -> bool) l x : find p (rev l) = Some x -> p x = true /\ exists before after, l = before ++ x :: after /\ forall y, In y after -> p y = false.
Proof.
  induction l as [|y l IH] using rev_ind; [discriminate|]. rewrite rev_app_distr. cbn [rev List.app find]. destruct (p y) eqn:E.
  - intros H. injection H as <-. split; [exact E|]. exists l, []. split; [reflexivity|]. intros z [].
  - intro H. destruct (IH H) as (P & b & a & -> & N). split; [exact P|]. exists b, (a ++ [y]). split; [rewrite <- app_assoc; reflexivity|]. intros z I. apply in_app_iff in I. destruct I as [I|[<-|[]]]; [exact (N z I)|exact E].
Qed.
(** the value of a key in a text of lines (the last one terminated or not): the value given by the last line that gives it one; empty if none does *)
Theorem C32_value_of_key : forall lines d key, lines <> [] -> Forall (fun l => ~ In nl l) lines ->
  (forall before line after value, lines = before ++ line :: after -> gives d key value line -> (forall l v, In l after -> ~ gives d key v l) ->
    get_value_of_key (join nl lines) d key = value) /\
  ((forall l v, In l lines -> ~ gives d key v l) -> get_value_of_key (join nl lines) d key = []).
Proof.
  intros lines d key Ne F. change (list (list ascii)) with (list str) in *. rewrite get_value_of_key_spec, (getlines_join lines Ne F).
  set (p := fun line => key_line line d && seqb key (fst (split_key_value (strip line) d))). split.
  - intros before line after value -> G No. assert (Pl : p line = true) by (apply gives_model; exists value; exact G).
    change (match @find str p (@rev str (before ++ line :: after)) with Some x => strip (snd (split_key_value (strip x) d)) | None => [] end = value).
    destruct (@find str p (@rev str (before ++ line :: after))) as [x|] eqn:E.
    + destruct (find_last p _ x E) as (Px & b & a & Q & Na). assert (x = line).
      { assert (T : forall b b' a a' (x y : str), b ++ x :: a = b' ++ y :: a' -> p x = true -> p y = true -> (forall z, In z a -> p z = false) -> (forall z, In z a' -> p z = false) -> x = y).
        { clear. induction b as [|z b IH]; intros [|z' b'] a a' x y Q X Y A A'; cbn [List.app] in Q; injection Q as Q1 Q2; subst.
          - reflexivity.
          - exfalso. pose proof (A y ltac:(apply in_elt)) as Z. rewrite Z in Y. discriminate Y.
          - exfalso. pose proof (A' x ltac:(apply in_elt)) as Z. rewrite Z in X. discriminate X.
          - exact (IH _ _ _ _ _ Q2 X Y A A'). }
        refine (T _ _ _ _ _ _ (eq_sym Q) Px Pl Na _). intros z I. destruct (p z) eqn:Pz; [|reflexivity]. exfalso. apply gives_model in Pz. destruct Pz as (v & Gz). exact (No z v I Gz). }
      subst x. exact (gives_value d key value line G).
    + exfalso. pose proof (find_none p _ E line) as Z. rewrite Z in Pl; [discriminate Pl|]. apply in_rev. rewrite rev_involutive. apply in_elt.
  - intro No. change (match @find str p (@rev str lines) with Some x => strip (snd (split_key_value (strip x) d)) | None => [] end = []). destruct (@find str p (@rev str lines)) as [x|] eqn:E; [|reflexivity]. exfalso. apply find_some in E. destruct E as (I & Px). apply gives_model in Px. destruct Px as (v & G). apply in_rev in I. exact (No x v I G).
Qed.
Print Assumptions C32_value_of_key.
(** without a delimiter the whole text is the key, as it stands, and the values before the first and the last delimiter are the text *)
Theorem C32_no_delimiter : forall s d, ~ In d s -> split_key_value s d = (s, []) /\ get_value_before s d = s /\ get_value_before_last s d = s /\ get_value s d = [].
Proof.
  intros s d N. split; [unfold split_key_value; apply cfind_None in N; rewrite N; reflexivity|]. split; [exact (get_value_before_none s d N)|]. split; [exact (get_value_before_last_none s d N)|exact (get_value_none s d N)].
Qed.
Print Assumptions C32_no_delimiter.
(** a commented line, a line starting with the delimiter and a line without a value *)
Example C32_value_witness : get_value_of_key (join nl [L "# version=0"; L "=version=7"; L " version = 1.2 "; L "#version=4"]) "="%char (L "version") = L "1.2" /\
  gives "="%char (L "version") (L "1.2") (L " version = 1.2 ") /\ gives "="%char (L "alone") [] (L "alone") /\ (forall v, ~ gives "="%char (L "version") v (L "#version=4")).
Proof.
  assert (G : forall key line value, key_line line "="%char && seqb key (fst (split_key_value (strip line) "="%char)) = true -> strip (snd (split_key_value (strip line) "="%char)) = value -> gives "="%char key value line).
  { intros key line value H E. apply gives_model in H. destruct H as (v & H). rewrite (gives_value _ _ _ _ H) in E. subst v. exact H. }
  split; [vm_compute; reflexivity|]. split; [apply G; vm_compute; reflexivity|]. split; [apply G; vm_compute; reflexivity|].
  intros v H. assert (K : exists v, gives "="%char (L "version") v (L "#version=4")) by (exists v; exact H). apply gives_model in K. vm_compute in K. discriminate K.
Qed.

(** ** C35: letters *)
Definition capitals : str := L "ABCDEFGHIJKLMNOPQRSTUVWXYZ".
Definition smalls : str := L "abcdefghijklmnopqrstuvwxyz".
(** y is x with the n-th letter of one alphabet for the n-th letter of the other; every other character is itself *)
Definition swaps (from to : str) (x y : ascii) : Prop :=
  (exists n, nth_error from n = Some x /\ nth_error to n = Some y) \/ (~ In x from /\ y = x).
Fixpoint assoc (x : ascii) (from to : str) : ascii := match from, to with a :: f, b :: t => if ceqb x a then b else assoc x f t | _, _ => x end.
Lemma assoc_swaps x from to : length from = length to -> swaps from to x (assoc x from to).
Proof.
  revert to. induction from as [|a f IH]; intros [|b t] E; cbn [assoc]; try discriminate E.
  - right. split; [intros []|reflexivity].
  - destruct (ceqb_spec x a) as [->|N]; [left; exists 0; split; reflexivity|]. injection E as E. destruct (IH t E) as [(n & A & B)|[A B]].
    + left. exists (S n). split; [exact A|exact B].
    + right. split; [intros [Q|Q]; [congruence|exact (A Q)]|exact B].
Qed.
Theorem C35_letters : forall s, Forall2 (swaps capitals smalls) s (lower_case s) /\ Forall2 (swaps smalls capitals) s (upper_case s).
Proof.
  assert (Lo : forall c, to_lower c = assoc c capitals smalls) by (intros [[] [] [] [] [] [] [] []]; reflexivity).
  assert (Up : forall c, to_upper c = assoc c smalls capitals) by (intros [[] [] [] [] [] [] [] []]; reflexivity).
  intro s. induction s as [|c s [A B]]; [split; constructor|]. split; cbn [lower_case upper_case map]; constructor.
  - rewrite Lo. apply assoc_swaps. reflexivity.
  - exact A.
  - rewrite Up. apply assoc_swaps. reflexivity.
  - exact B.
Qed.
Print Assumptions C35_letters.
Example C35_letters_witness : lower_case (L "GCC-12_z") = L "gcc-12_z" /\ upper_case (L "gcc-12_z") = L "GCC-12_Z".
Proof. split; reflexivity. Qed.

(** ** C35: the mode text, bit by bit *)
Definition bit_char (m : N) (i : N) (c : ascii) : ascii := if N.testbit m i then c else "-"%char.
(** execute bit x, and setuid / setgid / sticky bit s: shown by one letter, capital when execute is off *)
Definition exec_char (m : N) (x s : N) (off on : ascii) : ascii :=
  match N.testbit m x, N.testbit m s with false, false => "-" | true, false => "x" | false, true => off | true, true => on end%char.
Definition perm_text (m : N) : str :=
  [ bit_char m 8 "r"; bit_char m 7 "w"; exec_char m 6 11 "S" "s";
    bit_char m 5 "r"; bit_char m 4 "w"; exec_char m 3 10 "S" "s";
    bit_char m 2 "r"; bit_char m 1 "w"; exec_char m 0 9 "T" "t" ]%char.
(** <sys/stat.h>, in octal: 010 regular, 004 directory, 012 link, 002 character and 006 block device, 014 socket, 001 FIFO *)
Definition type_char (t : N) : ascii :=
  match t with 8 => "-" | 4 => "d" | 10 => "l" | 2 => "c" | 6 => "b" | 12 => "s" | 1 => "p" | _ => "?" end%N%char.
Lemma perm_text_sweep : forallb (fun m => seqb (mtos_perm m) (perm_text m)) (nrange 0 4096) = true.
Proof. vm_compute. reflexivity. Qed.
Lemma perm_text_low m : perm_text (N.land m 4095) = perm_text m.
Proof. unfold perm_text, bit_char, exec_char. rewrite !N.land_spec. cbn [N.testbit Pos.testbit]. rewrite !andb_true_r. reflexivity. Qed.
Lemma type_sweep : forallb (fun t => ceqb (mtos_type (t * 4096)) (type_char t)) (nrange 0 16) = true.
Proof. vm_compute. reflexivity. Qed.
Theorem C35_exact : forall m, mtos m = type_char (m / 4096 mod 16) :: perm_text m.
Proof.
  intro m. rewrite mtos_unfold. f_equal.
  - pose proof type_sweep as T. rewrite forallb_forall in T. assert (B : (m / 4096 mod 16 < 16)%N) by (apply N.mod_lt; discriminate). specialize (T _ (nrange_In _ _ B)).
    destruct (ceqb_spec (mtos_type (m / 4096 mod 16 * 4096)) (type_char (m / 4096 mod 16))) as [E|E]; [|discriminate T]. rewrite <- E. unfold mtos_type.
    assert (Q : N.land m S_IFMT = N.land (m / 4096 mod 16 * 4096) S_IFMT).
    { change S_IFMT with (N.shiftl (N.ones 4) 12). change 16%N with (2 ^ 4)%N. change 4096%N with (2 ^ 12)%N. rewrite <- N.shiftr_div_pow2, <- N.land_ones, <- N.shiftl_mul_pow2. apply N.bits_inj. intro i. rewrite !N.land_spec.
      destruct (N.ltb_spec i 12) as [H|H]; [rewrite (N.shiftl_spec_low (N.ones 4) 12 i H), !andb_false_r; reflexivity|]. rewrite !(N.shiftl_spec_high' _ 12 i H), N.land_spec, N.shiftr_spec'. replace (i - 12 + 12)%N with i by lia. destruct (N.testbit m i), (N.testbit (N.ones 4) (i - 12)); reflexivity. }
    rewrite Q. reflexivity.
  - rewrite <- mtos_perm_low, <- perm_text_low. pose proof perm_text_sweep as T. rewrite forallb_forall in T. assert (B : (N.land m 4095 < 4096)%N) by (change 4095%N with (N.ones 12); rewrite N.land_ones; apply N.mod_lt; discriminate). specialize (T _ (nrange_In _ _ B)).
    destruct (seqb_spec (mtos_perm (N.land m 4095)) (perm_text (N.land m 4095))) as [E|E]; [exact E|discriminate T].
Qed.
Print Assumptions C35_exact.
