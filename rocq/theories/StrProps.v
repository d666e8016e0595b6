(** Property theorems for string_utils.cxx: C31 - C35 and the key/value helpers. *)
From Verif Require Import Base BaseProofs StrModel StrSpec StrProofs.

(** C31: trimming. The result is the unique trimmed middle part of the input. *)
Theorem C31_strip_white_space : forall s,
  (exists a b, s = a ++ strip s ++ b /\ Forall white a /\ Forall white b) /\ no_outer_white (strip s).
Proof. exact strip_spec. Qed.
Print Assumptions C31_strip_white_space.

Theorem C31_strip_unique : forall a m b,
  Forall white a -> Forall white b -> no_outer_white m -> strip (a ++ m ++ b) = m.
Proof. exact strip_unique. Qed.
Print Assumptions C31_strip_unique.
Example C31_witness : Forall white (L "  ") /\ no_outer_white (L "a b") /\ strip (L "   a b  ") = L "a b".
Proof.
  split; [|split; [split|reflexivity]].
  - repeat (apply Forall_cons; [apply is_space_white; reflexivity|]). constructor.
  - intros c t E. inversion E; subst. rewrite <- is_space_nwhite. reflexivity.
  - intros t c E. destruct t as [|? [|? [|? [|? t]]]]; cbn in E; inversion E; subst; rewrite <- is_space_nwhite; reflexivity.
Qed.

Theorem C31_strip_idempotent : forall s, strip (strip s) = strip s.
Proof. exact strip_idem. Qed.
Print Assumptions C31_strip_idempotent.

Theorem C31_strip_blank : forall s, Forall white s -> strip s = [].
Proof. exact strip_blank. Qed.
Print Assumptions C31_strip_blank.

(** C32: splitting. Both splitters produce exactly the maximal runs outside the delimiters. *)
Theorem C32_split_tokens : forall s c, tokens (eq c) s (split_char s c).
Proof. exact split_char_tokens. Qed.
Print Assumptions C32_split_tokens.

Theorem C32_tokens_unique : forall d s ts1 ts2, tokens d s ts1 -> tokens d s ts2 -> ts1 = ts2.
Proof. exact tokens_det. Qed.
Print Assumptions C32_tokens_unique.

Theorem C32_tokens_wellformed : forall d s ts, tokens d s ts ->
  Forall (fun t => t <> [] /\ Forall (fun c => ~ d c) t) ts.
Proof. exact tokens_props. Qed.
Print Assumptions C32_tokens_wellformed.

Theorem C32_tokens_lose_nothing : forall c s ts, tokens (eq c) s ts ->
  concat ts = filter (fun x => negb (Ascii.eqb x c)) s.
Proof. exact tokens_concat. Qed.
Print Assumptions C32_tokens_lose_nothing.

Theorem C32_split_join_roundtrip : forall c ts,
  Forall (fun t => t <> [] /\ ~ In c t) ts -> split_char (join c ts) c = ts.
Proof. exact split_join. Qed.
Print Assumptions C32_split_join_roundtrip.
Example C32_roundtrip_witness :
  Forall (fun t => t <> [] /\ ~ In " "%char t) [L "gcc"; L "make"] /\
  split_char (L "  gcc   make ") " "%char = [L "gcc"; L "make"].
Proof. split; [repeat constructor; cbn; try discriminate; intuition discriminate | reflexivity]. Qed.

(** the strtok based splitter: always finishes; yields the tokens of the text before the first NUL *)
Theorem C32_strtok_tokens : forall s d,
  exists ts, split_strtok s d = Some ts /\ tokens (fun c => In c d) (cstr s) ts.
Proof. exact split_strtok_tokens. Qed.
Print Assumptions C32_strtok_tokens.

Theorem C32_splitters_agree : forall s c, ~ In zero s -> split_strtok s [c] = Some (split_char s c).
Proof. exact split_agree. Qed.
Print Assumptions C32_splitters_agree.
Example C32_agree_witness : ~ In zero (L "a b") /\ split_strtok (L "a b") [" "%char] = Some [L "a"; L "b"].
Proof. split; [cbn; intuition discriminate | reflexivity]. Qed.

Theorem C32_set_splitter : forall s d, exists ts S,
  split_strtok_set s d = Some S /\ tokens (fun c => In c d) (cstr s) ts /\
  (forall x, In x S <-> In x ts) /\ ssorted S.
Proof. exact split_set_In. Qed.
Print Assumptions C32_set_splitter.

(** value / key helpers used by the Pkgfile and configuration readers *)
Theorem C32_value_after_first : forall a c b, ~ In c a -> get_value (a ++ c :: b) c = b.
Proof. exact get_value_found. Qed.
Theorem C32_value_after_none : forall s c, ~ In c s -> get_value s c = [].
Proof. exact get_value_none. Qed.
Theorem C32_value_before_first : forall a c b, ~ In c a -> get_value_before (a ++ c :: b) c = a.
Proof. exact get_value_before_found. Qed.
Theorem C32_value_before_last : forall a c b, ~ In c b -> get_value_before_last (a ++ c :: b) c = a.
Proof. exact get_value_before_last_found. Qed.
Theorem C32_key_value : forall a c b, ~ In c a -> split_key_value (a ++ c :: b) c = (strip a, strip b).
Proof. exact split_key_value_found. Qed.
Theorem C32_last_definition_wins : forall content d param,
  get_value_of_key content d param =
  match find (fun line => key_line line d && seqb param (fst (split_key_value (strip line) d)))
             (rev (getlines content)) with
  | Some line => strip (snd (split_key_value (strip line) d))
  | None => []
  end.
Proof. exact get_value_of_key_spec. Qed.
Print Assumptions C32_last_definition_wins.
Example C32_values_witness :
  get_value (L "version=1=2") "="%char = L "1=2" /\ get_value_before_last (L "a.b.c") "."%char = L "a.b" /\
  get_value_of_key (L "#x=0
x = 1
y=3
x= 2") "="%char (L "x") = L "2".
Proof. vm_compute. auto. Qed.

(** C33: replaceAll. Whenever it ends, no occurrence is left ... *)
Theorem C33_replace_all_complete : forall fuel old new s r,
  replace_all fuel old new s = Some r -> ~ occurs old r.
Proof. exact replace_all_result. Qed.
Print Assumptions C33_replace_all_complete.

(** ... it ends for one-character patterns absent from the replacement (every call in the code base is of this kind),
    with the expected result ... *)
Theorem C33_replace_all_char : forall c new s, ~ In c new ->
  exists fuel, replace_all fuel [c] new s = Some (subst_char c new s).
Proof. exact replace_all_char. Qed.
Print Assumptions C33_replace_all_char.
(** ... and for shrinking replacements ... *)
Theorem C33_replace_all_shrinking : forall old new s, length new < length old ->
  exists r, replace_all (S (length s)) old new s = Some r.
Proof. exact replace_all_shrinks. Qed.
Print Assumptions C33_replace_all_shrinking.
(** ... but NOT in general: if the replacement contains the pattern, one occurrence makes the loop endless. *)
Theorem C33_replace_all_endless : forall fuel old new s,
  occurs old new -> occurs old s -> replace_all fuel old new s = None.
Proof. exact replace_all_diverges. Qed.
Print Assumptions C33_replace_all_endless.
Theorem C33_replace_all_terminates_refuted :
  ~ (forall old new s, exists fuel r, replace_all fuel old new s = Some r).
Proof.
  intro H. destruct (H (L "/") (L "//") (L "a/b")) as [f [r E]].
  rewrite replace_all_diverges in E; [discriminate | exists [], (L "/"); reflexivity | exists (L "a"), (L "b"); reflexivity].
Qed.
Print Assumptions C33_replace_all_terminates_refuted.
Example C33_witness : replace_all 10 (L ",") (L " ") (L "a,b,,c") = Some (L "a b  c") /\ ~ In ","%char (L " ").
Proof. split; [reflexivity | cbn; intuition discriminate]. Qed.

(** C34: numbers *)
Theorem C34_itos : forall v, (v < 2 ^ 32)%N -> itos v = Buf (dec v).
Proof. exact itos_spec. Qed.
Print Assumptions C34_itos.
Theorem C34_decimal_text : forall n, (n < 2 ^ 64)%N ->
  dec n <> [] /\ Forall is_digit (dec n) /\ read_dec (dec n) = n /\ (forall t, dec n = "0"%char :: t -> t = []).
Proof. exact dec_spec. Qed.
Print Assumptions C34_decimal_text.
(** ultos stays in its buffer exactly for the values below 10^19; above it overflows by one byte *)
Theorem C34_ultos_partial : forall v, (v < 2 ^ 64)%N ->
  (ultos v = Buf (dec v) /\ (v < 10 ^ 19)%N) \/ (ultos v = BufOverflow /\ (10 ^ 19 <= v)%N).
Proof. exact ultos_spec. Qed.
Print Assumptions C34_ultos_partial.
Theorem C34_ultos_refuted : exists v, (v < 2 ^ 64)%N /\ ultos v = BufOverflow.
Proof. exists (10 ^ 19)%N. vm_compute. auto. Qed.
Print Assumptions C34_ultos_refuted.
Example C34_witness : itos 1234567 = Buf (L "1234567") /\ ultos 18446744073709551615 = BufOverflow.
Proof. vm_compute. auto. Qed.

(** C35: mode strings *)
Theorem C35_mode_permissions : forall m1 m2, mtos m1 = mtos m2 -> N.land m1 4095 = N.land m2 4095.
Proof. exact mtos_perm_inj. Qed.
Print Assumptions C35_mode_permissions.
Theorem C35_mode_type : forall m1 m2, mtos m1 = mtos m2 ->
  In (N.land m1 61440) [32768; 16384; 40960; 8192; 24576; 49152; 4096]%N ->
  N.land m1 61440 = N.land m2 61440.
Proof. exact mtos_type_inj. Qed.
Print Assumptions C35_mode_type.
Theorem C35_mode_length : forall m, length (mtos m) = 10.
Proof. exact mtos_length. Qed.
Example C35_witness : mtos 33261 = L "-rwxr-xr-x" /\ mtos 35309 = L "-rwsr-xr-x" /\
  In (N.land 33261 61440) [32768; 16384; 40960; 8192; 24576; 49152; 4096]%N.
Proof. vm_compute. auto 10. Qed.

(** case-insensitive helpers *)
Theorem C35_lower_case_idempotent : forall s, lower_case (lower_case s) = lower_case s.
Proof. exact lower_case_idem. Qed.
Theorem C35_starts_with_nocase : forall s1 s2, starts_with_nocase s1 s2 = true <->
  exists p r, s1 = p ++ r /\ upper_case p = upper_case s2.
Proof. exact starts_with_nocase_spec. Qed.
Print Assumptions C35_starts_with_nocase.
