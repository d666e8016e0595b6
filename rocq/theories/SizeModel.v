(** Sizes as they are shown: string_utils.cxx:29-47 sizeHumanRead; define.h:37-39.
    KILO, MEGA and GIGA are doubles, so the value is converted to double (round to nearest, ties to even, 53 bits); the division by a
    power of two is exact; "%5.2f" prints the exact value rounded to hundredths (ties to even, glibc), in at least five columns. *)
From Verif Require Import Base StrModel.
Open Scope N_scope.

(** a / b, rounded to nearest, ties to even *)
Definition round_even (a b : N) : N :=
  let q := a / b in let r := a mod b in
  if 2 * r <? b then q else if b <? 2 * r then q + 1 else if N.even q then q else q + 1.
Definition to_double (v : N) : N := if v <? 2 ^ 53 then v else let u := 2 ^ (N.log2 v - 52) in round_even v u * u.
Definition hundredths (v unit : N) : N := round_even (100 * to_double v) unit.
Definition two (n : N) : str := [digit (n / 10); digit (n mod 10)].
Definition pad5 (s : str) : str := repeat " "%char (5 - length s) ++ s.
Definition fmt (v unit : N) (letter : ascii) : str :=
  let h := hundredths v unit in pad5 (dec (h / 100) ++ "."%char :: two (h mod 100)) ++ [" "%char; letter].
(** string_utils.cxx:29-47; [v] is an unsigned long *)
Definition size_text (v : N) : str :=
  if to_double v <? 2 ^ 10 then dec v
  else if to_double v <? 2 ^ 20 then fmt v (2 ^ 10) "K"%char
  else if to_double v <? 2 ^ 30 then fmt v (2 ^ 20) "M"%char
  else fmt v (2 ^ 30) "G"%char.
(** dwl.cxx:158: static_cast<int> of a curl_off_t (64 bits), then converted to unsigned long *)
Definition progress_text (dlnow : N) : str :=
  let i := dlnow mod 2 ^ 32 in size_text (if i <? 2 ^ 31 then i else 2 ^ 64 - 2 ^ 32 + i).
