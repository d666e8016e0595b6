(** Specification vocabulary for string_utils.cxx, independent of the model's helpers. *)
From Verif Require Import Base.

(** white space: tab, newline, vertical tab, form feed, carriage return, blank *)
Definition white (c : ascii) : Prop :=
  In c ["009"%char; "010"%char; "011"%char; "012"%char; "013"%char; " "%char].

(** no white space at either end *)
Definition no_outer_white (s : str) : Prop :=
  (forall c t, s = c :: t -> ~ white c) /\ (forall t c, s = t ++ [c] -> ~ white c).

(** [tokens d s ts]: ts are, in order, the maximal non-empty runs of s outside the delimiters d *)
Inductive tokens (d : ascii -> Prop) : str -> list str -> Prop :=
| tok_end s : Forall d s -> tokens d s []
| tok_one a t r ts :
    Forall d a -> t <> [] -> Forall (fun c => ~ d c) t ->
    (r = [] \/ exists c r', r = c :: r' /\ d c) ->
    tokens d r ts -> tokens d (a ++ t ++ r) (t :: ts).

(** tokens joined by one delimiter *)
Fixpoint join (c : ascii) (ts : list str) : str :=
  match ts with
  | [] => []
  | [t] => t
  | t :: ts' => t ++ c :: join c ts'
  end.

(** reading a decimal number *)
Definition digit_value (c : ascii) : N := N_of_ascii c - 48.
Definition read_dec (s : str) : N := fold_left (fun a c => 10 * a + digit_value c)%N s 0%N.
Definition is_digit (c : ascii) : Prop := (48 <= N_of_ascii c <= 57)%N.

(** replacing every occurrence of one character by a text *)
Definition subst_char (c : ascii) (new : str) (s : str) : str :=
  flat_map (fun x => if Ascii.eqb x c then new else [x]) s.
