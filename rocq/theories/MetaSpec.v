(** Specification vocabulary for META lines. *)
From Verif Require Import Base BaseProofs StrSpec FsModel FsProofs MetaModel.

(** lines that fit the reading buffer *)
Definition good_lines (ls : list str) : Prop := Forall (fun l => ~ In nl l /\ ~ In zero l /\ length l < BUFSIZ - 1) ls.
(** the value of the one-valued field [c]: of the lines starting with [c] the greatest; with no such line, the default *)
Inductive field (c : ascii) (ls : list str) {A} (read : str -> A) (dflt : A) : A -> Prop :=
| field_line v : In (c :: v) ls -> (forall w, In (c :: w) ls -> w = v \/ slt w v) -> field c ls read dflt (read v)
| field_none : (forall w, ~ In (c :: w) ls) -> field c ls read dflt dflt.
(** ten characters holding a decimal number without leading zero *)
Definition date (s : str) : Prop := length s = 10 /\ Forall is_digit s /\ hd zero s <> "0"%char.
