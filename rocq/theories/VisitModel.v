(** The record of the searches of the web site: webcards.cxx:110-120, 455-459. Every request is a process of its own (CGI); each adds a line
    to content/.visits, at the end the file has when the process looks for it, through a stream whose buffer is passed on when it is full and
    when it is closed. Simplifications: the file is not removed or shortened by anyone; a write takes all its bytes; the time is the number
    time() gives; printing it with "%d" gives its low 32 bits as a signed number (x86-64; the C standard leaves it undefined). *)
From Verif Require Import Base StrModel ConfModel WebModel.
From Coq Require Import ZArith.
Open Scope nat_scope.

Record request := Rq { q_text : str; q_time : Z }.
Definition as_int (t : Z) : Z := let n := (t mod 2 ^ 32)%Z in if (n <? 2 ^ 31)%Z then n else (n - 2 ^ 32)%Z.
Definition show_int (z : Z) : str := if (z <? 0)%Z then "-"%char :: dec (Z.to_N (- z)) else dec (Z.to_N z).
(** webcards.cxx:117 *)
Definition visit_line (q : request) : str := show_int (as_int (q_time q)) ++ L "," ++ q_text q ++ [nl].
(** webcards.cxx:455-459 *)
Definition recorded (q : request) : bool := negb (is_nil (a_pkg (web_args (q_text q)))).

(** a process: not yet there; the place it writes at, what it has written and what is left; finished, or dead *)
Inductive visitor := Idle (q : request) | At (pos : nat) (done left : str) | Over.
(** write(2) at a place *)
Definition overwrite (pos : nat) (b f : str) : str := firstn pos f ++ b ++ skipn (pos + length b) f.
Section Visit.
Variable cap : nat.    (** the size of the buffer: a line that fits is written at once *)
Inductive moves : option str * visitor -> option str * visitor -> Prop :=
  (* webcards.cxx:112-116: open for reading and writing, look for the end *)
| m_begin f q : recorded q = true -> moves (Some f, Idle q) (Some f, At (length f) [] (visit_line q))
| m_no_file q : moves (None, Idle q) (None, Over)
| m_no_search file q : recorded q = false -> moves (file, Idle q) (file, Over)
  (* webcards.cxx:117-118 *)
| m_write f pos d a b : a <> [] -> b = [] \/ cap < length (d ++ a ++ b) -> moves (Some f, At pos d (a ++ b)) (Some (overwrite pos a f), At (pos + length a) (d ++ a) b)
| m_end file pos d : moves (file, At pos d []) (file, Over).
(** a run of one process *)
Inductive runs : option str * visitor -> option str * visitor -> Prop :=
| r_here x : runs x x
| r_more x y z : moves x y -> runs y z -> runs x z.
(** any of them moves, or is killed *)
Inductive step : option str * list visitor -> option str * list visitor -> Prop :=
| s_move f f' a p p' b : moves (f, p) (f', p') -> step (f, a ++ p :: b) (f', a ++ p' :: b)
| s_kill f a p b : step (f, a ++ p :: b) (f, a ++ Over :: b).
Inductive reaches : option str * list visitor -> option str * list visitor -> Prop :=
| g_here x : reaches x x
| g_more x y z : reaches x y -> step y z -> reaches x z.
End Visit.
