(** The log of flcards (fltk/cards_log.cxx). A schedule is the sequence in which the threads get through: a call of log from another thread
    than the one that created the logger does its work under the mutex, as loopCallback does; subscribing, loopCallback and the calls of log by
    the creating thread all happen in that one thread (fltk/flcards.cxx:46-50, which main does not start at present), so that each call is one step. *)
From Verif Require Import Base StrModel.

(** fltk/cards_log.h:16-22, cards_log.cxx:62-85 *)
Inductive level := Debug | Error | Info | Warning.
Definition tag (l : level) : str := match l with Debug => L "Debug : " | Error => L "Error : " | Info => L "Info : " | Warning => L "Warning : " end.
Definition line_of (l : level) (m : str) : str := tag l ++ m ++ [ascii_of_nat 10].

Inductive act :=
  | Log (main : bool) (l : level) (m : str)   (** [main]: by the thread that created the logger *)
  | Loop                                      (** loopCallback, every 0.2 s *)
  | Sub (s : nat)
  | Unsub (s : nat).

(** m_ArrMessages, m_ArrSubscribers (cards_log.h), and what OnLogMessage has been called with *)
Record log := Lg { l_queue : list str; l_subs : list nat; l_out : list (nat * str) }.
Definition empty_log : log := Lg [] [] [].

(** src/define.h:150 *)
Definition MAX_BUFFER : nat := 50.
(** fltk/cards_log.cxx:95-98 *)
Fixpoint trim (fuel : nat) (q : list str) : list str :=
  match fuel, q with S k, _ :: t => if MAX_BUFFER <? length q then trim k t else q | _, _ => q end.
(** fltk/cards_log.cxx:129-135 *)
Definition send (m : str) (g : log) : log := Lg (l_queue g) (l_subs g) (l_out g ++ map (fun s => (s, m)) (l_subs g)).
(** std::vector::erase(find(...)) *)
Fixpoint erase (s : nat) (l : list nat) : list nat := match l with [] => [] | x :: t => if x =? s then t else x :: erase s t end.

Definition step (a : act) (g : log) : log :=
  match a with
  (* fltk/cards_log.cxx:60-101 *)
  | Log true l m => send (line_of l m) g
  | Log false l m => let q := l_queue g ++ [line_of l m] in Lg (trim (length q) q) (l_subs g) (l_out g)
  (* fltk/cards_log.cxx:43-55 *)
  | Loop => let g' := fold_left (fun g m => send m g) (l_queue g) g in Lg [] (l_subs g') (l_out g')
  (* fltk/cards_log.cxx:106-112, 117-124 *)
  | Sub s => if existsb (Nat.eqb s) (l_subs g) then g else Lg (l_queue g) (l_subs g ++ [s]) (l_out g)
  | Unsub s => Lg (l_queue g) (erase s (l_subs g)) (l_out g)
  end.
Definition run (l : list act) : log := fold_left (fun g a => step a g) l empty_log.
