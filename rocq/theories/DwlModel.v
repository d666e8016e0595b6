(** One download as the bytes arrive: dwl.cxx:17-46, 47-110, 112-136. The pieces libcurl hands over (an empty one is possible) are written through a
    buffered stream, opened at the first piece; after each piece the C library has passed on some of what it holds. The world says
    whether the file can be opened, how many bytes the device still takes for it, and how the transfer ends. Simplifications: a file is
    its content and modification time; nothing else writes to the device; a failed stream, never closed (dwl.cxx:97-100), passes on some
    part of what it holds when the process ends; the directories exist (MkdirModel); the progress line is left out. *)
From Verif Require Import Base.
From Coq Require Import ZArith.
Open Scope nat_scope.

(** what is on disk under the name (None: nothing), what the stream holds back, whether it is open *)
Record dst := D { d_disk : option (str * Z); d_pend : str; d_open : bool }.
(** one piece, and how many of the bytes held back are passed on after it *)
Definition piece := (str * nat)%type.
(** the end of the transfer: the server's date for the file (-1 if it states none); or a failure, and how much of what is held back is passed on *)
Inductive ending := Good (date : Z) | Bad (rest : nat).

Section Get.
Variables (can_open : bool) (room : nat) (now : Z).
Definition on_disk (s : dst) : str := match d_disk s with Some (c, _) => c | None => [] end.
(** passes on [k] bytes, or fewer when the device is full: then the write fails *)
Definition pass (k : nat) (s : dst) : dst * bool :=
  let k := min k (length (d_pend s)) in
  let n := min k (room - length (on_disk s)) in
  (D (Some (on_disk s ++ firstn n (d_pend s), now)) (skipn n (d_pend s)) true, n =? k).
(** dwl.cxx:123-136. false: fewer bytes were taken than given, so libcurl ends the transfer *)
Definition take_piece (p : piece) (s : dst) : dst * bool :=
  if d_open s || can_open then
    let s1 := if d_open s then s else D (Some ([], now)) [] true in
    pass (snd p) (D (d_disk s1) (d_pend s1 ++ fst p) true)
  else (s, false).
Fixpoint take_pieces (ps : list piece) (s : dst) : dst * bool :=
  match ps with
  | [] => (s, true)
  | p :: t => let '(s1, ok) := take_piece p s in if ok then take_pieces t s1 else (s1, false)
  end.
Definition start (old : option (str * Z)) : dst := D old [] false.
(** dwl.cxx:71-110: what is then on disk, and whether it returns (false: it throws). The result of fclose() is not looked at. *)
Definition get (ps : list piece) (e : ending) (old : option (str * Z)) : option (str * Z) * bool :=
  let '(s, ok) := take_pieces ps (start old) in
  match e, ok with
  | Good date, true => if d_open s then (match d_disk (fst (pass (length (d_pend s)) s)) with Some (c, _) => Some (c, date) | None => None end, true) else (d_disk s, true)
  | Good _, false => (d_disk s, false)
  | Bad rest, _ => (if d_open s then d_disk (fst (pass rest s)) else d_disk s, false)
  end.
End Get.

(** dwl.cxx:28-45: what is asked for, and where it goes *)
Record want := W { w_name : str; w_url : str; w_dir : str }.
Definition public_key : str := L "/.PKEY".
Definition sent_name (w : want) : str := if seqb (w_name w) public_key then w_name w else w_name w ++ L ".zst".
Definition asked_url (w : want) : str := w_url w ++ sent_name w.
Definition stored_at (w : want) : str := w_dir w ++ sent_name w.
(** how each download goes *)
Record course := C { k_open : bool; k_room : nat; k_now : Z; k_pieces : list piece; k_end : ending }.
Definition put_at (p : str) (v : option (str * Z)) (fs : list (str * (str * Z))) : list (str * (str * Z)) := match v with Some c => mset p c fs | None => fs end.
Fixpoint get_all (l : list (want * course)) (fs : list (str * (str * Z))) : list (str * (str * Z)) * bool :=
  match l with
  | [] => (fs, true)
  | (w, k) :: t => let '(v, ok) := get (k_open k) (k_room k) (k_now k) (k_pieces k) (k_end k) (mget (stored_at w) fs) in
                   if ok then get_all t (put_at (stored_at w) v fs) else (put_at (stored_at w) v fs, false)
  end.
