(** pkgrepo.cxx:62-127 and cards.cxx:185-193: 'cards keys'. Simplifications: a file is its content and its permission bits; the working
    directory is not a parameter: the public key goes to the path [pubfile]; key generation succeeds and gives some pair (the branches at
    l.75-89 throw before anything is written); writes to an open file and chmod on the file just written succeed. *)
From Verif Require Import Base BaseProofs StrModel FsModel MetaModel ConfModel.

Definition pstore := list (str * (str * N)).
(** fopen(path, "w"): an existing file keeps its permissions, a new one gets 0666 without the umask *)
Definition new_perm (umask : N) (p : str) (s : pstore) : N := match mget p s with Some (_, m) => m | None => N.ldiff 438 umask end.
Definition truncated (umask : N) (p : str) (s : pstore) : pstore := mset p ([], new_perm umask p s) s.
Definition put_text (p c : str) (s : pstore) : pstore := match mget p s with Some (_, m) => mset p (c, m) s | None => s end.
Definition chmod (p : str) (m : N) (s : pstore) : pstore := match mget p s with Some (c, _) => mset p (c, m) s | None => s end.
Definition private_file (keypath : str) : str := keypath ++ L "/.private.key".

Section Keys.
  Variable umask : N.
  (** whether a path can be opened for writing *)
  Variable can : str -> bool.
  (** cards.cxx:185-193: the user; the key directory of the configuration; the file "./.PKEY" (l.110-111) *)
  Variable uid : N.
  Variables keypath pubfile : str.
  (** the pair that is generated, as PEM texts *)
  Variables priv pub : str.

  (** the system calls in their order, each with the state it leaves; None: the run stops there with an exception *)
  Inductive step := Step (f : pstore -> pstore) | Write (p c : str) | Open (p : str).
  Definition program : list step :=
    [Open (private_file keypath); Write (private_file keypath) priv; Step (chmod (private_file keypath) 384); Open pubfile; Write pubfile pub].
  Definition do_step (x : step) (s : pstore) : option pstore :=
    match x with
    | Step f => Some (f s)
    | Write p c => Some (put_text p c s)
    | Open p => if can p then Some (truncated umask p s) else None
    end.
  Fixpoint run (l : list step) (s : pstore) : res unit * pstore :=
    match l with
    | [] => (Ok tt, s)
    | x :: t => match do_step x s with Some s' => run t s' | None => (Throw, s) end
    end.
  Definition keys_run (s : pstore) : res unit * pstore :=
    if (uid =? 0)%N || is_nil keypath then (Throw, s) else run program s.
  (** the states that another process, or the next boot, can see: before and after every step, and any beginning of a file being written *)
  Inductive seen : list step -> pstore -> pstore -> Prop :=
  | seen_now l s : seen l s s
  | seen_writing p c t s n : seen (Write p c :: t) s (put_text p (firstn n c) s)
  | seen_later x t s s1 s' : do_step x s = Some s1 -> seen t s1 s' -> seen (x :: t) s s'.
  Definition keys_seen (s s' : pstore) : Prop := if (uid =? 0)%N || is_nil keypath then s' = s else seen program s s'.
End Keys.
