(** Running a build with a log: process.cxx:71-114 execLog and 151-195 execShellLog (used by create.cxx:594-596).
    Small steps of three actors: the child (pkgmk), a process the child left behind in the background, and cards.
    Simplifications: one background process stands for all; write(2) to the log file always succeeds; pipe(2) and fork(2) succeed
    (for fork see C43); what pkgmk writes is arbitrary. *)
From Verif Require Import Base MetaModel.

Inductive child_st := Running (** has the pipe *) | Closed (** runs, has closed the pipe *) | Gone (** has ended *).
(** where cards is: before waitpid(WNOHANG) (l.173), before read (l.174), behind the loop (l.183) *)
Inductive where_st := Poll | Read | Done.
Record lst := St {
  l_child : child_st; l_held : bool (** a background process has the pipe *);
  l_pipe : str (** written and not yet read *); l_where : where_st;
  l_log : str; l_echo : str (** what was printed on the terminal *);
  l_out : str (** all that was ever written to the pipe (not a variable of the program) *) }.
(** process.cxx:171: char readbuf[1024], of which one byte is kept for the final zero *)
Definition chunk : nat := 1023.
Section Log.
  (** capacity of a pipe *)
  Variable cap : nat.
  Inductive step : lst -> lst -> Prop :=
  (** the child, or the background process, writes; a writer waits while the pipe is full *)
  | st_write c h p w lg ec o x : c = Running \/ h = true -> length (p ++ x) <= cap -> step (St c h p w lg ec o) (St c h (p ++ x) w lg ec (o ++ x))
  | st_background p w lg ec o h : step (St Running h p w lg ec o) (St Running true p w lg ec o)
  | st_release c p w lg ec o : step (St c true p w lg ec o) (St c false p w lg ec o)
  | st_close h p w lg ec o : step (St Running h p w lg ec o) (St Closed h p w lg ec o)
  | st_exit c h p w lg ec o : c <> Gone -> step (St c h p w lg ec o) (St Gone h p w lg ec o)
  (** process.cxx:173: waitpid with WNOHANG gives 0 while the child runs *)
  | st_alive c h p lg ec o : c <> Gone -> step (St c h p Poll lg ec o) (St c h p Read lg ec o)
  | st_ended h p lg ec o : step (St Gone h p Poll lg ec o) (St Gone h p Done lg ec o)
  (** process.cxx:174-180: read gives at most 1023 bytes; printf("%s") prints up to the first zero; the log gets all of them *)
  | st_read c h x p lg ec o : x <> [] -> length x <= chunk -> step (St c h (x ++ p) Read lg ec o) (St c h p Read (lg ++ x) (ec ++ cstr x) o)
  (** read gives 0: the pipe is empty and nobody can write to it any more *)
  | st_eof c lg ec o : c <> Running -> step (St c false [] Read lg ec o) (St c false [] Poll lg ec o).
  Inductive steps (s : lst) : lst -> Prop :=
  | steps_none : steps s s
  | steps_more t u : steps s t -> step t u -> steps s u.
  (** process.cxx:154-171: after fork *)
  Definition start : lst := St Running false [] Poll [] [] [].
End Log.
