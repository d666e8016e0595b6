(** process.cxx: the result of running an external program; cache.cxx: status flags. *)
From Verif Require Import Base.
From Coq Require Import ZArith.

(** how a child ends: exit(2) with a status byte, or a signal (waitpid without WUNTRACED reports nothing else) *)
Inductive child := Exited (code : Z) | Killed (signal : Z) (core : bool).
Definition child_ok (c : child) : Prop := match c with Exited n => (0 <= n < 256)%Z | Killed s _ => (1 <= s <= 126)%Z end.
(** what happens to the call: fork(2) fails, waitpid(2) fails (EINTR, ECHILD: status not written), or the child's end is reported *)
Inductive outcome := ForkFailed | WaitFailed | Ended (c : child).
(** wait(2): the encoding of the status word on Linux *)
Definition wait_status (c : child) : Z :=
  match c with Exited n => (n * 256)%Z | Killed s core => (s + if core then 128 else 0)%Z end.
(** process.cxx:116-136 exec, 197-217 execShell (and 71-114, 151-195 with a log: the same values); C division truncates *)
Definition run_status (o : outcome) : Z :=
  let status := match o with ForkFailed => -1 | WaitFailed => -1 | Ended c => wait_status c end%Z in
  Z.quot status 256.
(** pkgdbh.cxx:1222, pkgadd.cxx:150, pkgrm.cxx:53, 98: a script failed when the value is not 0 *)
Definition reported_failed (o : outcome) : bool := negb (run_status o =? 0)%Z.

(** cache.cxx:23-34, 67-78; enum.h:71-77. The enumeration is stored in an unsigned int. *)
Definition word := N.
Definition set_status (w f : word) : word := N.lor w f.
Definition unset_status (w f : word) : word := N.land w (N.lxor (N.ones 32) f).
Inductive flag := Installed | ToInstall | ToRemove | ToUpgrade.
Definition flag_value (f : flag) : word := match f with Installed => 1 | ToInstall => 2 | ToRemove => 4 | ToUpgrade => 8 end%N.
Definition has_flag (w : word) (f : flag) : bool := negb (N.land w (flag_value f) =? 0)%N.
Inductive sop := SetF (f : flag) | UnsetF (f : flag).
Definition sapply (w : word) (o : sop) : word := match o with SetF f => set_status w (flag_value f) | UnsetF f => unset_status w (flag_value f) end.
(** cache.cxx:7-10 *)
Definition sstart : word := 0%N.
