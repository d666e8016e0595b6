(** What is found on disk after an interruption. *)
From Verif Require Import Base BaseProofs StrModel FsModel MetaModel DbModel CrashModel.

(** [d] is a possible content of the database after an interruption in state [p] *)
Definition image (power : bool) (p : pdisk) (d : disk) : Prop :=
  forall n, match mget n p, mget n d with
            | None, None => True
            | Some pd, Some dd =>
                forall f, match mget f pd, mget f dd with
                          | None, None => True
                          | Some c, Some s => s = cur c \/ (power = true /\ synced c = false)
                          | _, _ => False
                          end
            | _, _ => False
            end.
(** [d] is found after an interruption somewhere in the calls [cs] started on [d0] *)
Definition interrupted (power : bool) (cs : list call) (d0 d : disk) : Prop :=
  exists before after, cs = before ++ after /\ image power (execs (lift d0) before) d.
(** ... strictly between the first and the last call *)
Definition interrupted_inside (power : bool) (cs : list call) (d0 d : disk) : Prop :=
  exists before after, before <> [] /\ after <> [] /\ cs = before ++ after /\ image power (execs (lift d0) before) d.
(** the content of one file of the database *)
Definition file_in (d : disk) (n f : str) : option str := match mget n d with Some dir => mget f dir | None => None end.
