(** Specification vocabulary for the package database on disk. *)
From Verif Require Import Base BaseProofs StrModel StrSpec FsModel FsSpec MetaModel DbModel.

(** package [n] lists [x]: [x] is a non-empty line of its file list *)
Definition lists (d : disk) (n x : str) : Prop :=
  exists dir c, mget n d = Some dir /\ mget (L "files") dir = Some c /\ In x (getlines c) /\ x <> [].
(** the packages an archive may be named: no leading dot (a dot directory is not seen when the database is loaded) *)
Definition named (junk : bool) (machine root : str) (a : archive) : Prop :=
  forall name r, open_archive junk machine root a = Ok (name, r) -> forall v, name <> "."%char :: v.

(** ** Archives *)
(** the first entry of that name *)
Definition entry (a : archive) (name : str) (n : node) : Prop :=
  exists before after, a = before ++ (name, n) :: after /\ forall m, ~ In (name, m) before.
(** [t] is [s] up to its first NUL byte *)
Definition until_nul (s t : str) : Prop := ~ In zero t /\ (s = t \/ exists r, s = t ++ zero :: r).
(** the non-empty lines of a member (the last byte of a member is its final newline) *)
Definition member_text (a : archive) (name : str) (ls : list str) : Prop :=
  exists n t, entry a name n /\ n_data n <> [] /\ until_nul (removelast (n_data n)) t /\ tokens (eq nl) t ls.
(** the package name: the first N line of the META member *)
Definition archive_name (a : archive) (name : str) : Prop :=
  exists ls before after, member_text a (L ".META") ls /\ ls = before ++ ("N"%char :: name) :: after /\
    forall v, ~ In ("N"%char :: v) before.
(** the files of the package: the lines of the MTREE member not starting with a dot *)
Definition ships (a : archive) (x : str) : Prop :=
  exists ls, member_text a (L ".MTREE") ls /\ In x ls /\ forall v, x <> "."%char :: v.
(** the archives of an operation *)
Definition op_archives (x : op) : list archive :=
  match x with Add _ _ _ a => [a] | Many _ _ _ l _ => map snd l | Remove _ _ _ => [] end.
Definition no_dot_name (a : archive) : Prop := forall v, ~ archive_name a ("."%char :: v).
