(** Specification vocabulary for paths and file systems. *)
From Verif Require Import Base StrSpec FsModel.

(** [q] is strictly below [p] *)
Definition below (p q : path) : Prop := exists r, r <> [] /\ q = p ++ r.
Definition dir_at (f : fs) (p : path) : Prop := exists n, fget f p = Some n /\ n_kind n = KDir.
(** a tree: the root is a directory and the parent of every node is a directory *)
Definition tree (f : fs) : Prop :=
  dir_at f [] /\ forall p c, fget f (p ++ [c]) <> None -> dir_at f p.

(** one file name component *)
Definition comp (c : str) : Prop := c <> [] /\ ~ In slash c /\ c <> L ".".
(** the usual spelling of a path relative to a root: components separated by one slash, a trailing slash for directories only *)
Inductive plain : str -> path -> Prop :=
| plain_file cs : cs <> [] -> Forall comp cs -> plain (join slash cs) cs
| plain_dir cs : cs <> [] -> Forall comp cs -> plain (join slash cs ++ [slash]) cs.

(** every run of slashes reduced to one *)
Fixpoint squeeze (s : str) : str :=
  match s with
  | [] => []
  | c :: t => match t with
              | d :: _ => if Ascii.eqb c slash && Ascii.eqb d slash then squeeze t else c :: squeeze t
              | [] => [c]
              end
  end.
