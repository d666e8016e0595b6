(** cards.cxx:29-280: which database, which configuration file and which user each cards command works with. *)
From Verif Require Import Base StrModel FsModel ArgModel.

(** the options --root and --conf (cards_argument_parser.cxx:214-218, 248-252; their numbers in ArgModel) *)
Definition o_root : nat := 10.
Definition o_conf : nat := 2.
(** cards.cxx:35-36, 45-50 *)
Definition main_root (set : list (nat * str)) : str := match opt_value o_root set with Some v => v ++ L "/" | None => L "/" end.
Definition main_conf (set : list (nat * str)) : str := match opt_value o_conf set with Some v => main_root set ++ v | None => L "/etc/cards.conf" end.
(** the root of the object that works on the database: pkgdbh.cxx:10-26 ("/" unless changed), install.cxx:101-105, remove.cxx:12-14,
    upgrade.cxx:14-15 (no "/" is appended there); create.cxx:136-142 and the others never look at --root *)
Definition engine_root (cmd : str) (set : list (nat * str)) : str :=
  match opt_value o_root set with
  | Some v => if seqb cmd (L "install") || seqb cmd (L "remove") then v ++ L "/" else if seqb cmd (L "upgrade") then v else L "/"
  | None => L "/"
  end.
(** pkgdbh.cxx:401, 414, 454, 484, 621, ...: the directory of the database; define.h:50 *)
Definition db_path (root : str) : str := root ++ L "var/lib/pkg/DB/".
(** lock.cxx:17: the directory that is locked. Simplification: trimFileName, which does not change the directory, is left out. *)
Definition lock_path (root : str) : str := root ++ L "/" ++ L "var/lib/pkg/DB/".
(** the database that the repository object reads: pkgrepo.cxx:7-16 with pkgdbh.cxx:19-26; it has no option *)
Definition repo_db (set : list (nat * str)) : str := db_path (L "/").
(** the configuration file: create.cxx:7-10, level.h:13, depends.h:16, dependent.h:16, deptree.h:15 have a fixed one; sync.cxx:11-13 puts
    its own "/" in front; the others take the one of main. 'help' reads none. *)
Definition fixed_conf (cmd : str) : bool := existsb (seqb cmd) (map L ["create"; "level"; "depends"; "dependent"; "deptree"]%string).
Definition config_path (cmd : str) (set : list (nat * str)) : option str :=
  if seqb cmd (L "help") then None
  else if fixed_conf cmd then Some (L "/etc/cards.conf")
  else if seqb cmd (L "sync") then Some (L "/" ++ main_conf set)
  else Some (main_conf set).
(** the user: cards.cxx:178-181, 236-239 (sync, purge), install.cxx:107-110, create.cxx:138-141, pkgrm.cxx:62-66 (every package that
    'remove' removes), upgrade.cxx:106-111 (not with --download-only) want root; cards.cxx:186-189, 195-198 (keys, repo) want somebody
    else. [Refused]: an exception; for 'remove' and 'upgrade' it comes when there is something to do, the others are refused at once. *)
Inductive permission := Allowed | Refused.
Definition permits (cmd : str) (set : list (nat * str)) (uid : nat) : permission :=
  if existsb (seqb cmd) (map L ["sync"; "purge"; "install"; "create"; "remove"]%string) then (if uid =? 0 then Allowed else Refused)
  else if seqb cmd (L "upgrade") then (if is_set 4 set then Allowed else if uid =? 0 then Allowed else Refused)
  else if existsb (seqb cmd) (map L ["keys"; "repo"]%string) then (if uid =? 0 then Refused else Allowed)
  else Allowed.
(** upgrade.cxx:17-50, 101-116, 128-131: whether the command can get as far as changing anything; sync.cxx:18-19: diff (diff.cxx:10)
    and upgrade synchronise first when root runs them *)
Definition up_acts (set : list (nat * str)) : bool := negb (is_set 8 set) && negb (is_set 7 set) && negb (is_set 3 set) && negb (is_set 4 set).
Definition syncs (cmd : str) (uid : nat) : bool := (uid =? 0) && existsb (seqb cmd) (map L ["sync"; "diff"; "upgrade"]%string).
