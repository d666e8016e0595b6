(** Crash points of the operations on the database directory: pkgdbh.cxx:768-812 addPackageFilesRefsToDB,
    650-706 moveMetaFilesPackage, 902-930 removePackageFilesRefsFromDB, as sequences of system calls.
    Two kinds of interruption:
    - the process is killed (power = false): the disk holds exactly what was written so far;
    - the machine stops (power = true): directory operations are kept in order (ordered metadata journal), but the content of a
      file that was not fsynced since its last change may be anything.
    Simplifications: one write(2) per chunk of the output buffer, chunks arbitrary; errors of the calls are not modelled. *)
From Verif Require Import Base StrModel FsModel MetaModel DbModel.

(** a file: current content, and whether it is safe on disk *)
Record cell := Cell { cur : str; synced : bool }.
Definition pdir := list (str * cell).
Definition pdisk := list (str * pdir).
Definition lift_dir (d : dbdir) : pdir := map (fun e => (fst e, Cell (snd e) true)) d.
Definition lift (d : disk) : pdisk := map (fun e => (fst e, lift_dir (snd e))) d.

Inductive call :=
| CMkdir (n : str)               (* mkdir(2); an existing directory is left alone *)
| CCreat (n f : str)             (* creat(2), or ofstream: created or truncated *)
| CWrite (n f s : str)           (* write(2) at the end *)
| CFsync (n f : str)             (* fsync(2) *)
| CRename (n f g : str)          (* rename(2) inside the package directory *)
| CMoveIn (n f s : str)          (* rename(2) of an unpacked file into the package directory *)
| CUnlink (n f : str)            (* unlink(2) *)
| CRmdir (n : str).              (* rmdir(2): fails unless the directory is empty *)
Definition pget (p : pdisk) (n : str) : pdir := match mget n p with Some d => d | None => [] end.
Definition exec (p : pdisk) (c : call) : pdisk :=
  match c with
  | CMkdir n => match mget n p with Some _ => p | None => mset n [] p end
  | CCreat n f => mset n (mset f (Cell [] false) (pget p n)) p
  | CWrite n f s => match mget f (pget p n) with Some c => mset n (mset f (Cell (cur c ++ s) false) (pget p n)) p | None => p end
  | CFsync n f => match mget f (pget p n) with Some c => mset n (mset f (Cell (cur c) true) (pget p n)) p | None => p end
  | CRename n f g => match mget f (pget p n) with Some c => mset n (mset g c (mdel f (pget p n))) p | None => p end
  | CMoveIn n f s => mset n (mset f (Cell s false) (pget p n)) p
  | CUnlink n f => mset n (mdel f (pget p n)) p
  | CRmdir n => match mget n p with Some [] => mdel n p | _ => p end
  end.
Definition execs (p : pdisk) (cs : list call) : pdisk := fold_left exec cs p.

(** pkgdbh.cxx:773-789, 791-811 *)
Definition tmp_name : str := L "files.imcomplete_transaction".
Definition list_calls (name : str) (chunks : list str) : list call :=
  [CMkdir name; CCreat name tmp_name] ++ map (CWrite name tmp_name) chunks ++ [CFsync name tmp_name; CRename name tmp_name (L "files")].
(** pkgdbh.cxx:678-703: the unpacked metadata files are renamed into the package directory; with the dependency flag META is
    then rewritten in place, without fsync *)
Definition meta_calls (name : str) (moved : list (str * str)) (rewritten : option (list str)) : list call :=
  CMkdir name :: map (fun e => CMoveIn name (fst e) (snd e)) moved ++
  match rewritten with None => [] | Some chunks => CCreat name (L "META") :: map (CWrite name (L "META")) chunks end.
(** pkgadd.cxx:130-134: moveMetaFilesPackage, then addPackageFilesRefsToDB *)
Definition install_calls (name : str) (moved : list (str * str)) (rewritten : option (list str)) (chunks : list str) : list call :=
  meta_calls name moved rewritten ++ list_calls name chunks.
(** pkgdbh.cxx:915-931: the files in the order of their names (std::set), then the directory *)
Definition remove_calls (name : str) (d : disk) : list call :=
  map (CUnlink name) (filter nondot (set_of (keys (match mget name d with Some dir => dir | None => [] end)))) ++ [CRmdir name].
