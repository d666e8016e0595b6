(** pkginfo.cxx: the queries on the installed packages.
    Simplifications: an output is the list of lines written; translations are the identity; the lock taken by all modes but -n and -f
    is in ConcModel; the date and size lines of -d are not rendered (the record they are taken from is kept). *)
From Verif Require Import Base StrModel FsModel MetaModel FsProofs DbModel.

Definition blanks (n : nat) : str := repeat " "%char n.
(** std::left << std::setw(n) << s *)
Definition setw (n : nat) (s : str) : str := s ++ blanks (n - length s).
(** m_listOfPackages[n]: an entry that does not exist is default constructed; its flag is not initialised *)
Definition at_name (junk : bool) (m : mem) (n : str) : rec := match mget n (m_pkgs m) with Some r => r | None => empty_rec junk end.
Definition real_name (m : mem) (n : str) : str := match mget n (m_alias m) with Some i => i | None => [] end.

(** pkginfo.cxx:198-199 *)
Definition q_number (m : mem) : nat := length (m_pkgs m).
(** pkginfo.cxx:212-229; the release is never unset in a loaded record *)
Definition version_of (r : rec) : str := r_version r ++ "-"%char :: match r_release r with Some n => dec n | None => [] end.
Definition installed_line (n : str) (r : rec) : str := "("%char :: r_coll r ++ L ") " ++ n ++ " "%char :: version_of r.
Definition q_installed (full : bool) (m : mem) : list str :=
  flat_map (fun p => let line := installed_line (fst p) (snd p) in
                     if full then [(if r_auto (snd p) then L "AUTO: " else L " MAN: ") ++ line]
                     else if r_auto (snd p) then [] else [line]) (m_pkgs m).
(** pkginfo.cxx:239-248; None is the error. [file] is the archive of that name, if there is such a file (l.234-237) *)
Definition q_list (junk : bool) (m : mem) (arg : str) : option (list str) :=
  if name_exists m arg then Some (r_files (at_name junk m (real_name m arg))) else None.
(** pkginfo.cxx:356-363: -b; the outer None is an indeterminate value *)
Definition q_build (junk : bool) (m : mem) (arg : str) : option Z :=
  if name_exists m arg then r_build (at_name junk m arg) else Some 0%Z.
(** pkginfo.cxx:364-420: -d: the name, the record of the lines up to "Arch", the answer to "Man. installed", the dependencies line *)
Record details := Det { d_name : str; d_rec : rec; d_man : bool; d_deps : list str }.
Definition q_details (junk : bool) (m : mem) (arg : str) : option details :=
  if name_exists m arg then
    let n := real_name m arg in
    (* l.370-408 create the entry [n] (it exists), l.409 the entry [arg] *)
    Some (Det n (at_name junk m n) (negb (r_auto (at_name junk m arg)))
              (match r_deps (at_name junk m arg) with [] => [] | _ => map fst (r_deps (at_name junk m n)) end))
  else None.
(** pkginfo.cxx:421-458: -o. [re pattern subject]: None when the pattern does not compile. Rows: collection, package, file *)
Definition row := (str * str * str)%type.
Definition q_owner (re : str -> str -> option bool) (m : mem) (pat : str) : list row :=
  flat_map (fun p => flat_map (fun x => match re pat (slash :: x) with Some true => [(r_coll (snd p), fst p, x)] | _ => [] end)
                              (r_files (snd p))) (m_pkgs m).
(** pkginfo.cxx:435-473: the table *)
Definition show_row (w1 w2 : nat) (r : row) : str := let '(c, n, x) := r in setw (w1 + 2) c ++ setw (w2 + 2) n ++ x.
Definition header : row := (L "Collection", L "Package", L "File").
Definition width (f : row -> str) (rows : list row) : nat := fold_left (fun w r => if w <? length (f r) then length (f r) else w) rows (length (f header)).
Definition row_coll (r : row) : str := fst (fst r).
Definition row_name (r : row) : str := snd (fst r).
Definition row_file (r : row) : str := snd r.
Definition show_owner (util : str) (rows : list row) : list str :=
  match rows with
  | [] => [util ++ L ": no owner(s) found"]
  | _ => map (show_row (width row_coll rows) (width row_name rows)) (header :: rows)
  end.
(** pkginfo.cxx:316-320: the libraries of the files of -L and -R; [libs path]: what getRuntimeLibrariesList adds for a file.
    The result code is 0 for every file (error() returns 0, runtime_dependencies_utils.cxx:441-452) *)
Definition q_libraries (junk : bool) (libs : str -> list str) (m : mem) (arg : str) : list str :=
  if name_exists m arg then set_of (flat_map (fun x => libs (slash :: x)) (r_files (at_name junk m arg))) else [].
(** pkginfo.cxx:323-339: the packages of the libraries *)
Definition provides (lib : str) (r : rec) : bool := existsb (fun x => match sfind (slash :: lib) x with Some _ => true | None => false end) (r_files r).
Definition q_runtime (junk : bool) (libs : str -> list str) (m : mem) (arg : str) : list str :=
  set_of (flat_map (fun lib => map fst (filter (fun p => provides lib (snd p)) (m_pkgs m))) (q_libraries junk libs m arg)).

(** the query tools *)
Inductive question := Installed (full : bool) | Number | ListOf (arg : str) | Build (arg : str) | Details (arg : str) | Owner (pat : str) | Libraries (arg : str) | Runtime (arg : str).
Inductive answer := Lines (ls : list str) | Count (n : nat) | Date (z : option Z) | Detail (d : option details) | Rows (rs : list row) | Refused | Crash.
(** pkginfo.cxx:165-476: open the database (pkgdbh.cxx:468-649, cleaning up first, l.471) and answer. [compiles pat] is false when
    regcomp fails *)
Definition answer_to (junk : bool) (re : str -> str -> option bool) (compiles : str -> bool) (libs : str -> list str) (m : mem) (q : question) : answer :=
  match q with
  | Installed full => Lines (q_installed full m)
  | Number => Count (q_number m)
  | ListOf a => match q_list junk m a with Some l => Lines l | None => Refused end
  | Build a => Date (q_build junk m a)
  | Details a => Detail (q_details junk m a)
  | Owner p => if compiles p then Rows (q_owner re m p) else Refused
  | Libraries a => Lines (q_libraries junk libs m a)
  | Runtime a => Lines (q_runtime junk libs m a)
  end.
Definition pkginfo_run (junk : bool) (re : str -> str -> option bool) (compiles : str -> bool) (libs : str -> list str) (root : str) (q : question) (w : world) : answer * world :=
  (match load junk (w_db w) with
   | Ok m => answer_to junk re compiles libs m q
   | Throw => Refused
   | UB => Crash
   end, World (cleanup_meta (w_fs w) root) (w_db w)).
