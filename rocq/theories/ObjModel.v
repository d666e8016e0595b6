(** One object of the library's database class (pkgdbh) over time, while other programs change the database.
    Modelled: getSetOfPackagesNames pkgdbh.cxx:310-315, getSingleItem and getSetOfItems 316-342 with the queries made of them 343-391,
    getListOfPackagesNames 394-405, getSetOfFiles 406-439, buildDatabase 468-649 (both values of its argument, and what an exception
    leaves behind), checkPackageNameExist 813-816, checkFileNameExist 817-832, getNumberOfPackages 1681-1687.
    Not modelled: progress messages, the removal of metafiles of an aborted installation (l.471), a database directory that does not exist.
    The state of the disk is given with every call. *)
From Verif Require Import Base StrModel RulesModel FsModel MetaModel DbModel.
From Coq Require Import ZArith.

(** m_listOfPackagesNames, m_DB_Empty, m_listOfPackages, m_listOfAlias *)
Record obj := Obj { o_names : list str; o_empty : bool; o_pkgs : list (str * rec); o_alias : list (str * str) }.
(** pkgdbh.cxx:10-26 *)
Definition new_obj : obj := Obj [] true [] [].

(** file_utils.cxx:241-260 findDir on the database directory *)
Definition names_of (d : disk) : list str := filter nondot (set_of (keys d)).
(** pkgdbh.cxx:394-405, and the test before every call of it *)
Definition read_names (d : disk) (o : obj) : obj :=
  match o_names o with [] => Obj (names_of d) (o_empty o) (o_pkgs o) (o_alias o) | _ => o end.
(** parseFile into a set of the META of a package; a file that cannot be opened gives nothing; UB: see parse_set *)
Definition meta_of (d : disk) (n : str) : res (list str) :=
  match mget n d with
  | Some dir => match mget (L "META") dir with
                | Some c => match parse_set c with Some ls => Ok ls | None => UB end
                | None => Ok []
                end
  | None => Ok []
  end.
(** the file list of a package *)
Definition list_of (d : disk) (n : str) : option str := match mget n d with Some dir => mget (L "files") dir | None => None end.
(** pkgdbh.cxx:483-644, one package *)
Definition read_one (files : bool) (d : disk) (n : str) : res rec :=
  rbind (meta_of d n) (fun ls => rbind (meta_lines n start_rec ls) (fun r =>
    if files then match list_of d n with Some c => Ok (with_files (read_files c) r) | None => Throw end else Ok r)).
(** pkgdbh.cxx:495, 555-558: what has been put into the alias table when a package cannot be read. The lines come in byte order, so those
    that begin with A before those that begin with R, the only ones that throw. *)
Definition half_alias (al : list (str * str)) (n : str) (ls : list str) : list (str * str) :=
  fold_left (fun m s => if has_tag "A" s then mset (skipn 1 s) n m else m) ls (mset n n al).
(** pkgdbh.cxx:480-647: m_DB_Empty is false from the first package on *)
Fixpoint build_loop (files : bool) (d : disk) (ns : list str) (o : obj) : obj * res unit :=
  match ns with
  | [] => (o, Ok tt)
  | n :: t =>
      match read_one files d n with
      | Ok r => build_loop files d t (Obj (o_names o) false (mset n r (o_pkgs o)) (add_alias (o_alias o) n r))
      | Throw => (Obj (o_names o) (o_empty o) (o_pkgs o) (match meta_of d n with Ok ls => half_alias (o_alias o) n ls | _ => o_alias o end), Throw)
      | UB => (o, UB)
      end
  end.
(** pkgdbh.cxx:468-649 *)
Definition build (files : bool) (d : disk) (o : obj) : obj * res unit :=
  if o_empty o then let o1 := read_names d o in build_loop files d (o_names o1) o1 else (o, Ok tt).

Inductive query :=
  | Names | Count                          (** getSetOfPackagesNames, getNumberOfPackages *)
  | Item (c : ascii) (n : str)             (** getDescription, getVersion, getRelease, getCollection, getArch, getLicense: the letter of the field *)
  | Items (c : ascii) (n : str)            (** getSetOfSets, getSetOfCategories *)
  | Joined (c : ascii) (n : str)           (** getSets, getCategories *)
  | Space (n : str)                        (** getSize *)
  | Build (files : bool)                   (** buildDatabase *)
  | Known (n : str)                        (** checkPackageNameExist *)
  | HasFile (s : str)                      (** checkFileNameExist *)
  | Files (n : str).                       (** getSetOfFiles *)
Inductive ans := ASet (l : list str) | ANum (n : N) | AText (s : str) | ABool (b : bool) | ADone.

Definition occursb (s x : str) : bool := match sfind s x with Some _ => true | None => false end.
Definition has_file (o : obj) (s : str) : bool := existsb (fun p => existsb (occursb s) (r_files (snd p))) (o_pkgs o).
Definition call (q : query) (d : disk) (o : obj) : obj * res ans :=
  match q with
  | Names => let o1 := read_names d o in (o1, Ok (ASet (o_names o1)))
  | Count => let o1 := read_names d o in (o1, Ok (ANum (N.of_nat (length (o_names o1)) mod 2 ^ 32)))
  | Item c n => (o, rbind (meta_of d n) (fun ls => Ok (AText (tag_or_empty c ls))))
  | Items c n => (o, rbind (meta_of d n) (fun ls => Ok (ASet (set_of (all_tag c ls)))))
  | Joined c n => (o, rbind (meta_of d n) (fun ls => Ok (AText (flat_map (fun x => " "%char :: x) (set_of (all_tag c ls))))))
  | Space n => (o, rbind (meta_of d n) (fun ls => Ok (ANum (atoi_u32 (tag_or_empty "S" ls)))))
  | Build files => let '(o1, r) := build files d o in (o1, rbind r (fun _ => Ok ADone))
  | Known n => (o, Ok (ABool (match mget n (o_alias o) with Some _ => true | None => false end)))
  | HasFile s => let '(o1, r) := build true d o in (o1, rbind r (fun _ => Ok (ABool (has_file o1 s))))
  | Files n =>
      (** m_listOfAlias[n] makes an entry; without a name the list looked for is that of the database directory itself, which has none
          (not modelled: a package called "files", whose directory would be opened in its place) *)
      match mget n (o_alias o) with
      | Some k => (o, match list_of d k with Some c => Ok (ASet (read_files c)) | None => Throw end)
      | None => (Obj (o_names o) (o_empty o) (o_pkgs o) (mset n [] (o_alias o)), Throw)
      end
  end.
(** a history: every call with the state of the disk at that moment *)
Fixpoint calls (h : list (query * disk)) (o : obj) : obj * list (res ans) :=
  match h with
  | [] => (o, [])
  | (q, d) :: t => let '(o1, r) := call q d o in let '(o2, rs) := calls t o1 in (o2, r :: rs)
  end.
