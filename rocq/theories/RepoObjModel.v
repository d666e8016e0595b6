(** One package-repository object of the library over time: pkgrepo.h:33-183, pkgrepo.cxx:7-16, 246-628, 673-780, 1003-1041. The object is what
    create, install, depends, level, diff and the graphical program ask about the packages of the configured collections. The indexes are read
    while the map of packages is empty, and again on refresh(); most questions look a name up with operator[], which adds it when it is not there.
    The world gives, at every call, the two indexes of each configured collection (None: cannot be opened); the configuration is that of the
    constructor. Messages on standard error and the installed-package database of the object (pkgrepo.cxx:10) are left out; so are the
    questions that change a record (hash, sign) or need the network. A number a record does not have is None: the member is not initialised
    (cache.h:15, pkg.h:20,40). Simplifications of IndexModel, InfoModel and FilesModel apply. *)
From Verif Require Import Base BaseProofs StrModel FsModel MetaModel DbModel GenDeps IndexModel FilesModel ConfModel DiffModel DiffAmounts InfoModel.
From Coq Require Import ZArith.
Open Scope nat_scope.

Record rworld := RW { w_index : dirurl -> option str; w_files : dirurl -> option str }.

(** pkgrepo.h:39, 44-50: m_listOfPackages (the records, the directory each was stored under, their files), m_binaryPackageList, m_binaryPackageInfo *)
Record repo := Repo { b_map : list (str * irec); b_own : list (str * dirurl); b_files : list (str * list str); b_list : list str; b_shown : str }.
Definition empty_repo : repo := Repo [] [] [] [] [].

(** pkgrepo.cxx:430-544, as [idx_lines] and [stored], with what has been done when a line throws *)
Fixpoint idx_go (ls : list str) (p : pst) (seen : list str) : pst * list str * res unit :=
  match ls with
  | [] => (p, seen, Ok tt)
  | s :: t => match idx_line s p with
              | Ok q => idx_go t q (seen ++ if is_nil s then [p_name p] else [])
              | Throw => (p, seen, Throw)
              | UB => (p, seen, UB)
              end
  end.
(** pkgrepo.cxx:396-545 *)
Fixpoint places_go (dirs : list (dirurl * option str)) (i : irec) (m : list (str * irec)) (own : list (str * dirurl)) : list (str * irec) * list (str * dirurl) * res unit :=
  match dirs with
  | [] => (m, own, Ok tt)
  | (d, content) :: t =>
      let i0 := IRec (i_file i) (put "c" (u_coll d) (i_val i)) (i_base i) (i_many i) (i_deps i) in
      match content with
      | None => places_go t i0 m own
      | Some text =>
          match parse_lines text with
          | None => (m, own, UB)
          | Some ls => let '(p, seen, r) := idx_go ls (P false [] i0 no_many [] m) [] in
                       match r with
                       | Ok _ => places_go t (p_info p) (p_map p) (named_in d seen own)
                       | _ => (p_map p, named_in d seen own, r)
                       end
          end
      end
  end.

Section Repo.
Variable cfg : list dirurl.            (** the dir lines of the configuration, conf.cxx *)
Variables (date : Z -> str) (machine version : str) (j_rel : N) (j_build : Z) (j_size j_space : N).   (** as in InfoModel *)

Definition index_at (w : rworld) : list (dirurl * option str) := map (fun d => (d, w_index w d)) cfg.
Definition files_at (w : rworld) : list (str * option str) := map (fun d => (u_coll d, w_files w d)) cfg.

(** pkgrepo.cxx:389-546: nothing is read unless the map is empty *)
Definition load_repo (w : rworld) (o : repo) : repo * res unit :=
  match b_map o with
  | [] => let '(m, own, r) := places_go (index_at w) blank [] [] in (Repo m own (b_files o) (b_list o) (b_shown o), r)
  | _ => (o, Ok tt)
  end.
(** m_listOfPackages[name] *)
Definition touch (n : str) (o : repo) : repo :=
  match mget n (b_map o) with Some _ => o | None => Repo (mset n blank (b_map o)) (b_own o) (b_files o) (b_list o) (b_shown o) end.
Definition look (n : str) (o : repo) : irec := match mget n (b_map o) with Some i => i | None => blank end.

Inductive what := Dir | File | Hash | Sign | Version.          (** dirName, fileName, fileHash, fileSignature, version *)
Inductive amount := Space | Size | BuildTime | Release.         (** getSpace, getSize, getBinaryBuildTime, release *)
Inductive query :=
  | All                     (** getListOfPackages: the names *)
  | Exists (n : str)        (** checkBinaryExist *)
  | Text (f : what) (n : str)
  | Num (f : amount) (n : str)
  | Libs (n : str)          (** getLibs *)
  | Deps (n : str)          (** getDependenciesList(name) *)
  | Paths (n : str)         (** getListOfFiles *)
  | Listing                 (** getBinaryPackageList *)
  | OfSet (x : str) | OfColl (x : str)   (** getListOfPackagesFromSet, getListOfPackagesFromCollection *)
  | OfGroup (n : str)       (** getListOfPackagesFromGroup *)
  | Info (n : str)          (** getBinaryPackageInfo *)
  | Read_files              (** parseFiles *)
  | Refresh.                (** refresh *)
Inductive ans := ASet (l : list str) | ABool (b : bool) | AText (s : str) | ANum (z : option Z) | ADeps (l : list dep) | ADone.

Definition dir_of (n : str) (o : repo) : str := match mget n (b_own o) with Some d => coll_path d | None => [] end.
Definition text_of_what (f : what) (n : str) (o : repo) : str :=
  match f with
  | Dir => dir_of n o
  | File => i_file (look n o)
  | Hash => i_text "H" (look n o)
  | Sign => i_text "I" (look n o)
  | Version => i_text "V" (look n o)
  end.
(** getSize returns the 64-bit member as unsigned int: pkgrepo.cxx:729-733 *)
Definition num_of (f : amount) (i : irec) : option Z :=
  match f with
  | Space => option_map Z.of_N (i_space i)
  | Size => option_map (fun z => (z mod 2 ^ 32)%Z) (i_size i)
  | BuildTime => i_build i
  | Release => option_map Z.of_N (i_release i)
  end.
(** pkgrepo.cxx:259-270 *)
Definition listing_line (p : str * irec) : str := L "(" ++ i_text "c" (snd p) ++ L ") " ++ fst p ++ L " " ++ i_text "V" (snd p) ++ L " " ++ i_text "D" (snd p).
(** pkgrepo.cxx:1003-1024 *)
Definition archive_path (o : repo) (p : str * irec) : str := dir_of (fst p) o ++ L "/" ++ i_file (snd p).
Definition group_paths (n : str) (o : repo) : list str :=
  match mget n (b_map o) with
  | None => []
  | Some i => set_of (archive_path o (n, i) :: map (archive_path o) (filter (fun p => seqb (i_base (snd p)) n) (b_map o)))
  end.
(** the names parseFiles has added to the map of files are added to the map of records *)
Definition with_names (ns : list str) (o : repo) : repo := fold_left (fun o n => touch n o) ns o.

Definition after_load (w : rworld) (o : repo) (f : repo -> repo * ans) : repo * res ans :=
  let '(o1, r) := load_repo w o in
  match r with Ok _ => let '(o2, a) := f o1 in (o2, Ok a) | Throw => (o1, Throw) | UB => (o1, UB) end.
Definition call (q : query) (w : rworld) (o : repo) : repo * res ans :=
  match q with
  | All => after_load w o (fun o => (o, ASet (keys (b_map o))))
  | Exists n => after_load w o (fun o => (o, ABool (match mget n (b_map o) with Some _ => true | None => false end)))
  | Text f n => after_load w o (fun o => (touch n o, AText (text_of_what f n o)))
  | Num f n => after_load w o (fun o => (touch n o, ANum (num_of f (look n o))))
  | Libs n => after_load w o (fun o => (touch n o, ASet (i_many (look n o) "l")))
  | Deps n => after_load w o (fun o => (touch n o, ADeps (i_deps (look n o))))
  | Paths n => (touch n o, Ok (ASet (match mget n (b_files o) with Some l => l | None => [] end)))
  | Listing => after_load w o (fun o => let l := fold_left (fun s p => sins (listing_line p) s) (b_map o) (b_list o) in
                                          (Repo (b_map o) (b_own o) (b_files o) l (b_shown o), ASet l))
  | OfSet x => after_load w o (fun o => (o, ASet (set_members (b_map o) x)))
  | OfColl x => after_load w o (fun o => (o, ASet (coll_members (b_map o) x)))
  | OfGroup n => after_load w o (fun o => (o, ASet (group_paths n o)))
  | Info n => after_load w o (fun o =>
      match mget n (b_map o) with
      | Some i => let t := info_binary date machine version j_rel j_build j_size j_space (b_map o) (b_own o) n in (Repo (b_map o) (b_own o) (b_files o) (b_list o) t, AText t)
      | None => (o, AText (b_shown o))
      end)
  | Read_files => match parse_files (files_at w) (b_files o) with
                  | Ok m => (with_names (keys m) (Repo (b_map o) (b_own o) m (b_list o) (b_shown o)), Ok ADone)
                  | Throw => (o, Throw)
                  | UB => (o, UB)
                  end
  | Refresh => after_load w (Repo [] [] [] (b_list o) (b_shown o)) (fun o => (o, ADone))
  end.
Fixpoint calls (h : list (query * rworld)) (o : repo) : repo := match h with [] => o | (q, w) :: t => calls t (fst (call q w o)) end.
(** the constructor: pkgrepo.cxx:7-16. It throws when the reading throws: then there is no object *)
Definition open_repo (w : rworld) : repo * res unit := load_repo w empty_repo.
End Repo.
