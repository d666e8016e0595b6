(** 'cards install': install.cxx:7-98, resolution and installation together. *)
From Verif Require Import Base StrModel RulesModel FsModel MetaModel DbModel GenDeps HexModel IndexModel FetchModel.
From Coq Require Import ZArith.

(** what is given on the command line: the name of a package, or a set or a collection with its members
    (getListOfPackagesFromSet and getListOfPackagesFromCollection; see C71-C73 and C27). Archives given by path are the [Add]
    sessions of DbModel. *)
Inductive request := Package (n : str) | Members (l : list str).

Section Install.
  Variables (junk : bool) (machine : str) (re : str -> str -> option bool) (sh : str -> fs -> fs * bool) (root : str).
  Variable url : str.
  Variable repo : list (str * ent).
  Variable sha : str -> str.
  Variable key : Type.
  Variable pem : str -> option key.
  Variable verify : key -> str -> str -> bool.
  Variable unpack : str -> option archive.
  Variable jb : Z.

  (** install.cxx:28-69: members of a set that are known already are left out *)
  Definition names_of (m : mem) (q : request) : list str :=
    match q with Package n => [n] | Members l => filter (fun n => negb (name_exists m n)) l end.
  (** install.cxx:74-77: the file that is opened for a name of the list *)
  Definition archive_of (files : list (str * str)) (n : str) : option archive :=
    match mget n repo with
    | Some e => match mget (e_path e) files with Some c => unpack c | None => None end
    | None => None
    end.
  (** install.cxx:73-98: the archives up to the first one that cannot be opened (which throws), and whether that is all of them;
      i.second > 0 (l.85) *)
  Fixpoint handed (files : list (str * str)) (l : list dep) : list (bool * archive) * bool :=
    match l with
    | [] => ([], true)
    | d :: t => match archive_of files (fst d) with
                | Some a => let r := handed files t in (((0 <? snd d)%Z, a) :: fst r, snd r)
                | None => ([], false)
                end
    end.
  (** The whole command. [host]: the database of "/", which the repository object loads for itself whatever --root says
      (install.cxx:9, pkgrepo.cxx:7-16, pkgdbh.cxx:19-26); without --root it is the database [w_db w] the command works on. Nothing
      changes either before the installation starts.
      None: still resolving after [fuel] turns (C23). The test of l.14-25 only adds an early error for names in no index. *)
  Definition cards_install (fuel : nat) (host : disk) (force scripts : bool) (conf : option str) (requests : list request) (groups : list str) (s : fstate) (w : world)
    : option (option stop * world) :=
    match rbind (load junk host) (fun mh => rbind (load junk (w_db w)) (fun m => Ok (mh, m))) with
    | UB => Some (Some Undefined, w)
    | Throw => Some (Some Exception, w)
    | Ok (mh, m) =>
        match resolve url repo sha key pem verify unpack (m_pkgs mh) jb fuel (flat_map (names_of m) requests) groups s with
        | None => None
        | Some UB => Some (Some Undefined, w)
        | Some Throw => Some (Some Exception, w)
        | Some (Ok (l, g)) =>
            let r := handed (f_files (g_st g)) l in
            let o := session junk machine re sh root (Many force scripts conf (fst r) []) w in
            Some (match fst o with Some e => Some e | None => if snd r then None else Some Exception end, snd o)
        end
    end.
End Install.
