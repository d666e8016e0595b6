(** 'cards upgrade': upgrade.cxx:7-166, the lists of C44, resolution, installation and the removal of obsolete packages together. *)
From Verif Require Import Base StrModel RulesModel FsModel MetaModel DbModel GenDeps HexModel IndexModel FetchModel DiffModel InstallModel.
From Coq Require Import ZArith.

Section Upgrade.
  Variables (junk : bool) (machine : str) (re : str -> str -> option bool) (sh : str -> fs -> fs * bool) (root : str).
  Variable url : str.
  Variable repo : list (str * ent).
  Variable sha : str -> str.
  Variable key : Type.
  Variable pem : str -> option key.
  Variable verify : key -> str -> str -> bool.
  Variable unpack : str -> option archive.
  (** values of members that were never initialised: [j] in the upgrade object and its index, [jb] in the database of the resolution *)
  Variables (j : DiffModel.junk) (jb : Z).

  (** the index as the lists of DiffModel see it *)
  Definition index : list (str * irec) := map (fun p => (fst p, e_rec (snd p))) repo.
  (** upgrade.cxx:136-139: setDependency() is never called here, whatever the second component *)
  Definition plain_entries (l : list dep) : list dep := map (fun d => (fst d, 0%Z)) l.
  (** The command without --root, --check, --size and the download options, run by root: [root] is a way to write "/", so that the database
      worked on is also the one the repository object loads (see C87 for --root). [halted]: ratio() > 20 and no --proceed (l.36-53; the
      ratio is C78). None: still resolving after [fuel] turns (C23). generateDependencies(pair) uses the name only (pkgrepo.cxx:52-56);
      m_ListOfPackagesToUpdate is a std::set, so its packages are resolved in the order of their names. Archives are opened one after
      the other; one that cannot be opened throws, and nothing obsolete is removed then. purge() (l.160) only touches the depot (C49). *)
  Definition cards_upgrade (fuel : nat) (halted scripts : bool) (conf : option str) (groups : list str) (s : fstate) (w : world)
    : option (option stop * world) :=
    let w0 := World (cleanup_meta (w_fs w) root) (w_db w) in
    match load junk (w_db w) with
    | UB => Some (Some Undefined, w0)
    | Throw => Some (Some Exception, w0)
    | Ok m =>
        if halted then Some (None, w0)
        else if negb (depot_found index m) then Some (Some Exception, w0)
        else let lists := up_lists j index m groups in
        match fst lists, snd lists with
        | [], [] => Some (None, w0)
        | _, _ =>
          match resolve url repo sha key pem verify unpack (m_pkgs m) jb fuel (map fst (fst lists)) [] s with
          | None => None
          | Some UB => Some (Some Undefined, w0)
          | Some Throw => Some (Some Exception, w0)
          | Some (Ok (l, g)) =>
              let r := handed repo unpack (f_files (g_st g)) (plain_entries l) in
              let o := session junk machine re sh root (Many true scripts conf (fst r) (if snd r then snd lists else [])) w in
              Some (match fst o with Some e => Some e | None => if snd r then None else Some Exception end, snd o)
          end
        end
    end.
End Upgrade.
