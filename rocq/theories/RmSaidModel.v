(** What pkgrm tells the user: the line about the package, the percentages and the files it could not remove. *)
From Verif Require Import Base BaseProofs StrModel RulesModel FsModel MetaModel DbModel RemoveCmd.

Section RmSaid.
  Variable junk : bool.
  Variable sh : str -> fs -> fs * bool.
  Variable root : str.

  (** pkgdbh.cxx:962-970, the names in the order they are tried (the set from its end): "could not remove <root><name>" is written
      when remove(3) fails. The reason is left out. *)
  Fixpoint del_said (todo : list str) (f : fs) : list str :=
    match todo with
    | [] => []
    | x :: t => (if exists_file f (root ++ x) && negb (fst (rm f (root ++ x))) then [x] else []) ++ del_said t (del_one root f x)
    end.
  (** pkgdbh.cxx:1009-1018, the same loop of an upgrade: ENOTEMPTY is passed over; what is left in the model of remove(3) is the
      directory "/" (EBUSY) and a name that ends in "." (EINVAL) *)
  Fixpoint del_said_upgrade (todo : list str) (f : fs) : list str :=
    match todo with
    | [] => []
    | x :: t => (if exists_file f (root ++ x) && negb (fst (rm f (root ++ x))) &&
                    ((match comps (root ++ x) with [] => true | _ => false end) || last_is_dot (root ++ x)) then [x] else [])
                ++ del_said_upgrade t (del_one root f x)
    end.

  (** pkgdbh.cxx:282-294, the line "REMOVE: (collection) name version-release, N files" and what follows it *)
  Record removal := Removal { h_collection : str; h_name : str; h_version : str; h_release : str; h_count : nat; h_stuck : list str }.
  (** pkgdbh.cxx:935-972 removePackageFiles(name). getCollection, getVersion and getRelease (l.347-358) read the META on the disk. *)
  Definition removal_said (name : str) (w : world) (m : mem) : removal :=
    let own := match mget name (m_pkgs m) with Some r => r_files r | None => [] end in
    let l := fold_left (fun a p => sminus a (r_files (snd p))) (mdel name (m_pkgs m)) own in
    Removal (disk_item (w_db w) name "c") name (disk_item (w_db w) name "V") (disk_item (w_db w) name "r") (length l)
            (del_said (rev l) (w_fs w)).
  (** pkgdbh.cxx:295-299: the number printed before the j-th deletion of n, j = 1..n *)
  Definition percent (n j : nat) : nat := (j * 100) / n.
  (** pkgrm.cxx:59-87 run, one process: None if it stops before a file is removed *)
  Definition remove_said (scripts : bool) (conf : option str) (name : str) (w : world) : option removal :=
    let w0 := World (cleanup_meta (w_fs w) root) (w_db w) in
    match load junk (w_db w0) with
    | Ok m =>
        match read_rules_file conf with
        | inr _ => None
        | inl _ =>
            if negb (name_exists m name) then None
            else match (if scripts then match (match mget name (w_db w0) with Some d => mget (L "PRER") d | None => None end) with
                                        | Some s => match sh s (w_fs w0) with
                                                    | (g, true) => Some (World g (w_db w0))
                                                    | (_, false) => None
                                                    end
                                        | None => Some w0
                                        end
                        else Some w0) with
                 | None => None
                 | Some w1 => Some (removal_said name w1 m)
                 end
        end
    | _ => None
    end.
End RmSaid.
