(** The package database and the install/remove engine: pkgdbh.cxx, pkgadd.cxx, pkgrm.cxx.
    Simplifications:
    - the database directory <root>/var/lib/pkg/DB is modelled as a separate map (package name -> file name -> content), not as
      part of the payload file system: archives are assumed to ship nothing below it; package names contain no '/';
    - <root> is an absolute existing directory; getcwd after chdir(root) gives its canonical spelling;
    - scripts (.PRE, .POST, PRER, POSTR) are an oracle [sh] on the payload file system; they do not touch the database;
    - progress messages, logging and the time stamp of the DB directory are not modelled. *)
From Verif Require Import Base StrModel StrSpec RulesModel FsModel MetaModel FsProofs.

Definition dbdir := list (str * str).
Definition disk := list (str * dbdir).

(** pkgdbh.h: m_listOfPackages, m_listOfAlias, m_dependency *)
Record mem := Mem { m_pkgs : list (str * rec); m_alias : list (str * str); m_dep : bool }.
Record world := World { w_fs : fs; w_db : disk }.

(** ** Loading *)
Definition nondot (s : str) : bool := negb (has_tag "." s).
(** pkgdbh.cxx:620-642: every non-empty line of the file list *)
Definition read_files (content : str) : list str := set_of (filter (fun l => negb (length l =? 0)) (getlines content)).
(** pkgdbh.cxx:483-644, one package *)
Definition load_pkg (i : str) (d : dbdir) : res rec :=
  rbind (match mget (L "META") d with
         | None => Ok []
         | Some c => match parse_set c with Some ls => Ok ls | None => UB end
         end) (fun ls =>
  rbind (meta_lines i start_rec ls) (fun r =>
  match mget (L "files") d with
  | None => Throw
  | Some c => Ok (with_files (read_files c) r)
  end)).
(** pkgdbh.cxx:495, 555-558: alias table entries of one package *)
Definition add_alias (al : list (str * str)) (i : str) (r : rec) : list (str * str) :=
  fold_left (fun m a => mset a i m) (r_alias r) (mset i i al).
(** pkgdbh.cxx:396-405 getListOfPackagesNames and 468-649 buildDatabase(true) *)
Fixpoint load_loop (names : list str) (d : disk) (m : mem) : res mem :=
  match names with
  | [] => Ok m
  | i :: t => match mget i d with
              | None => Ok m   (* impossible: i is a key *)
              | Some dir => rbind (load_pkg i dir) (fun r =>
                              load_loop t d (Mem (mset i r (m_pkgs m)) (add_alias (m_alias m) i r) (m_dep m)))
              end
  end.
Definition load (junk : bool) (d : disk) : res mem := load_loop (filter nondot (set_of (keys d))) d (Mem [] [] junk).

(** ** Operations on the database *)
(** pkgdbh.cxx:768-812 addPackageFilesRefsToDB (completed; the intermediate states are in CrashModel) *)
Definition put_file (name file content : str) (d : disk) : disk :=
  mset name (mset file content (match mget name d with Some dir => dir | None => [] end)) d.
Definition add_files_refs (name : str) (info : rec) (wm : world * mem) : world * mem :=
  let '(w, m) := wm in
  (World (w_fs w) (put_file name (L "files") (text_of (r_files info)) (w_db w)),
   Mem (mset name info (m_pkgs m)) (m_alias m) (m_dep m)).

(** pkgdbh.cxx:813-816 *)
Definition name_exists (m : mem) (name : str) : bool := match mget name (m_alias m) with Some _ => true | None => false end.

(** deletion loop of pkgdbh.cxx:961-970, 1007-1018, 1049-1058 over names in reverse order *)
Definition del_one (root : str) (f : fs) (x : str) : fs :=
  if exists_file f (root ++ x) then snd (rm f (root ++ x)) else f.
Definition del_files (root : str) (xs : list str) (f : fs) : fs := fold_left (del_one root) (rev xs) f.

(** set minus *)
Definition sminus (s t : list str) : list str := fold_left (fun a x => sdel x a) t s.

(** pkgdbh.cxx:974-1020 removePackageFiles(name, keep_list); 935-972 is the same with an empty keep list.
    m_listOfPackages[name] of an unknown name is a fresh empty record. *)
Definition remove_files (root name : str) (keep : list str) (wm : world * mem) : world * mem :=
  let '(w, m) := wm in
  let own := match mget name (m_pkgs m) with Some r => r_files r | None => [] end in
  let pk := mdel name (m_pkgs m) in
  let l := fold_left (fun a p => sminus a (r_files (snd p))) pk (sminus own keep) in
  (World (del_files root l (w_fs w)) (w_db w), Mem pk (mdel name (m_alias m)) (m_dep m)).

(** pkgdbh.cxx:903-932 removePackageFilesRefsFromDB(name): deletes the non-dot files of the directory, then the directory if it
    is empty. m_listOfPackages[name].arch() (l.911) re-creates an empty record in memory. None: no directory, exception. *)
Definition remove_refs (junk : bool) (name : str) (wm : world * mem) : option (world * mem) :=
  let '(w, m) := wm in
  match mget name (w_db w) with
  | None => None
  | Some dir =>
      let left := filter (fun e => negb (nondot (fst e))) dir in
      Some (World (w_fs w) (match left with [] => mdel name (w_db w) | _ => mset name left (w_db w) end),
            Mem (match mget name (m_pkgs m) with Some _ => m_pkgs m | None => mset name (empty_rec junk) (m_pkgs m) end)
                (m_alias m) (m_dep m))
  end.

(** pkgdbh.cxx:1022-1059 removePackageFilesRefsFromDB(files, keep_list) *)
Definition strip_one (files : list str) (wm : world * mem) (p : str * rec) : world * mem :=
  let r := snd p in
  let fl := sminus (r_files r) files in
  if length fl =? length (r_files r) then wm else add_files_refs (fst p) (with_files fl r) wm.
Definition strip_refs (root : str) (files keep : list str) (wm : world * mem) : world * mem :=
  let '(w, m) := fold_left (strip_one files) (m_pkgs (snd wm)) wm in
  (World (del_files root (sminus files keep) (w_fs w)) (w_db w), m).

(** pkgdbh.cxx:1062-1120 getConflictsFilesList, phase by phase *)
Definition conflicts_db (name : str) (files : list str) (pkgs : list (str * rec)) : list str :=
  fold_left (fun acc p => if seqb (fst p) name then acc
                          else fold_left (fun a x => sins x a) (filter (fun x => smem x (r_files (snd p))) files) acc) pkgs [].
Definition conflicts (root name : str) (files : list str) (f : fs) (pkgs : list (str * rec)) : list str :=
  let c1 := conflicts_db name files pkgs in
  let c2 := fold_left (fun acc x => if exists_file f (root ++ x) && negb (smem x acc) then sins x acc else acc) files c1 in
  let c3 := filter (fun x => negb (ends_slash x)) c2 in
  match mget name pkgs with Some r => sminus c3 (r_files r) | None => c3 end.

(** ** The engine *)
Section Engine.
  Variable junk : bool.                         (* value of the uninitialised booleans *)
  Variable machine : str.                       (* getMachineType() *)
  Variable re : str -> str -> option bool.      (* regular expression oracle, see RulesModel *)
  Variable sh : str -> fs -> fs * bool.         (* running a script: new file system, success *)
  Variable root : str.                          (* m_root *)

  (** why an operation stopped *)
  Inductive stop := Already | NotInstalled | Conflict (files : list str) | BadRules | ScriptFailed | Exception | Undefined.
  Inductive out (A : Type) := Ret (a : A) (w : world) (m : mem) | Stop (e : stop) (w : world).
  Arguments Ret {A}. Arguments Stop {A}.

  (** pkgdbh.cxx:1178-1229 extractAndRunPREfromPackage. cwd is root, so ".PRE" is root/.PRE; removeFile(m_root,".PRE") then
      tries rmdir("."), which always fails (EINVAL). *)
  Definition pre_path : str := root ++ L ".PRE".
  Definition pre_run (a : archive) (w : world) : world + world :=
    let f1 := match member a (L ".PRE") with
              | None => inr (w_fs w)
              | Some n => match extract (w_fs w) pre_path n with (true, g) => inr g | (false, g) => inl g end
              end in
    match f1 with
    | inl g => inl (World g (w_db w))
    | inr g =>
        if exists_file g pre_path then
          match sh pre_path g with
          | (g', true) => inr (World (snd (rm g' pre_path)) (w_db w))
          | (g', false) => inl (World g' (w_db w))
          end
        else inr (World g (w_db w))
    end.

  (** pkgdbh.cxx:1250-1251 getcwd: canonical spelling of the root *)
  Definition abs_root : str := slash :: join slash (comps root).
  Definition reject_dir : str := trim_file_name (abs_root ++ L "/" ++ L "var/lib/pkg/rejected").
  Definition orig_name (x : str) : str := trim_file_name (abs_root ++ L "/" ++ x).
  Definition rejected_name (x : str) : str := trim_file_name (reject_dir ++ L "/" ++ x).
  (** pkgdbh.cxx:1258-1316, one archive entry *)
  Definition install_entry (keep non : list str) (f : fs) (e : str * node) : fs :=
    let '(x, n) := e in
    if smem x non then f
    else
      let real := if exists_file f (orig_name x) && smem x keep then rejected_name x else orig_name x in
      match extract f real n with
      | (false, g) => g
      | (true, g) =>
          if seqb real (orig_name x) then g
          else if (if is_dir n then perms_equal g real (orig_name x)
                   else perms_equal g real (orig_name x) && (file_empty g real || files_equal g real (orig_name x)))
               then removeFile g reject_dir real else g
      end.
  Definition install_archive (a : archive) (keep non : list str) (f : fs) : fs := fold_left (install_entry keep non) a f.

  (** pkgdbh.cxx:650-705 moveMetaFilesPackage. info.files holds no name starting with '.' (archive.cxx:20-25).
      ".META" sorts before ".POSTR" before ".PRER". rename moves the content into the database directory. *)
  Definition move_one (name : str) (x : str) (w : world) : world :=
    match fget (w_fs w) (comps (root ++ x)) with
    | None => w
    | Some n => World (fdel (comps (root ++ x)) (w_fs w)) (put_file name (skipn 1 x) (n_data n) (w_db w))
    end.
  Definition move_meta (name : str) (wm : world * mem) : res (world * mem) :=
    let '(w, m) := wm in
    let f0 := removeFile (w_fs w) root (L "/.MTREE") in
    let extra := (if exists_file f0 (root ++ L ".POSTR") then [L ".POSTR"] else [])
              ++ (if exists_file f0 (root ++ L ".PRER") then [L ".PRER"] else []) in
    match fget f0 (comps (root ++ L ".META")) with
    | None => Throw
    | Some n =>
        if is_dir n then Throw
        else match parse_set (n_data n) with
             | None => UB
             | Some ls =>
                 let w1 := fold_left (fun w x => move_one name x w) (L ".META" :: extra) (World f0 (w_db w)) in
                 if m_dep m
                 then Ok (World (w_fs w1) (put_file name (L "META") (text_of (sins (L "d1") ls)) (w_db w1)),
                          Mem (m_pkgs m) (m_alias m) false)
                 else Ok (w1, m)
             end
    end.

  (** pkgadd.cxx:138-156 postRun; cwd is root *)
  Definition post_path : str := root ++ L ".POST".
  Definition post_run (scripts : bool) (w : world) : world :=
    let f1 := if exists_file (w_fs w) pre_path then snd (rm (w_fs w) pre_path) else w_fs w in
    let f2 := if exists_file f1 post_path
              then if scripts then snd (rm (fst (sh post_path f1)) post_path) else snd (rm f1 post_path)
              else f1 in
    World f2 (w_db w).

  (** pkgadd.cxx:115-116 and pkgdbh.cxx:833-842: if (checkDependency(name)) setDependency(). Called when name is in the alias
      table; m_listOfPackages[name] creates an empty record when the name is only an alias. *)
  Definition mark_auto (name : str) (m : mem) : mem :=
    match mget name (m_pkgs m) with
    | Some r => if r_auto r then Mem (m_pkgs m) (m_alias m) true else m
    | None => Mem (mset name (empty_rec junk) (m_pkgs m)) (m_alias m) (junk || m_dep m)
    end.

  (** options of pkgadd: -f, -u, not -i *)
  Record opts := Opts { o_force : bool; o_upgrade : bool; o_scripts : bool }.

  (** pkgadd.cxx:67-137 run. [conf] = content of <root>/var/lib/pkg/pkgadd.conf *)
  Definition add_run (o : opts) (conf : option str) (a : archive) (w : world) (m : mem) : out str :=
    match open_archive junk machine root a with
    | UB => Stop Undefined w
    | Throw => Stop Exception w
    | Ok (name, info0) =>
    match read_rules_file conf with
    | inr _ => Stop BadRules w
    | inl rules =>
    let installed := name_exists m name in
    if installed && negb (o_upgrade o) then Stop Already w
    else if negb installed && o_upgrade o then Stop NotInstalled w
    else
    match apply_install_rules re rules (r_files info0) with
    | None => Stop BadRules w
    | Some (ins, non, _) =>
    let info := with_files ins info0 in
    match (if o_scripts o then pre_run a w else inr w) with
    | inl w1 => Stop ScriptFailed w1
    | inr w1 =>
    let cf := conflicts root name ins (w_fs w1) (m_pkgs m) in
    match (match cf with
           | [] => inr (w1, m)
           | _ => if o_force o then
                    match (if o_upgrade o then get_keep_list re rules cf else Some []) with
                    | None => inl BadRules
                    | Some kl => inr (strip_refs root cf kl (w1, m))
                    end
                  else inl (Conflict cf)
           end) with
    | inl e => Stop e w1
    | inr (w2, m2) =>
    match (if o_upgrade o then
             let m3 := mark_auto name m2 in
             match get_keep_list re rules ins with
             | None => inl (BadRules, w2)
             | Some kl => let wm := remove_files root name kl (w2, m3) in
                          match remove_refs junk name wm with
                          | None => inl (Exception, fst wm)
                          | Some wm' => inr (wm', kl)
                          end
             end
           else inr ((w2, m2), [])) with
    | inl (e, w3) => Stop e w3
    | inr ((w3, m3), kl) =>
    let w4 := World (install_archive a kl non (w_fs w3)) (w_db w3) in
    match move_meta name (w4, m3) with
    | UB => Stop Undefined w4
    | Throw => Stop Exception (World (removeFile (w_fs w4) root (L "/.MTREE")) (w_db w4))
    | Ok wm5 =>
    let '(w6, m6) := add_files_refs name info wm5 in
    Ret name (post_run (o_scripts o) w6) m6
    end end end end end end end.

  (** pkgrm.cxx:46-103 run. The scripts are <DB>/<name>/PRER and POSTR. *)
  Definition rm_run (scripts : bool) (conf : option str) (name : str) (w : world) (m : mem) : out unit :=
    match read_rules_file conf with
    | inr _ => Stop BadRules w
    | inl _ =>
    if negb (name_exists m name) then Stop NotInstalled w
    else
    let script (file : str) := match mget name (w_db w) with Some d => mget file d | None => None end in
    match (if scripts then match script (L "PRER") with
                           | Some s => match sh s (w_fs w) with
                                       | (g, true) => inr (World g (w_db w))
                                       | (g, false) => inl (World g (w_db w))
                                       end
                           | None => inr w
                           end
           else inr w) with
    | inl w1 => Stop ScriptFailed w1
    | inr w1 =>
    let '(w2, m2) := remove_files root name [] (w1, m) in
    let w3 := if scripts then match script (L "POSTR") with
                              | Some s => World (fst (sh s (w_fs w2))) (w_db w2)
                              | None => w2
                              end
              else w2 in
    match remove_refs junk name (w3, m2) with
    | None => Stop Exception w3
    | Some (w4, m4) => Ret tt w4 m4
    end end end.

  (** ** Sessions: one process = load the database, then run (pkgadd.cxx:20-56, pkgdbh.cxx:35-59, 468-475) *)
  Inductive op := Add (o : opts) (setdep : bool) (conf : option str) (a : archive)
                | Many (force scripts : bool) (conf : option str) (l : list (bool * archive)) (obsolete : list str)
                | Remove (scripts : bool) (conf : option str) (name : str).
  (** setDependency() is called between loading and run by install.cxx:85-86 when the package is a dependency *)
  Definition set_dep (b : bool) (m : mem) : mem := if b then Mem (m_pkgs m) (m_alias m) true else m.
  (** install.cxx:73-98 and upgrade.cxx:136-152: several archives are added by one process, one after the other, on the same
      in-memory database; m_upgrade is set when the package is found in the alias table *)
  Definition upgrade_flag (a : archive) (m : mem) : bool :=
    match open_archive junk machine root a with Ok (name, _) => name_exists m name | _ => false end.
  Fixpoint run_all (force scripts : bool) (conf : option str) (l : list (bool * archive)) (w : world) (m : mem) : out unit :=
    match l with
    | [] => Ret tt w m
    | (sd, a) :: t =>
        match add_run (Opts force (upgrade_flag a m) scripts) conf a w (set_dep sd m) with
        | Ret _ w' m' => run_all force scripts conf t w' m'
        | Stop e w' => Stop e w'
        end
    end.
  (** upgrade.cxx:153-159: obsolete packages. buildDatabase only repeats cleanupMetaFiles, the database is already loaded *)
  Fixpoint drop_all (names : list str) (w : world) (m : mem) : out unit :=
    match names with
    | [] => Ret tt w m
    | n :: t =>
        let w0 := World (cleanup_meta (w_fs w) root) (w_db w) in
        match remove_refs junk n (w0, m) with
        | None => Stop Exception w0
        | Some wm => let '(w1, m1) := remove_files root n [] wm in drop_all t w1 m1
        end
    end.
  Definition finish {A} (r : out A) : option stop * world := match r with Ret _ w _ => (None, w) | Stop e w => (Some e, w) end.
  Definition session (x : op) (w : world) : (option stop) * world :=
    let w0 := World (cleanup_meta (w_fs w) root) (w_db w) in
    match load junk (w_db w0) with
    | UB => (Some Undefined, w0)
    | Throw => (Some Exception, w0)
    | Ok m =>
        match x with
        | Add o sd conf a => finish (add_run o conf a w0 (set_dep sd m))
        | Many force scripts conf l obsolete =>
            match run_all force scripts conf l w0 m with
            | Ret _ w1 m1 => finish (drop_all obsolete w1 m1)
            | Stop e w1 => (Some e, w1)
            end
        | Remove s conf name => finish (rm_run s conf name w0 m)
        end
    end.
  Definition history (xs : list op) (w : world) : world := fold_left (fun w x => snd (session x w)) xs w.
End Engine.
Arguments Ret {A}. Arguments Stop {A}.
