(** The engine of 'cards create': src/create.cxx. The archives built by pkgmk are inputs; what pkgmk does to the file system is a function. *)
From Verif Require Import Base StrModel RulesModel FsModel MetaModel DbModel.

Section Create.
  Variables (junk : bool) (machine : str) (re : str -> str -> option bool) (sh : str -> fs -> fs * bool) (root : str).

  (** create.cxx:101-111: the packages that belong neither to the set chroot nor to the set devel *)
  Definition outside_sets (m : mem) : list str :=
    map fst (filter (fun p => negb (smem (L "chroot") (r_sets (snd p)) || smem (L "devel") (r_sets (snd p)))) (m_pkgs m)).
  (** create.cxx:115-125: the loop of base(). [meta] = not --no-meta *)
  Fixpoint clear (meta : bool) (names : list str) (w : world) (m : mem) : out unit :=
    match names with
    | [] => Ret tt w m
    | n :: t =>
        if meta then
          match remove_refs junk n (w, m) with
          | None => Stop Exception w
          | Some wm => let '(w1, m1) := remove_files root n [] wm in clear meta t w1 m1
          end
        else let '(w1, m1) := remove_files root n [] (w, m) in clear meta t w1 m1
    end.
  (** create.cxx:97-125 base. The lock (l.113-114) is released before the loop, see C53. *)
  Definition base (meta : bool) (w : world) (m : mem) : out unit := clear meta (outside_sets m) w m.

  (** create.cxx:247-298 run. The rules are read once by the constructor (l.28); conflicts are never forced; the record is deleted
      before the files to keep are computed; m_listOfPackages[name] = info when no metadata is wanted (l.294). pre_run and
      post_run are pkgadd's, with scripts. *)
  Definition create_run (meta upgrade : bool) (rules : list rule) (a : archive) (w : world) (m : mem) : out str :=
    match open_archive junk machine root a with
    | UB => Stop Undefined w
    | Throw => Stop Exception w
    | Ok (name, info0) =>
    match apply_install_rules re rules (r_files info0) with
    | None => Stop BadRules w
    | Some (ins, non, _) =>
    let info := with_files ins info0 in
    match pre_run sh root a w with
    | inl w1 => Stop ScriptFailed w1
    | inr w1 =>
    match conflicts root name ins (w_fs w1) (m_pkgs m) with
    | _ :: _ as cf => Stop (Conflict cf) w1
    | [] =>
    match (if upgrade then
             match remove_refs junk name (w1, mark_auto junk name m) with
             | None => inl (Exception, w1)
             | Some wm => match get_keep_list re rules ins with
                          | None => inl (BadRules, fst wm)
                          | Some kl => inr (remove_files root name kl wm, kl)
                          end
             end
           else inr ((w1, m), [])) with
    | inl (e, w3) => Stop e w3
    | inr ((w3, m3), kl) =>
    let w4 := World (install_archive root a kl non (w_fs w3)) (w_db w3) in
    if meta then
      match move_meta root name (w4, m3) with
      | UB => Stop Undefined w4
      | Throw => Stop Exception (World (removeFile (w_fs w4) root (L "/.MTREE")) (w_db w4))
      | Ok wm5 => let '(w6, m6) := add_files_refs name info wm5 in Ret name (post_run sh root true w6) m6
      end
    else Ret name (post_run sh root true (World (cleanup_meta (w_fs w4) root) (w_db w4))) (Mem (mset name info (m_pkgs m3)) (m_alias m3) (m_dep m3))
    end end end end end.

  (** what the command does, in any order: base(); an archive added when its name is unknown (core l.56-65, installDependencies
      l.212-240; [sd] = setDependency()); the archives made, upgraded when the name is known (l.654-668); pkgmk (l.577-624). *)
  Inductive cstep := Clear | Put (sd : bool) (a : archive) | Make (f : fs -> fs) | Made (a : archive).
  Definition known_archive (a : archive) (m : mem) : bool := match open_archive junk machine root a with Ok (name, _) => name_exists m name | _ => false end.
  Definition step (meta : bool) (rules : list rule) (x : cstep) (w : world) (m : mem) : out unit :=
    match x with
    | Clear => base meta w m
    | Put sd a => if known_archive a m then Ret tt w m
                  else match create_run meta false rules a w (set_dep sd m) with Ret _ w' m' => Ret tt w' m' | Stop e w' => Stop e w' end
    | Make f => Ret tt (World (f (w_fs w)) (w_db w)) m
    | Made a => match create_run meta (known_archive a m) rules a w m with Ret _ w' m' => Ret tt w' m' | Stop e w' => Stop e w' end
    end.
  Fixpoint steps (meta : bool) (rules : list rule) (xs : list cstep) (w : world) (m : mem) : out unit :=
    match xs with
    | [] => Ret tt w m
    | x :: t => match step meta rules x w m with Ret _ w' m' => steps meta rules t w' m' | Stop e w' => Stop e w' end
    end.
  (** create.cxx:5-37: the database is loaded, the rules are read *)
  Definition create_session (meta : bool) (conf : option str) (xs : list cstep) (w : world) : option stop * world :=
    let w0 := World (cleanup_meta (w_fs w) root) (w_db w) in
    match load junk (w_db w0) with
    | UB => (Some Undefined, w0)
    | Throw => (Some Exception, w0)
    | Ok m => match read_rules_file conf with
              | inr _ => (Some BadRules, w0)
              | inl rules => finish (steps meta rules xs w0 m)
              end
    end.
  (** what a system sees over time: the other commands and the build command, one after the other *)
  Inductive act := Cmd (o : op) | Create (meta : bool) (conf : option str) (xs : list cstep).
  Definition perform (x : act) (w : world) : world :=
    match x with Cmd o => snd (session junk machine re sh root o w) | Create meta conf xs => snd (create_session meta conf xs w) end.
  Definition performs (xs : list act) (w : world) : world := fold_left (fun w x => perform x w) xs w.
End Create.
