(** 'cards create NAME' for a port, from the start to the end: create.cxx:5-66, 97-125, 192-246, 535-686.
    Simplifications: the list core() works through (l.45-58) is given as paths with the sign of i.second (what generateDependencies
    answers is the subject of C22-C24); the log file, the messages and the changes of directory are left out (a directory that cannot be
    entered would stop the command before pkgmk); the user is root inside a chroot (l.16-22); the argument is not a directory (l.34).
    The binaries and the archives of the repository are as in CreateOrder.v; the database is written by the command only. *)
From Verif Require Import Base StrModel RulesModel FsModel MetaModel DbModel PortsModel CreateOrder CreateModel.
From Coq Require Import ZArith.

(** what is found in the repository: the index, and the archives by path *)
Record depot := Depot { p_bins : list bin; p_files : str -> option archive }.

Section Build.
  Variables (junk : bool) (machine : str) (re : str -> str -> option bool) (sh : str -> fs -> fs * bool) (root : str).
  Variables (meta : bool) (rules : list rule).
  Notation step := (step junk machine re sh root meta rules).

  (** create.cxx:58-66 and 209-243: the archives are opened one after the other; an archive that cannot be opened throws (archive.cxx:5-25) *)
  Fixpoint puts (files : str -> option archive) (ps : list (bool * str)) (w : world) (m : mem) : out unit :=
    match ps with
    | [] => Ret tt w m
    | (sd, p) :: t => match files p with
                      | None => Stop Exception w
                      | Some a => match step (Put sd a) w m with Ret _ w' m' => puts files t w' m' | Stop e w' => Stop e w' end
                      end
    end.
  (** create.cxx:653-674 *)
  Fixpoint mades (files : str -> option archive) (ps : list str) (w : world) (m : mem) : out unit :=
    match ps with
    | [] => Ret tt w m
    | p :: t => match files p with
                | None => Stop Exception w
                | Some a => match step (Made a) w m with Ret _ w' m' => mades files t w' m' | Stop e w' => Stop e w' end
                end
    end.
  (** create.cxx:29-30, 571-574: core() (not with --dry: [core] empty), base(), list() and installDependencies(): what is done before pkgmk *)
  Definition prepare (core : list (bool * str)) (s : ports) (d : depot) (groups : list str) (name : str) (w : world) (m : mem) : out unit :=
    match puts (p_files d) core w m with
    | Stop e w1 => Stop e w1
    | Ret _ w1 m1 => match step Clear w1 m1 with
                     | Stop e w2 => Stop e w2
                     | Ret _ w2 m2 => puts (p_files d) (map (pair false) (build_archives s (p_bins d) groups name)) w2 m2
                     end
    end.
  (** create.cxx:581-629: pkgmk: its exit status, the file system and the repository it leaves; l.631-674: a status above 0 throws, else the
      repository is read again and the archives of the port are put in *)
  Definition build (core : list (bool * str)) (s : ports) (d : depot) (groups : list str) (name : str) (pkgmk : fs -> Z * fs * depot) (w : world) (m : mem) : out unit :=
    match prepare core s d groups name w m with
    | Stop e w1 => Stop e w1
    | Ret _ w1 m1 =>
        let '(status, f, d') := pkgmk (w_fs w1) in
        let w2 := World f (w_db w1) in
        if (0 <? status)%Z then Stop Exception w2 else mades (p_files d') (group_files (p_bins d') name) w2 m1
    end.
  (** create.cxx:299-534: the ports of a collection, in the order of pkgfile.cxx:293-325; [due]: which are built is the subject of C74.
      The first component lists every call of pkgmk: the port, the repository and the system it is run in. *)
  Definition call := (str * depot * world)%type.
  Section Collection.
    Variables (s : ports) (groups : list str) (due : str -> depot -> fs -> bool) (pkgmk : str -> depot -> fs -> Z * fs * depot).
    Fixpoint builds (order : list str) (d : depot) (w : world) (m : mem) : list call * out unit :=
      match order with
      | [] => ([], Ret tt w m)
      | n :: t =>
          if due n d (w_fs w) then
            match prepare [] s d groups n w m with
            | Stop e w1 => ([], Stop e w1)
            | Ret _ w1 m1 =>
                let '(status, f, d') := pkgmk n d (w_fs w1) in
                let w2 := World f (w_db w1) in
                if (0 <? status)%Z then ([(n, d, w1)], Stop Exception w2)
                else match mades (p_files d') (group_files (p_bins d') n) w2 m1 with
                     | Stop e w3 => ([(n, d, w1)], Stop e w3)
                     | Ret _ w3 m3 => let (tr, o) := builds t d' w3 m3 in ((n, d, w1) :: tr, o)
                     end
            end
          else builds t d w m
      end.
  End Collection.
End Build.

(** create.cxx:5-37: the constructor loads the database (l.27) and reads the rules (l.29). [create_env]: only as far as pkgmk *)
Section Command.
  Variables (junk : bool) (machine : str) (re : str -> str -> option bool) (sh : str -> fs -> fs * bool) (root : str).
  Definition with_rules (conf : option str) (w : world) (k : list rule -> world -> mem -> out unit) : out unit :=
    let w0 := World (cleanup_meta (w_fs w) root) (w_db w) in
    match load junk (w_db w0) with
    | UB => Stop Undefined w0
    | Throw => Stop Exception w0
    | Ok m => match read_rules_file conf with
              | inr _ => Stop BadRules w0
              | inl rules => k rules w0 m
              end
    end.
  Definition create_env meta conf core s d groups name w : out unit :=
    with_rules conf w (fun rules w0 m => prepare junk machine re sh root meta rules core s d groups name w0 m).
  Definition create_port meta conf core s d groups name pkgmk w : option stop * world :=
    DbModel.finish (with_rules conf w (fun rules w0 m => build junk machine re sh root meta rules core s d groups name pkgmk w0 m)).
  (** create.cxx:27-34, 299-302: [d0] is the repository core() finds; checkBinaries (l.301, C75) changes the file system and leaves the
      repository [d] *)
  Definition create_collection meta conf core d0 (check : fs -> fs) s d groups due pkgmk order w : list call * (option stop * world) :=
    let w0 := World (cleanup_meta (w_fs w) root) (w_db w) in
    match load junk (w_db w0) with
    | UB => ([], (Some Undefined, w0))
    | Throw => ([], (Some Exception, w0))
    | Ok m => match read_rules_file conf with
              | inr _ => ([], (Some BadRules, w0))
              | inl rules =>
                  match puts junk machine re sh root meta rules (p_files d0) core w0 m with
                  | Stop e w1 => ([], (Some e, w1))
                  | Ret _ w1 m1 => let (tr, o) := builds junk machine re sh root meta rules s groups due pkgmk order d (World (check (w_fs w1)) (w_db w1)) m1 in (tr, DbModel.finish o)
                  end
              end
    end.
End Command.
