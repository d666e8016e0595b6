(** The command lines of the three tools pkgadd, pkgrm and pkginfo. The arguments are those after argv[0] *)
From Verif Require Import Base.
From Coq Require Import ZArith.

(** enum.h: the refusals of a command line, all thrown as runtime_error by treatErrors (pkgdbh.cxx:61-193) or assertArgument
    (system_utils.cxx:26-30). The texts of the messages are not modelled, what they quote is *)
Inductive refusal := InvalidOption (o : str) | ArgumentMissing (o : str) | OptionMissing (quoted : str) | TooMany (quoted : str) | NotRoot.
Inductive parsed (A : Type) := Accepted (a : A) | Rejected (r : refusal).
Arguments Accepted {A} a.
Arguments Rejected {A} r.

(** pkginfo.h:19-32: one mode for every query *)
Inductive query := QInstalled | QNumber | QDetails | QList | QRuntime | QOwner | QArchive | QMeta | QFootprint | QLibraries | QDepFiles | QRtLibs | QBuild.
Definition query_eqb (a b : query) : bool :=
  match a, b with
  | QInstalled, QInstalled | QNumber, QNumber | QDetails, QDetails | QList, QList | QRuntime, QRuntime | QOwner, QOwner | QArchive, QArchive
  | QMeta, QMeta | QFootprint, QFootprint | QLibraries, QLibraries | QDepFiles, QDepFiles | QRtLibs, QRtLibs | QBuild, QBuild => true
  | _, _ => false
  end.
(** m_root, m_arg and the modes, which are int counters *)
Record istate := IState { i_root : str; i_arg : str; i_n : query -> Z }.
(** pkginfo.cxx:26-41, the constructor of the tool (tools.cxx:29): m_runtimelibs_mode and m_number_mode are not in its list of
    initialisers, so they start as whatever was in memory ([libs0], [num0]); the other modes start as 0, m_root as "/"
    (pkgdbh.cxx:15), m_arg empty *)
Definition info_start (libs0 num0 : Z) : istate :=
  IState [slash] [] (fun q => match q with QRtLibs => libs0 | QNumber => num0 | _ => 0%Z end).
Inductive ioption := ORoot | OQuery (q : query).
(** the tests of pkginfo.cxx:46-110, in their order *)
Definition is2 (s a b : str) : bool := seqb s a || seqb s b.
Definition info_option (s : str) : option ioption :=
  if is2 s (L "-r") (L "--root") then Some ORoot
  else if is2 s (L "-i") (L "--installed") then Some (OQuery QInstalled)
  else if is2 s (L "-n") (L "--number") then Some (OQuery QNumber)
  else if is2 s (L "-d") (L "--details") then Some (OQuery QDetails)
  else if is2 s (L "-l") (L "--list") then Some (OQuery QList)
  else if is2 s (L "-R") (L "--runtimedep") then Some (OQuery QRuntime)
  else if is2 s (L "-o") (L "--owner") then Some (OQuery QOwner)
  else if is2 s (L "-a") (L "--archive") then Some (OQuery QArchive)
  else if is2 s (L "-m") (L "--meta") then Some (OQuery QMeta)
  else if is2 s (L "-f") (L "--footprint") then Some (OQuery QFootprint)
  else if is2 s (L "-L") (L "--libraries") then Some (OQuery QLibraries)
  else if seqb s (L "--runtimedepfiles") then Some (OQuery QDepFiles)
  else if seqb s (L "--runtimelibs") then Some (OQuery QRtLibs)
  else if is2 s (L "-b") (L "--buildtime") then Some (OQuery QBuild)
  else None.
(** the branches with assertArgument *)
Definition takes_value (o : ioption) : bool := match o with OQuery QInstalled | OQuery QNumber => false | _ => true end.
(** m_..._mode += 1 *)
Definition bump (q : query) (n : query -> Z) : query -> Z := fun p => if query_eqb p q then (n p + 1)%Z else n p.
(** the branches with a value: m_root = argv[i + 1] + m_root, or the mode and m_arg = argv[i + 1] *)
Definition with_value (o : ioption) (v : str) (s : istate) : istate :=
  match o with
  | ORoot => IState (v ++ i_root s) (i_arg s) (i_n s)
  | OQuery q => IState (i_root s) v (bump q (i_n s))
  end.
Definition without_value (o : ioption) (s : istate) : istate :=
  match o with
  | ORoot => s
  | OQuery q => IState (i_root s) (i_arg s) (bump q (i_n s))
  end.
(** pkginfo.cxx:44-114, the loop over the arguments *)
Fixpoint info_loop (args : list str) (s : istate) : parsed istate :=
  match args with
  | [] => Accepted s
  | a :: rest =>
    match info_option a with
    | None => Rejected (InvalidOption a)
    | Some o =>
      if takes_value o
      then match rest with
           | [] => Rejected (ArgumentMissing a)
           | v :: rest' => info_loop rest' (with_value o v s)
           end
      else info_loop rest (without_value o s)
    end
  end.
(** pkginfo.cxx:115-129: m_footprint_mode is added twice *)
Definition sum_all (n : query -> Z) : Z :=
  (n QDepFiles + n QRtLibs + n QFootprint + n QDetails + n QInstalled + n QList + n QOwner + n QBuild + n QArchive + n QMeta + n QFootprint + n QLibraries + n QRuntime + n QNumber)%Z.
(** pkginfo.cxx:133-141 *)
Definition sum_some (n : query -> Z) : Z :=
  (n QDepFiles + n QRtLibs + n QFootprint + n QInstalled + n QArchive + n QList + n QOwner + n QNumber)%Z.
(** pkginfo.cxx:42-145. Simplified: the sums do not overflow *)
Definition info_parse (libs0 num0 : Z) (args : list str) : parsed istate :=
  match info_loop args (info_start libs0 num0) with
  | Rejected r => Rejected r
  | Accepted s =>
    if Z.eqb (sum_all (i_n s)) 0 then Rejected (OptionMissing (i_arg s))
    else if Z.ltb 1 (sum_some (i_n s)) then Rejected (TooMany (i_arg s))
    else Accepted s
  end.
(** pkginfo.cxx:165-476, run(): which of the queries are answered, in order, and the argument they use. A mode is tested as a C int,
    true when it is not 0 *)
Definition on (z : Z) : bool := negb (Z.eqb z 0).
Definition info_run (s : istate) : list (query * str) :=
  let n := i_n s in
  (if on (n QMeta) then [(QMeta, i_arg s)] else []) ++
  (if on (n QArchive) then [(QArchive, i_arg s)] else []) ++
  (if on (n QFootprint) then [(QFootprint, i_arg s)]
   else if on (n QNumber) then [(QNumber, i_arg s)]
   else if on (n QInstalled) then [(QInstalled, i_arg s)]
   else if on (n QList) then [(QList, i_arg s)]
   else if on (n QRtLibs) then [(QRtLibs, i_arg s)]
   else if on (n QDepFiles) then [(QDepFiles, i_arg s)]
   else if Z.ltb 0 (n QLibraries + n QRuntime) then [((if on (n QRuntime) then QRuntime else QLibraries), i_arg s)]
   else if on (n QBuild) then [(QBuild, i_arg s)]
   else if on (n QDetails) then [(QDetails, i_arg s)]
   else if on (n QOwner) then [(QOwner, i_arg s)]
   else []).

(** pkgadd: m_root, m_runPrePost, m_upgrade, m_force, m_progress, m_packageArchiveName *)
Record astate := AState { d_root : str; d_scripts : bool; d_upgrade : bool; d_force : bool; d_progress : bool; d_name : str }.
(** pkgadd.cxx:8-13 and pkgdbh.cxx:10-18 *)
Definition add_start : astate := AState [slash] true false false false [].
Definition starts_dash (s : str) : bool := match s with c :: _ => ceqb c "-"%char | [] => false end.
(** pkgadd.cxx:22-42 *)
Fixpoint add_loop (args : list str) (s : astate) : parsed astate :=
  match args with
  | [] => Accepted s
  | a :: rest =>
    if is2 a (L "-r") (L "--root")
    then match rest with
         | [] => Rejected (ArgumentMissing a)
         | v :: rest' => add_loop rest' (AState (v ++ d_root s) (d_scripts s) (d_upgrade s) (d_force s) (d_progress s) (d_name s))
         end
    else if is2 a (L "-i") (L "--ignore") then add_loop rest (AState (d_root s) false (d_upgrade s) (d_force s) (d_progress s) (d_name s))
    else if is2 a (L "-u") (L "--upgrade") then add_loop rest (AState (d_root s) (d_scripts s) true (d_force s) (d_progress s) (d_name s))
    else if is2 a (L "-f") (L "--force") then add_loop rest (AState (d_root s) (d_scripts s) (d_upgrade s) true (d_progress s) (d_name s))
    else if is2 a (L "-p") (L "--progress") then add_loop rest (AState (d_root s) (d_scripts s) (d_upgrade s) (d_force s) true (d_name s))
    else if starts_dash a || match d_name s with [] => false | _ => true end then Rejected (InvalidOption a)
    else add_loop rest (AState (d_root s) (d_scripts s) (d_upgrade s) (d_force s) (d_progress s) a)
  end.
(** pkgadd.cxx:20-56; [uid0]: getuid() is 0. buildDatabase (l.55) is DbLoad's *)
Definition add_parse (uid0 : bool) (args : list str) : parsed astate :=
  match add_loop args add_start with
  | Rejected r => Rejected r
  | Accepted s =>
    match d_name s with
    | [] => Rejected (OptionMissing [])
    | _ => if uid0 then Accepted s else Rejected NotRoot
    end
  end.

(** pkgrm uses pkgdbh's parser, pkgdbh.cxx:35-51 *)
Fixpoint rm_loop (args : list str) (s : astate) : parsed astate :=
  match args with
  | [] => Accepted s
  | a :: rest =>
    if is2 a (L "-r") (L "--root")
    then match rest with
         | [] => Rejected (ArgumentMissing a)
         | v :: rest' => rm_loop rest' (AState (v ++ d_root s) (d_scripts s) (d_upgrade s) (d_force s) (d_progress s) (d_name s))
         end
    else if is2 a (L "-p") (L "--progress") then rm_loop rest (AState (d_root s) (d_scripts s) (d_upgrade s) (d_force s) true (d_name s))
    else if starts_dash a || match d_name s with [] => false | _ => true end then Rejected (InvalidOption a)
    else rm_loop rest (AState (d_root s) (d_scripts s) (d_upgrade s) (d_force s) (d_progress s) a)
  end.
(** pkgdbh.cxx:35-54 then pkgrm.cxx:59-66 (the uid is looked at after the command line and the database) *)
Definition rm_parse (uid0 : bool) (args : list str) : parsed astate :=
  match rm_loop args add_start with
  | Rejected r => Rejected r
  | Accepted s => if uid0 then Accepted s else Rejected NotRoot
  end.

(** tools.cxx:22-63. What the program does: an unknown name is refused; the first -v/--version or -h/--help anywhere on the line wins,
    before the line is looked at; then the tool runs. [Tool] says it was accepted by the tool's own parser *)
Inductive outcome := Unsupported | Version | Help | Refusal (r : refusal) | RunAdd (s : astate) | RunRm (s : astate) | RunInfo (s : istate).
Fixpoint common (args : list str) : option outcome :=
  match args with
  | [] => None
  | a :: rest => if is2 a (L "-v") (L "--version") then Some Version else if is2 a (L "-h") (L "--help") then Some Help else common rest
  end.
Definition lift {A} (f : A -> outcome) (p : parsed A) : outcome := match p with Accepted a => f a | Rejected r => Refusal r end.
Definition tool_main (libs0 num0 : Z) (uid0 : bool) (name : str) (args : list str) : outcome :=
  let go (o : outcome) := match common args with Some c => c | None => o end in
  if seqb name (L "pkgadd") then go (lift RunAdd (add_parse uid0 args))
  else if seqb name (L "pkgrm") then go (lift RunRm (rm_parse uid0 args))
  else if seqb name (L "pkginfo") then go (lift RunInfo (info_parse libs0 num0 args))
  else Unsupported.
