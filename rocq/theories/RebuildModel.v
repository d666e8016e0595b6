(** Which ports of a collection 'cards create <collection>' builds: create.cxx:143-171 (checkBinaries), 299-530 (buildCollection).
    Simplifications: a view is what the indexes, the recipes and the database say; operator[] of the map of binaries is read as the
    lookup of an empty record (the blank entry it leaves behind has no archive's name, and its version is the empty text); what a
    build changes in the view is a parameter; the lines printed are reduced to the verdict. *)
From Verif Require Import Base BaseProofs StrModel FsModel.

(** a binary: directory and name of its archive, collection, group, language, version, release, libraries (std::set), dependencies, files *)
Record bin := Bin { b_dir : str; b_file : str; b_coll : str; b_group : str; b_nls : str; b_version : str; b_release : N;
                    b_libs : list str; b_deps : list str; b_files : list str }.
(** a port: version, release, level *)
Record port := Port { p_version : str; p_release : N; p_level : nat }.
(** the binaries, the ports, whether a path exists, the files of the installed packages *)
Record view := View { v_bins : list (str * bin); v_ports : list (str * port); v_exists : str -> bool; v_installed : list str }.
Definition bin_exists (v : view) (n : str) : bool := match mget n (v_bins v) with Some _ => true | None => false end.
Definition libs_of (v : view) (n : str) : list str := match mget n (v_bins v) with Some b => b_libs b | None => [] end.
Definition deps_of (v : view) (n : str) : list str := match mget n (v_bins v) with Some b => b_deps b | None => [] end.
Definition files_of (v : view) (n : str) : list str := match mget n (v_bins v) with Some b => b_files b | None => [] end.
Definition level_of (v : view) (n : str) : nat := match mget n (v_ports v) with Some p => p_level p | None => 0 end.
Definition hit (pat s : str) : bool := match sfind pat s with Some _ => true | None => false end.
Definition dot_lib (n : str) : str := n ++ L ".lib".

(** create.cxx:370-379, 454-463: in a file of a dependency *)
Definition in_deps (v : view) (n lib : str) : bool := existsb (fun d => existsb (hit (slash :: lib)) (files_of v d)) (deps_of v n).
(** create.cxx:380-384, 464-468; pkgdbh.cxx:817-832 checkFileNameExist: installed *)
Definition in_system (v : view) (lib : str) : bool := existsb (hit lib) (v_installed v).
(** create.cxx:385-395 *)
Definition in_dot_lib (v : view) (n lib : str) : bool := bin_exists v (dot_lib n) && smem lib (libs_of v (dot_lib n)).
(** create.cxx:396-404, 469-477: in its own files *)
Definition in_own (v : view) (n lib : str) : bool := existsb (hit lib) (files_of v n).
(** create.cxx:405-439, 478-510: the level by level search is a search in all lower levels *)
Definition in_lower (v : view) (n lib : str) : bool :=
  existsb (fun k => existsb (fun p => bin_exists v (fst p) && (p_level (snd p) =? k) && (smem lib (libs_of v (fst p)) || in_dot_lib v (fst p) lib)) (v_ports v))
          (seq 0 (level_of v n)).
Definition found_main (v : view) (n lib : str) : bool := in_deps v n lib || in_system v lib || in_dot_lib v n lib || in_own v n lib || in_lower v n lib.
(** create.cxx:366-444: the first library that is not found *)
Definition missing_main (v : view) (n : str) : option str := find (fun lib => negb (found_main v n lib)) (libs_of v n).
(** create.cxx:445-517: the libraries of the package n.lib; [found] is set to false once, before the loop *)
Definition found_lib (v : view) (n lib : str) : bool := in_deps v (dot_lib n) lib || in_system v lib || in_own v (dot_lib n) lib || in_lower v n lib.
Fixpoint lib_loop (v : view) (n : str) (libs : list str) (found : bool) : bool * str :=
  match libs with
  | [] => (found, [])
  | l :: t => if found || found_lib v n l then lib_loop v n t true else (false, l)
  end.
Inductive verdict := NoBinary | NoArchive | OtherVersion | OtherRelease | Missing (lib : str) | UpToDate.
(** create.cxx:304-530 *)
Definition judge (v : view) (n : str) : verdict :=
  match mget n (v_bins v) with
  | None => NoBinary
  | Some b =>
    if negb (v_exists v (b_dir b ++ slash :: b_file b)) then NoArchive else
    let p := match mget n (v_ports v) with Some p => p | None => Port [] 0 0 end in
    if negb (seqb (b_version b) (p_version p)) then OtherVersion else
    if negb (b_release b =? p_release p)%N then OtherRelease else
    match missing_main v n with
    | Some lib => Missing lib
    | None => if bin_exists v (dot_lib n)
              then match lib_loop v n (libs_of v (dot_lib n)) false with (true, _) => UpToDate | (false, lib) => Missing lib end
              else UpToDate
    end
  end.
Definition builds (x : verdict) : bool := match x with NoBinary | NoArchive | OtherVersion | OtherRelease => true | _ => false end.
(** the whole collection: [order] is the list of PortsLists (C71); [build]: None when the build fails (an exception ends the command).
    The trace: port, verdict, built *)
Fixpoint build_all (dry : bool) (build : str -> view -> option view) (order : list str) (v : view) (tr : list (str * verdict * bool)) : list (str * verdict * bool) * option view :=
  match order with
  | [] => (tr, Some v)
  | n :: t => let x := judge v n in
              if builds x && negb dry then
                match build n v with
                | Some v' => build_all dry build t v' (tr ++ [(n, x, true)])
                | None => (tr ++ [(n, x, true)], None)
                end
              else build_all dry build t v (tr ++ [(n, x, false)])
  end.

(** create.cxx:145-146: the main packages of the collection; l.147: those without port *)
Definition orphans (c : str) (v : view) : list (str * bin) :=
  filter (fun e => seqb (b_coll (snd e)) c && match b_group (snd e), b_nls (snd e) with [], [] => true | _, _ => false end &&
                   match mget (fst e) (v_ports v) with Some _ => false | None => true end) (v_bins v).
(** create.cxx:153-163 *)
Definition check_binaries (dry : bool) (c : str) (v : view) (f : fs) : fs :=
  if dry then f else fold_left (fun f e => removeFile f (b_dir (snd e)) (b_dir (snd e) ++ slash :: b_file (snd e))) (orphans c v) f.
