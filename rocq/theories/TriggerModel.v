(** The maintenance programs run when a tool ends: pkgdbh.cxx:27-34 (destructor), 1423-1519 runLastPostInstall;
    process.cxx:17-69 execute; define.h:97-149.
    Simplification: what these programs do to the file system is not modelled, and they are run in the world the tool leaves. *)
From Verif Require Import Base StrModel RulesModel FsModel MetaModel DbModel.

(** std::set<std::pair<std::string, int>> m_postInstallList *)
Definition pair_ltb (a b : str * event) : bool :=
  if sltb (fst a) (fst b) then true else if sltb (fst b) (fst a) then false else event_id (snd a) <? event_id (snd b).
Fixpoint pins (x : str * event) (s : list (str * event)) : list (str * event) :=
  match s with
  | [] => [x]
  | y :: t => if pair_ltb x y then x :: s else if pair_ltb y x then y :: pins x t else s
  end.
Definition pset (l : list (str * event)) : list (str * event) := fold_left (fun s x => pins x s) l [].

(** pkgdbh.cxx:1430-1516 and define.h:97-149: for an event and the name stored with it: the file that must exist below the root, the
    program, and its arguments as one text *)
Definition jobs (root : str) (e : event) (x : str) : list (str * str * str) :=
  match e with
  | LDCONF => [(L "etc/ld.so.conf", L "usr/bin/ldconfig", L "-r " ++ root)]
  | INFO => [(L "usr/bin/install-info", L "usr/bin/install-info", L "--info-dir=usr/share/info " ++ x)]
  | ICONS => [(L "usr/bin/gtk-update-icon-cache", L "usr/bin/gtk-update-icon-cache", L "-f -t " ++ x)]
  | FONTS => [(L "usr/bin/mkfontscale", L "usr/bin/mkfontscale", x); (L "usr/bin/mkfontdir", L "usr/bin/mkfontdir", x);
              (L "usr/bin/fc-cache", L "usr/bin/fc-cache", x)]
  | SCHEMAS => [(L "usr/bin/glib-compile-schemas", L "usr/bin/glib-compile-schemas", x)]
  | DESKTOP_DB => [(L "usr/bin/update-desktop-database", L "usr/bin/update-desktop-database", L "-q " ++ x)]
  | MIME_DB => [(L "usr/bin/update-mime-database", L "usr/bin/update-mime-database", L "-n " ++ x)]
  | QUERY_PIXBUF => [(L "usr/bin/gdk-pixbuf-query-loaders", L "usr/bin/gdk-pixbuf-query-loaders", L "--update-cache")]
  | GIO_QUERY => [(L "usr/bin/gio-querymodules", L "usr/bin/gio-querymodules", L "usr/lib/gio/modules")]
  | QUERY_IMOD3 => [(L "usr/bin/gtk-query-immodules-3.0", L "usr/bin/gtk-query-immodules-3.0", L "--update-cache")]
  | QUERY_IMOD2 => [(L "usr/bin/gtk-query-immodules-2.0", L "usr/bin/gtk-query-immodules-2.0", L "--update-cache")]
  | INSTALL | UPGRADE => []
  end.
(** pkgdbh.cxx:1423-1519 with process.cxx:40-46: the text is cut at every blank *)
Definition run_jobs (root : str) (f : fs) (post : list (str * event)) : list (str * list str) :=
  flat_map (fun q => flat_map (fun j => let '(needed, prog, text) := j in
    if exists_file f (root ++ needed) then [(root ++ prog, split_char_list text " "%char)] else []) (jobs root (snd q) (fst q))) (pset post).

Section Triggers.
  Variable junk : bool.
  Variable machine : str.
  Variable re : str -> str -> option bool.
  Variable sh : str -> fs -> fs * bool.
  Variable root : str.
  (** pkgadd.cxx:222-258: the pairs inserted by applyInstallRules, also when it stops at a pattern that does not compile *)
  Fixpoint posts (files_rev scripts_rev : list rule) (files : list str) : list (str * event) :=
    match files with
    | [] => []
    | f :: fs =>
        match (match first_match re files_rev f with BadPattern => None | NoRule => Some true | Decided r => Some (r_action r) end) with
        | None => []
        | Some inst =>
            match script_visit re scripts_rev f LDCONF inst with
            | None => []
            | Some (ev, trig) => (if trig then [((if event_eqb ev LDCONF then [] else f), ev)] else []) ++ posts files_rev scripts_rev fs
            end
        end
    end.
  (** pkgadd.cxx:67-88: what one run of pkgadd adds to m_postInstallList *)
  Definition scheduled (upgrade : bool) (conf : option str) (a : archive) (m : mem) : list (str * event) :=
    match open_archive junk machine root a with
    | Ok (name, info0) =>
        match read_rules_file conf with
        | inl rules => if Bool.eqb (name_exists m name) upgrade
                       then posts (rev (rules_of_event INSTALL rules)) (rev (script_rules rules)) (r_files info0) else []
        | inr _ => []
        end
    | _ => []
    end.
  (** install.cxx:73-98, upgrade.cxx:136-152: the list is kept from one package to the next *)
  Fixpoint scheduled_all (force scripts : bool) (conf : option str) (l : list (bool * archive)) (w : world) (m : mem) : list (str * event) :=
    match l with
    | [] => []
    | (sd, a) :: t =>
        scheduled (upgrade_flag junk machine root a m) conf a (set_dep sd m) ++
        match add_run junk machine re sh root (Opts force (upgrade_flag junk machine root a m) scripts) conf a w (set_dep sd m) with
        | Ret _ w' m' => scheduled_all force scripts conf t w' m'
        | Stop _ _ => []
        end
    end.
  (** the programs run by a tool that carries out [x] in the world [w]. The destructor runs whether or not an exception was thrown
      (tools.cxx:41-60: runtime errors are caught in main). *)
  Definition programs (x : op) (w : world) : list (str * list str) :=
    let w0 := World (cleanup_meta (w_fs w) root) (w_db w) in
    run_jobs root (w_fs (snd (session junk machine re sh root x w)))
      (match load junk (w_db w0) with
       | Ok m => match x with
                 | Add o sd conf a => scheduled (o_upgrade o) conf a (set_dep sd m)
                 | Many force scripts conf l _ => scheduled_all force scripts conf l w0 m
                 | Remove _ _ _ => []
                 end
       | _ => []
       end).
End Triggers.
