(** What pkgadd tells the user about single files while it installs an archive. *)
From Verif Require Import Base BaseProofs StrModel RulesModel FsModel MetaModel DbModel.

(** pkgdbh.cxx:1269 "ignoring F", 1314 "rejecting F, keeping existing version" (both on the standard output) and
    1292 "could not install F" (on the error output). The prefix of the utility and libarchive's reason are left out. *)
Inductive said := Ignoring (x : str) | Rejecting (x : str) | CouldNot (x : str).

Section Said.
  Variable junk : bool.
  Variable machine : str.
  Variable re : str -> str -> option bool.
  Variable sh : str -> fs -> fs * bool.
  Variable root : str.

  (** pkgdbh.cxx:1258-1316, the messages of one archive entry; the same branches as DbModel.install_entry *)
  Definition entry_said (keep non : list str) (f : fs) (e : str * node) : list said :=
    let '(x, n) := e in
    if smem x non then [Ignoring x]
    else
      let real := if exists_file f (orig_name root x) && smem x keep then rejected_name root x else orig_name root x in
      match extract f real n with
      | (false, _) => [CouldNot x]
      | (true, g) =>
          if seqb real (orig_name root x) then []
          else if (if is_dir n then perms_equal g real (orig_name root x)
                   else perms_equal g real (orig_name root x) && (file_empty g real || files_equal g real (orig_name root x)))
               then [] else [Rejecting x]
      end.
  (** pkgdbh.cxx:1255-1316, the loop over the archive *)
  Fixpoint install_said (a : archive) (keep non : list str) (f : fs) : list said :=
    match a with
    | [] => []
    | e :: t => entry_said keep non f e ++ install_said t keep non (install_entry root keep non f e)
    end.

  (** pkgadd.cxx:67-137 run: the steps of DbModel.add_run up to installArchivePackage (l.125) *)
  Definition add_said (o : opts) (conf : option str) (a : archive) (w : world) (m : mem) : list said :=
    match open_archive junk machine root a with
    | Ok (name, info0) =>
    match read_rules_file conf with
    | inr _ => []
    | inl rules =>
    let installed := name_exists m name in
    if installed && negb (o_upgrade o) then []
    else if negb installed && o_upgrade o then []
    else
    match apply_install_rules re rules (r_files info0) with
    | None => []
    | Some (ins, non, _) =>
    match (if o_scripts o then pre_run sh root a w else inr w) with
    | inl _ => []
    | inr w1 =>
    let cf := conflicts root name ins (w_fs w1) (m_pkgs m) in
    match (match cf with
           | [] => inr (w1, m)
           | _ => if o_force o then
                    match (if o_upgrade o then get_keep_list re rules cf else Some []) with
                    | None => inl BadRules
                    | Some kl => inr (strip_refs root cf kl (w1, m))
                    end
                  else inl (Conflict cf)
           end) with
    | inl _ => []
    | inr (w2, m2) =>
    match (if o_upgrade o then
             let m3 := mark_auto junk name m2 in
             match get_keep_list re rules ins with
             | None => None
             | Some kl => match remove_refs junk name (remove_files root name kl (w2, m3)) with
                          | None => None
                          | Some wm' => Some (wm', kl)
                          end
             end
           else Some ((w2, m2), [])) with
    | None => []
    | Some ((w3, _), kl) => install_said a kl non (w_fs w3)
    end end end end end
    | _ => []
    end.
  (** one run of pkgadd: load the database, then run (pkgadd.cxx:20-56, pkgdbh.cxx:468-475) *)
  Definition session_said (o : opts) (sd : bool) (conf : option str) (a : archive) (w : world) : list said :=
    let w0 := World (cleanup_meta (w_fs w) root) (w_db w) in
    match load junk (w_db w0) with
    | Ok m => add_said o conf a w0 (set_dep sd m)
    | _ => []
    end.
End Said.
