(** The tools as processes on a shared disk: where they take the lock.
    Simplification: with -f the first locked block of pkgadd is entered even when there is no conflict. *)
From Verif Require Import Base StrModel RulesModel FsModel MetaModel DbModel LockModel.

Section Conc.
  Variable junk : bool.
  Variable machine : str.
  Variable re : str -> str -> option bool.
  Variable sh : str -> fs -> fs * bool.
  Variable root : str.

  Record job := Job { j_opts : opts; j_dep : bool; j_conf : option str; j_arch : archive }.
  (** what pkgadd::run holds in its local variables *)
  Record plan := Plan { pl_name : str; pl_info : rec; pl_ins : list str; pl_non : list str; pl_rules : list rule; pl_cf : list str; pl_kl : list str; pl_mem : mem }.
  Inductive local := Fresh | Loaded (m : mem) | Planned (p : plan).
  Inductive action := ALoad (j : job) | ACheck (j : job) | AStrip (j : job) | ADrop (j : job) | AUnpack (j : job) | AMove (j : job) | ARefs (j : job) | APost (j : job)
                    | RLoad | RRun (scripts : bool) (conf : option str) (name : str) | ILoad.
  Definition w_clean (w : world) : world := World (cleanup_meta (w_fs w) root) (w_db w).

  Definition act (x : action) (l : local) (w : world) : option local * world :=
    match x, l with
    | ALoad j, _ =>    (* pkgadd.cxx:20-56, pkgdbh.cxx:468-649: outside the lock *)
        match load junk (w_db w) with Ok m => (Some (Loaded (set_dep (j_dep j) m)), w_clean w) | _ => (None, w_clean w) end
    | ACheck j, Loaded m =>   (* pkgadd.cxx:69-94, 103-110: outside the lock *)
        match open_archive junk machine root (j_arch j) with
        | Ok (name, info0) =>
        match read_rules_file (j_conf j) with
        | inr _ => (None, w)
        | inl rules =>
        if name_exists m name && negb (o_upgrade (j_opts j)) then (None, w)
        else if negb (name_exists m name) && o_upgrade (j_opts j) then (None, w)
        else match apply_install_rules re rules (r_files info0) with
        | None => (None, w)
        | Some (ins, non, _) =>
        match (if o_scripts (j_opts j) then pre_run sh root (j_arch j) w else inr w) with
        | inl w1 => (None, w1)
        | inr w1 =>
        let cf := conflicts root name ins (w_fs w1) (m_pkgs m) in
        match cf with
        | _ :: _ => if o_force (j_opts j) then (Some (Planned (Plan name (with_files ins info0) ins non rules cf [] m)), w1) else (None, w1)
        | [] => (Some (Planned (Plan name (with_files ins info0) ins non rules [] [] m)), w1)
        end end end end
        | _ => (None, w)
        end
    | AStrip j, Planned p =>  (* pkgadd.cxx:95-102: under the lock *)
        match pl_cf p with
        | [] => (Some l, w)
        | cf => match (if o_upgrade (j_opts j) then get_keep_list re (pl_rules p) cf else Some []) with
                | None => (None, w)
                | Some kl => let '(w2, m2) := strip_refs root cf kl (w, pl_mem p) in
                             (Some (Planned (Plan (pl_name p) (pl_info p) (pl_ins p) (pl_non p) (pl_rules p) cf [] m2)), w2)
                end
        end
    | ADrop j, Planned p =>   (* pkgadd.cxx:113-123: under the lock *)
        let m3 := mark_auto junk (pl_name p) (pl_mem p) in
        match get_keep_list re (pl_rules p) (pl_ins p) with
        | None => (None, w)
        | Some kl => let wm := remove_files root (pl_name p) kl (w, m3) in
                     match remove_refs junk (pl_name p) wm with
                     | None => (None, fst wm)
                     | Some (w', m') => (Some (Planned (Plan (pl_name p) (pl_info p) (pl_ins p) (pl_non p) (pl_rules p) (pl_cf p) kl m')), w')
                     end
        end
    | AUnpack j, Planned p => (* pkgadd.cxx:125-128: under the lock *)
        (Some l, World (install_archive root (j_arch j) (pl_kl p) (pl_non p) (w_fs w)) (w_db w))
    | AMove j, Planned p =>   (* pkgadd.cxx:131: under the lock *)
        match move_meta root (pl_name p) (w, pl_mem p) with
        | UB => (None, w)
        | Throw => (None, World (removeFile (w_fs w) root (L "/.MTREE")) (w_db w))
        | Ok (w5, m5) => (Some (Planned (Plan (pl_name p) (pl_info p) (pl_ins p) (pl_non p) (pl_rules p) (pl_cf p) (pl_kl p) m5)), w5)
        end
    | ARefs j, Planned p =>   (* pkgadd.cxx:134: under the lock *)
        let '(w6, m6) := add_files_refs (pl_name p) (pl_info p) (w, pl_mem p) in
        (Some (Planned (Plan (pl_name p) (pl_info p) (pl_ins p) (pl_non p) (pl_rules p) (pl_cf p) (pl_kl p) m6)), w6)
    | APost j, _ => (Some l, post_run sh root (o_scripts (j_opts j)) w)  (* pkgadd.cxx:136 *)
    | RLoad, _ =>             (* pkgrm main: the database is read before run() takes the lock *)
        match load junk (w_db w) with Ok m => (Some (Loaded m), w_clean w) | _ => (None, w_clean w) end
    | RRun s conf name, Loaded m =>   (* pkgrm.cxx:68-86: under the lock *)
        match rm_run junk sh root s conf name w m with Ret _ w' m' => (Some (Loaded m'), w') | Stop _ w' => (None, w') end
    | ILoad, _ =>             (* pkginfo.cxx:205-209: under the shared lock, except for the number of packages (l.197-199) *)
        match load junk (w_db w) with Ok m => (Some (Loaded m), w_clean w) | _ => (None, w_clean w) end
    | _, _ => (None, w)
    end.

  (** pkgadd.cxx:67-137 *)
  Definition add_prog (j : job) : list (stmt action) :=
    [Do (ALoad j); Do (ACheck j)] ++
    (if o_force (j_opts j) then [Scope true [Do (AStrip j)]] else []) ++
    (if o_upgrade (j_opts j) then [Scope true [Do (ADrop j)]] else []) ++
    [Scope true [Do (AUnpack j); Do (AMove j); Do (ARefs j)]; Do (APost j)].
  (** pkgrm.cxx:59-87 *)
  Definition rm_prog (scripts : bool) (conf : option str) (name : str) : list (stmt action) := [Do RLoad; Scope true [Do (RRun scripts conf name)]].
  (** pkginfo.cxx:200-330 *)
  Definition info_prog : list (stmt action) := [Scope false [Do ILoad]].
  (** pkginfo.cxx:197-199: pkginfo -n takes no lock *)
  Definition number_prog : list (stmt action) := [Do ILoad].
  (** create.cxx:279-291: "if (...) cards::lock Lock(m_root, true);" as a statement of its own: the lock object dies at the semicolon *)
  Definition create_prog (j : job) : list (stmt action) := [Do (ALoad j); Do (ACheck j); Scope true []; Do (AUnpack j); Do (AMove j); Do (ARefs j); Do (APost j)].

  (** the actions one after the other, stopping at the first exception *)
  Fixpoint alone (xs : list action) (l : local) (w : world) : option local * world :=
    match xs with [] => (Some l, w) | x :: t => match act x l w with (Some l', w') => alone t l' w' | (None, w') => (None, w') end end.
  Fixpoint actions (s : stmt action) : list action :=
    match s with Do a => [a] | Scope _ b => flat_map actions b end.
End Conc.
