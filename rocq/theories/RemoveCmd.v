(** 'cards remove': remove.cxx:7-134, pkgrm.cxx:8-45, pkgdbh.cxx:316-329, 446-465.
    Simplification: the configuration is only its list of group names (conf.cxx:103-105); syslog is not modelled. *)
From Verif Require Import Base StrModel RulesModel FsModel MetaModel DbModel Graph.

(** std::set<std::pair<std::string,std::string>> *)
Definition pltb (x y : str * str) : bool := if sltb (fst x) (fst y) then true else if sltb (fst y) (fst x) then false else sltb (snd x) (snd y).
Fixpoint pins (x : str * str) (s : list (str * str)) : list (str * str) :=
  match s with [] => [x] | y :: t => if pltb x y then x :: s else if pltb y x then y :: pins x t else s end.

(** pkgdbh.cxx:316-329 getSingleItem: the first line with that tag in the sorted META. A missing META has no lines.
    parse_set = None cannot happen: the same file was read when the database was loaded. *)
Definition disk_lines (d : disk) (name : str) : list str :=
  match mget name d with
  | Some dir => match mget (L "META") dir with Some t => match parse_set t with Some ls => ls | None => [] end | None => [] end
  | None => []
  end.
Definition disk_item (d : disk) (name : str) (c : ascii) : str := tag_or_empty c (disk_lines d name).
(** pkgdbh.cxx:456-462: name of a dependency line: substr(1, size-11), which is the whole rest when size < 11 *)
Definition dep_name (s : str) : str := if length s <? 11 then skipn 1 s else firstn (length s - 11) (skipn 1 s).
Definition disk_deps (d : disk) (name : str) : list str := set_of (map dep_name (filter (has_tag "R") (disk_lines d name))).

Inductive rstop := InUse (arg : str) | InBase (name : str) | Engine (e : stop).
Inductive rout := RRet (w : world) (m : mem) | RStop (e : rstop) (w : world).

Section RemoveCmd.
  Variable junk : bool.
  Variable sh : str -> fs -> fs * bool.
  Variable root : str.
  Variable scripts : bool.
  Variable conf : option str.
  Variable force : bool.
  Variable groups : list str.

  (** remove.cxx:26-71: one argument *)
  Definition in_use (m : mem) (i : str) : bool := existsb (fun j => existsb (fun k => seqb i (fst k)) (r_deps (snd j))) (m_pkgs m).
  Definition by_coll (m : mem) (i : str) (acc : list (str * str)) : list (str * str) :=
    fold_left (fun acc j => if seqb (r_coll (snd j)) i || seqb (r_group (snd j)) i then pins (fst j, r_coll (snd j)) acc else acc) (m_pkgs m) acc.
  Definition by_set (m : mem) (i : str) (acc : list (str * str)) : list (str * str) :=
    fold_left (fun acc j => if smem i (r_sets (snd j)) then pins (fst j, r_coll (snd j)) acc else acc) (m_pkgs m) acc.
  Definition sel_arg (d : disk) (m : mem) (i : str) (acc : list (str * str)) : mem * list (str * str) :=
    let acc1 := by_coll m i acc in
    let acc2 := match acc1 with [] => by_set m i acc1 | _ => acc1 end in
    match mget i (m_alias m) with
    | Some a => (m, pins (a, disk_item d i "c") acc2)
    | None => (Mem (m_pkgs m) (mset i [] (m_alias m)) (m_dep m), pins ([], disk_item d i "c") acc2)   (* operator[] *)
    end.
  Fixpoint sel_args (d : disk) (m : mem) (args : list str) (acc : list (str * str)) : str + mem * list (str * str) :=
    match args with
    | [] => inr (m, acc)
    | i :: t => if seqb i (L "base") || in_use m i then inl i
                else let '(m', acc') := sel_arg d m i acc in sel_args d m' t acc'
    end.
  (** remove.cxx:72-85 *)
  Definition sibling (n g : str) : str := n ++ L "." ++ g.
  Definition real_groups : list str := filter (fun g => negb (seqb g (L "lib"))) groups.
  Definition add_siblings (m : mem) (l : list (str * str)) : list (str * str) :=
    let gs := fold_left (fun acc g => fold_left (fun acc j => pins (sibling (fst j) g, snd j) acc) l acc) real_groups [] in
    fold_left (fun acc p => if name_exists m (fst p) then pins p acc else acc) gs l.
  (** remove.cxx:86-99 *)
  Fixpoint rm_pairs (l : list (str * str)) (w : world) (m : mem) : rout :=
    match l with
    | [] => RRet w m
    | (n, c) :: t =>
        match n with
        | [] => rm_pairs t w m
        | _ => if seqb c (L "base") && negb force then RStop (InBase n) w
               else match rm_run junk sh root scripts conf n w m with
                    | Ret _ w' m' => rm_pairs t w' m'
                    | Stop e w' => RStop (Engine e) w'
                    end
        end
    end.
  (** pkgrm.cxx:8-45; [names]: m_listOfPackagesNames, read when the database was loaded *)
  Definition graph (names : list str) (d : disk) (n : str) : list str := if smem n names then disk_deps d n else [].
  Definition universe (names : list str) (d : disk) (m : mem) : list str := keys (m_pkgs m) ++ names ++ flat_map (disk_deps d) names.
  Definition manual (m : mem) : list str := map fst (filter (fun p => negb (r_auto (snd p))) (m_pkgs m)).
  Definition needed (names : list str) (d : disk) (m : mem) : list str :=
    closure (graph names d) (S (length (universe names d m))) (manual m).
  (** remove.cxx:101-127 *)
  Definition obsolete (names : list str) (d : disk) (m : mem) : list str :=
    filter (fun n => negb (smem n (needed names d m))) (keys (m_pkgs m)).
  Definition with_siblings (m : mem) (l : list str) : list str :=
    let gs := fold_left (fun acc g => fold_left (fun acc j => sins (sibling j g) acc) l acc) real_groups [] in
    fold_left (fun acc n => if name_exists m n then sins n acc else acc) gs l.
  (** remove.cxx:128-134 *)
  Fixpoint rm_names (l : list str) (w : world) (m : mem) : rout :=
    match l with
    | [] => RRet w m
    | n :: t => match rm_run junk sh root scripts conf n w m with
                | Ret _ w' m' => rm_names t w' m'
                | Stop e w' => RStop (Engine e) w'
                end
    end.
  Definition autoremove (names : list str) (w : world) (m : mem) : rout :=
    rm_names (with_siblings m (obsolete names (w_db w) m)) w m.
  (** the whole command *)
  Definition remove_cmd (args : list str) (w : world) : option rstop * world :=
    let w0 := World (cleanup_meta (w_fs w) root) (w_db w) in
    match load junk (w_db w0) with
    | UB => (Some (Engine Undefined), w0)
    | Throw => (Some (Engine Exception), w0)
    | Ok m =>
        match sel_args (w_db w0) m args [] with
        | inl i => (Some (InUse i), w0)
        | inr (m1, l) =>
            match rm_pairs (add_siblings m1 l) w0 m1 with
            | RStop e w1 => (Some e, w1)
            | RRet w1 m2 =>
                match autoremove (keys (m_pkgs m)) w1 m2 with
                | RStop e w2 => (Some e, w2)
                | RRet w2 _ => (None, w2)
                end
            end
        end
    end.
End RemoveCmd.
