(** One object of the library over the ports: pkgfile.h:102-181, pkgfile.cxx:7-12, 42-51, 81-180, 233-325. It is what create (create.cxx:8, 24, 146,
    304, 328-351, 408-409, 481-482, 576-583), level, depends, deptree and dependent ask about the recipes. The recipes are read while the map of
    ports is empty; the questions that take a name look it up with operator[], which adds it when it is not there. The world gives, at every
    call, the entries of each directory in the order readdir() gives them, each with the content of its Pkgfile (None: it has none); the
    configuration is that of the constructor. Simplifications of RecipeModel and PortsModel apply; a Pkgfile that is there can be read;
    messages are left out; getListOfPackages() hands out the map itself: callers do not change it. *)
From Verif Require Import Base StrModel FsModel MetaModel ConfModel RecipeModel PortsModel PortsLists.
From Coq Require Import ZArith.
Open Scope nat_scope.

Record pworld := PW { w_dir : str -> option (list (str * option str)) }.

(** pkgfile.h:102-110: m_listOfPackages (what the recipe says, None: a port made by operator[]; the levels), m_listOfPackagesFromCollection,
    m_badDependencies *)
Record pobj := PO { o_recs : list (str * option RecipeModel.port); o_tree : ports; o_list : list str; o_bad : list str }.
Definition new_pobj : pobj := PO [] [] [] [].

(** pkgfile.cxx:95-102 *)
Definition is_port (e : str * option str) : bool := match e with ("."%char :: _, _) => false | (_, None) => false | (_, Some _) => true end.
Definition dir_recipes (w : pworld) (d : dirurl) : list (str * str * option str) :=
  match w_dir w (u_coll d) with None => [] | Some es => map (fun e => (u_coll d, fst e, snd e)) (filter is_port es) end.
(** pkgfile.cxx:67-75 *)
Definition bad_line (coll : str -> str) (e : str * str) : str :=
  L "WARNING " ++ fst e ++ L " from " ++ snd e ++ L " (" ++ coll (snd e) ++ L ") " ++ L " NOT FOUND ...".
Definition coll_in (recs : list (str * option RecipeModel.port)) (n : str) : str := match mget n recs with Some (Some p) => p_coll p | _ => [] end.
Definition needs_in (m : list (str * RecipeModel.port)) : list (str * list str) := map (fun e => (fst e, p_deps (snd e))) m.
Definition some_recs (m : list (str * RecipeModel.port)) : list (str * option RecipeModel.port) := map (fun e => (fst e, Some (snd e))) m.

Section Ports.
Variable cfg : list dirurl.            (** the directories of the configuration, conf.cxx *)

Definition recipes (w : pworld) : list (str * str * option str) := flat_map (dir_recipes w) cfg.
(** pkgfile.cxx:81-180 *)
Definition load_ports (w : pworld) (o : pobj) : pobj * res unit :=
  match o_recs o with
  | [] => match ports_read (recipes w) with
          | Ok m => match tree (needs_in m) with
                    | Some s => (PO (some_recs m) s (o_list o) (o_bad o ++ map (bad_line (coll_in (some_recs m))) (bad_deps s)), Ok tt)
                    | None => (o, UB)
                    end
          | Throw => (o, Throw)
          | UB => (o, UB)
          end
  | _ => (o, Ok tt)
  end.
(** m_listOfPackages[name]: pkgfile.h:44-49, pkg.cxx:6-9 *)
Definition touch_port (n : str) (o : pobj) : pobj :=
  match mget n (o_recs o) with Some _ => o | None => PO (mset n None (o_recs o)) (mset n (fresh_port []) (o_tree o)) (o_list o) (o_bad o) end.
Definition look_port (n : str) (o : pobj) : option RecipeModel.port := match mget n (o_recs o) with Some r => r | None => None end.

Inductive pquery :=
  | Ports                   (** getListOfPackages *)
  | Warnings                (** badDependencies *)
  | Known (n : str)         (** checkPackageNameExist *)
  | Needs (n : str)         (** getDependencies *)
  | PVersion (n : str)      (** getPortVersion *)
  | Place (n : str)         (** getPortDir *)
  | PRelease (n : str)      (** getPortRelease *)
  | Level (n : str)         (** getLevel *)
  | Order (c : str)         (** getListOfPackagesFromCollection *)
  | Is_dir (d : str).       (** checkCollectionNameExist *)
Inductive pans := PSet (l : list str) | PList (l : list str) | PBool (b : bool) | PText (s : str) | PNum (z : option N) | PPorts (l : list (str * option RecipeModel.port * nat)).

(** pkgfile.cxx:265-292. A port made by operator[] has no release: the member is not initialised, pkg.h:20 *)
Definition says (f : str) (n : str) (o : pobj) : str := match look_port n o with Some p => p_vals p f | None => [] end.
(** pkgfile.cxx:293-325: appended to what was listed before *)
Definition build_order (c : str) (o : pobj) : list str := match coll_order (coll_in (o_recs o)) c (o_tree o) with Some l => l | None => [] end.

Definition ask_port (q : pquery) (o : pobj) : pobj * pans :=
  match q with
  | Ports => (o, PPorts (map (fun e => (fst e, snd e, level_of (o_tree o) (fst e))) (o_recs o)))
  | Warnings => (o, PList (o_bad o))
  | Known n => (o, PBool (match mget n (o_recs o) with Some _ => true | None => false end))
  | Needs n => (o, PSet (match look_port n o with Some p => p_deps p | None => [] end))
  | PVersion n => (touch_port n o, PText (says (L "version") n o))
  | Place n => (touch_port n o, PText (coll_in (o_recs o) n ++ L "/" ++ n))
  | PRelease n => (touch_port n o, PNum (option_map (fun p => atoi_u16 (p_vals p (L "release"))) (look_port n o)))
  | Level n => (touch_port n o, PNum (Some (N.of_nat (level_of (o_tree o) n))))
  | Order c => let l := o_list o ++ build_order c o in (PO (o_recs o) (o_tree o) l (o_bad o), PList l)
  | Is_dir d => (o, PBool false)
  end.
Definition pcall (q : pquery) (w : pworld) (o : pobj) : pobj * res pans :=
  match q with
  | Is_dir d => (o, Ok (PBool (match w_dir w d with Some _ => true | None => false end)))
  | _ => let '(o1, r) := load_ports w o in
         match r with Ok _ => let '(o2, a) := ask_port q o1 in (o2, Ok a) | Throw => (o1, Throw) | UB => (o1, UB) end
  end.
Fixpoint pcalls (h : list (pquery * pworld)) (o : pobj) : pobj := match h with [] => o | (q, w) :: t => pcalls t (fst (pcall q w o)) end.
End Ports.
