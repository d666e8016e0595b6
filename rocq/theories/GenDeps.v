(** Dependency resolution of 'cards install': pkgrepo.cxx:128-238, 629-672; pkgdbh.cxx:847-901. *)
From Verif Require Import Base StrModel RulesModel FsModel MetaModel DbModel.
From Coq Require Import ZArith.

(** what pkgrepo.cxx:629-672 reads of an archive *)
Record apkg := APkg { a_name : str; a_version : str; a_release : Z; a_build : Z; a_coll : str; a_deps : list dep }.
(** std::stoi(s) as an int *)
Definition stoi_int (s : str) : res Z :=
  let '(_, s1) := sign (drop_space (cstr s)) in
  if negb (has_digit 10 s1) then Throw
  else let v := strtol10 s in if ((v <? - 2 ^ 31) || (2 ^ 31 <=? v))%Z then Throw else Ok v.
(** archive.cxx:5-25, 107-117, 222-258 *)
Definition read_arch (a : archive) : res apkg :=
  rbind (member_lines a (L ".MTREE")) (fun mtree =>
  rbind (member_lines a (L ".META")) (fun meta =>
  match meta, mtree with
  | [], _ | _, [] => Throw
  | _, _ =>
    match first_tag "N" meta with
    | None => Throw
    | Some name =>
      let build := match first_tag "B" meta with Some v => epoch v | None => 0%Z end in
      rbind (match first_tag "r" meta with Some v => stoi_int v | None => Ok 0%Z end) (fun rel =>
      rbind (arch_deps meta (dins (name, build) [])) (fun deps =>
      Ok (APkg name (tag_or_empty "V" meta) rel build (tag_or_empty "c" meta) deps)))
    end
  end)).

Definition dep_eqb (x y : dep) : bool := seqb (fst x) (fst y) && (snd x =? snd y)%Z.
Fixpoint erase1 (x : dep) (l : list dep) : list dep :=
  match l with [] => [] | y :: t => if dep_eqb x y then t else y :: erase1 x t end.

Section GenDeps.
  (** the installed packages (m_dbh) and the value of an uninitialised build date *)
  Variable db : list (str * rec).
  Variable jb : Z.
  (** m_listOfPackages of the repository: name and dependencies. Its other fields only matter to [fetch]. *)
  Variable idx : list (str * list dep).
  (** downloading if needed, checking and reading the archive of a package: pkgrepo.cxx:151-191; [st] is whatever that changes *)
  Variable st : Type.
  Variable fetch : str -> st -> res (apkg * st).

  Definition build_of (r : rec) : Z := match r_build r with Some b => b | None => jb end.
  (** pkgdbh.cxx:888-901 *)
  Definition same (d : dep) : bool :=
    if (snd d =? 0)%Z then false
    else match mget (fst d) db with None => false | Some r => negb (build_of r <? snd d)%Z end.
  (** pkgdbh.cxx:847-866 *)
  Definition uptodate (a : apkg) : bool :=
    match mget (a_name a) db with
    | None => false
    | Some r =>
        if negb (seqb (r_version r) (a_version a)) then false
        else if negb (Z.of_N (match r_release r with Some k => k | None => 1%N end) =? a_release a)%Z then false
        else if (build_of r <? a_build a)%Z then false
        else if seqb (r_coll r) [] then true
        else if seqb (a_coll a) [] then true
        else seqb (r_coll r) (a_coll a)
    end.
  (** m_listOfRepoPackages (only its keys are used) and the rest of the state *)
  Record gst := G { g_seen : list str; g_st : st }.
  (** pkgrepo.cxx:151-192 and 623-671: direct dependencies. listofDependencies() always holds the package itself, so it is not
      empty (l.641). m_listOfPackages[n] of a name that is not in the index also inserts an empty record, which is not modelled. *)
  Definition direct (n : str) (g : gst) : res (list dep * gst) :=
    if smem n (g_seen g) then Ok (match mget n idx with Some ds => ds | None => [] end, g)
    else match mget n idx with
         | None => Throw
         | Some _ =>
             rbind (fetch n (g_st g)) (fun r =>
             let '(a, s') := r in
             if uptodate a then Ok ([], G (g_seen g) s')
             else Ok (filter (fun d => negb (same d)) (a_deps a), G (a_name a :: g_seen g) s'))
         end.
  (** pkgrepo.cxx:194-217: one turn for the pending package (n,t) with direct dependencies [ds] *)
  Definition others (n : str) (ds : list dep) : list dep := filter (fun d => negb (seqb (fst d) n)) ds.
  Definition push (n : str) (ds : list dep) (pend : list dep) : list dep :=
    fold_left (fun p d => erase1 d p) (others n ds) pend ++ filter (fun d => negb (same d)) (others n ds).
  (** pkgrepo.cxx:139-218: the main loop. None: still running after [fuel] turns. *)
  Fixpoint loop (fuel : nat) (pend out : list dep) (g : gst) : option (res (list dep * gst)) :=
    match pend with
    | [] => Some (Ok (out, g))
    | x :: pend' =>
        match fuel with
        | 0 => None
        | S f => match direct (fst x) g with
                 | Ok (ds, g') => loop f (push (fst x) ds pend') (if same x then out else out ++ [x]) g'
                 | Throw => Some Throw
                 | UB => Some UB
                 end
        end
    end.
  (** pkgrepo.cxx:220-237 *)
  Definition add_new (l : list dep) (x : dep) : list dep := if existsb (fun i => seqb (fst i) (fst x)) l then l else l ++ [x].
  (** generateDependencies(name) with the list m_dependenciesList built so far *)
  Definition generate (fuel : nat) (name : str) (l : list dep) (g : gst) : option (res (list dep * gst)) :=
    match loop fuel [(name, 0%Z)] [] g with
    | Some (Ok (out, g')) => Some (Ok (fold_left add_new (rev out) l, g'))
    | Some Throw => Some Throw
    | Some UB => Some UB
    | None => None
    end.
  (** install.cxx: the requests, one after the other *)
  Fixpoint generate_all (fuel : nat) (names : list str) (l : list dep) (g : gst) : option (res (list dep * gst)) :=
    match names with
    | [] => Some (Ok (l, g))
    | n :: t => match generate fuel n l g with
                | Some (Ok (l', g')) => generate_all fuel t l' g'
                | o => o
                end
    end.
End GenDeps.
Arguments G {st} _ _.
Arguments g_seen {st} _.
Arguments g_st {st} _.
