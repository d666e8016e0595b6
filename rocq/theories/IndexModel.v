(** The repository index: written by repo.cxx:73-121, read by pkgrepo.cxx:389-546 (parse()). *)
From Verif Require Import Base StrModel RulesModel FsModel FsProofs MetaModel DbModel GenDeps.
From Coq Require Import ZArith.

(** cards::cache (cache.h, db.h, pkg.h). The one-valued members set by a line are kept as the text of that line:
    [i_val c] is the text after the tag [c]; None: never set (strings empty, numbers not initialised). Simplification: the
    number conversions are applied when a member is used ([i_release] ... below). *)
Record irec := IRec { i_file : str; i_val : ascii -> option str; i_base : str; i_many : ascii -> list str; i_deps : list dep }.
Definition i_text (c : ascii) (i : irec) : str := match i_val i c with Some v => v | None => [] end.
Definition put (c : ascii) (v : str) (f : ascii -> option str) : ascii -> option str := fun x => if ceqb x c then Some v else f x.
Definition putm (c : ascii) (v : list str) (f : ascii -> list str) : ascii -> list str := fun x => if ceqb x c then v else f x.
Definition no_many : ascii -> list str := fun _ => [].
Definition blank : irec := IRec [] (fun _ => None) [] no_many [].
(** number members: pkgrepo.cxx:449-453, 479, 519-520 *)
Definition atoi_int (s : str) : Z := ((strtol10 s + 2 ^ 31) mod 2 ^ 32 - 2 ^ 31)%Z.
Definition i_size (i : irec) : option Z := option_map (fun v => (atoi_int v mod 2 ^ 64)%Z) (i_val i "i").
Definition i_build (i : irec) : option Z := option_map epoch (i_val i "B").

(** tags of the one-valued members and of the many-valued ones *)
Definition one_tags : list ascii := ["V"; "r"; "S"; "a"; "D"; "U"; "C"; "M"; "P"; "L"; "B"; "c"; "g"; "n"; "H"; "I"; "i"]%char.
Definition many_tags : list ascii := ["l"; "A"; "s"; "T"; "o"]%char.
Definition amem (c : ascii) (l : list ascii) : bool := existsb (ceqb c) l.

(** local variables of parse(): pkgFound, pkgName, info, the sets and dependencies, and the result m_listOfPackages *)
Record pst := P { p_found : bool; p_name : str; p_info : irec; p_many : ascii -> list str; p_deps : list dep; p_map : list (str * irec) }.
(** pkgrepo.cxx:429-439: a line starting with @ *)
Definition at_line (s : str) (p : pst) : pst :=
  match sfind (L ".cards-") s with
  | Some _ => P true (p_name p) (IRec (skipn 1 s) (put "n" [] (put "g" [] (i_val (p_info p)))) [] (i_many (p_info p)) (i_deps (p_info p)))
                (p_many p) (p_deps p) (p_map p)
  | None => p
  end.
(** pkgrepo.cxx:441-522: a tagged line inside a record; None: not handled by the switch *)
Definition tag_line (s : str) (p : pst) : option (res pst) :=
  match s with
  | [] => None
  | c :: v =>
      let i := p_info p in
      if ceqb c "N"%char then Some (Ok (P (p_found p) v i (p_many p) (p_deps p) (p_map p)))
      else if ceqb c "r"%char then Some (match stoi_u16 v with
                                         | Ok _ => Ok (P (p_found p) (p_name p) (IRec (i_file i) (put c v (i_val i)) (i_base i) (i_many i) (i_deps i)) (p_many p) (p_deps p) (p_map p))
                                         | Throw => Throw | UB => UB end)
      else if amem c one_tags then
        let b := if amem c ["g"; "n"]%char then base_name (p_name p) s else i_base i in
        Some (Ok (P (p_found p) (p_name p) (IRec (i_file i) (put c v (i_val i)) b (i_many i) (i_deps i)) (p_many p) (p_deps p) (p_map p)))
      else if amem c many_tags then Some (Ok (P (p_found p) (p_name p) i (putm c (sins v (p_many p c)) (p_many p)) (p_deps p) (p_map p)))
      else if ceqb c "R"%char then
        Some (if 14 <? length s then rbind (dep_of_line s) (fun d => Ok (P (p_found p) (p_name p) i (p_many p) (dins d (p_deps p)) (p_map p))) else Ok p)
      else None
  end.
(** pkgrepo.cxx:524-542: an empty line stores the record. m_listOfPackages[base] (l.525-527) inserts an empty record for an unknown base. *)
Definition store (p : pst) : pst :=
  let i := p_info p in
  let '(i1, m1) :=
    if (length (i_text "c" i) =? 0) && negb (length (i_base i) =? 0) then
      match mget (i_base i) (p_map p) with
      | Some b => (IRec (i_file i) (put "c" (i_text "c" b) (i_val i)) (i_base i) (i_many i) (i_deps i), p_map p)
      | None => (IRec (i_file i) (put "c" [] (i_val i)) (i_base i) (i_many i) (i_deps i), mset (i_base i) blank (p_map p))
      end
    else (i, p_map p) in
  let i2 := IRec (i_file i1) (i_val i1) (i_base i1) (p_many p) (p_deps p) in
  P false (p_name p) i2 no_many [] (mset (p_name p) i2 m1).
Definition idx_line (s : str) (p : pst) : res pst :=
  if has_tag "@" s then Ok (at_line s p)
  else match (if p_found p then tag_line s p else None) with
       | Some r => r
       | None => match s with [] => Ok (store p) | _ => Ok p end
       end.
Fixpoint idx_lines (ls : list str) (p : pst) : res pst :=
  match ls with [] => Ok p | s :: t => rbind (idx_line s p) (idx_lines t) end.
(** pkgrepo.cxx:389-546: the collections in the order of the configuration: name and content of the index (None: unreadable, skipped).
    Directory and origin of a package are those of the collection and are not modelled here. UB: see parse_lines. *)
Fixpoint parse_dirs (dirs : list (str * option str)) (i : irec) (m : list (str * irec)) : res (list (str * irec)) :=
  match dirs with
  | [] => Ok m
  | (coll, content) :: t =>
      let i0 := IRec (i_file i) (put "c" coll (i_val i)) (i_base i) (i_many i) (i_deps i) in
      match content with
      | None => parse_dirs t i0 m
      | Some text =>
          match parse_lines text with
          | None => UB
          | Some ls => rbind (idx_lines ls (P false [] i0 no_many [] m)) (fun p => parse_dirs t (p_info p) (p_map p))
          end
      end
  end.
Definition parse_repo (dirs : list (str * option str)) : res (list (str * irec)) := parse_dirs dirs blank [].

(** the generator: what it knows of one archive file, and the lines it writes: repo.cxx:81-118. [g_size]: the size as printed by itos *)
Record gpkg := Gp { gp_file : str; gp_meta : list str; gp_hash : str; gp_sig : str; gp_size : N }.
Definition gen_tail (p : gpkg) : list str := [("H"%char :: gp_hash p); ("I"%char :: gp_sig p); ("i"%char :: dec (gp_size p mod 2 ^ 32)); []].
Definition gen_lines (p : gpkg) : list str := ("@"%char :: gp_file p) :: gp_meta p ++ gen_tail p.
Definition gen_index (ps : list gpkg) : str := text_of (flat_map gen_lines ps).
(** the dependencies handed to GenDeps *)
Definition index_deps (m : list (str * irec)) : list (str * list dep) := map (fun e => (fst e, i_deps (snd e))) m.
