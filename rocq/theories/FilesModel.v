(** files.cxx, query.cxx (option -b), pkgrepo.cxx:547-628 and repo.cxx:66-99: the .FILES indexes. Simplifications: a collection is its name
    and the content of its .FILES index (None: it cannot be opened); the regular expression is a predicate on text; what is printed is a list. *)
From Verif Require Import Base BaseProofs StrModel FsModel FsProofs MetaModel.

Definition at_sign : ascii := "@"%char.
Definition dot_cards : str := L ".cards-".
Definition starts_at (s : str) : bool := match s with c :: _ => ceqb c at_sign | [] => false end.
Definition found_in (p s : str) : bool := match sfind p s with Some _ => true | None => false end.

(** ** the generator, repo.cxx:74-99: one paragraph per archive: "@" and the archive's file name, the sorted files, a blank line *)
Record farch := FA { fa_file : str; fa_files : list str }.
Definition files_par (a : farch) : list str := (at_sign :: fa_file a) :: fa_files a ++ [[]].
Definition files_lines (ar : list farch) : list str := flat_map files_par ar.
Definition files_index (ar : list farch) : str := text_of (files_lines ar).

(** ** cards files -b <name>: files.cxx:20-56 *)
(** one index, files.cxx:35-51: the lines printed and whether the blank line that ends the paragraph was met *)
Fixpoint files_scan (pat : str) (ls : list str) (found : bool) (out : list str) : bool * list str :=
  match ls with
  | [] => (false, out)
  | l :: t => if starts_at l && found_in pat l then files_scan pat t true out
              else if found then match l with [] => (true, out) | _ => files_scan pat t found (out ++ [l]) end
              else files_scan pat t found out
  end.
(** the collections in the order of the configuration, files.cxx:27-54; an index that cannot be opened gives fgets() a null pointer *)
Fixpoint files_dirs (pat : str) (dirs : list (str * option str)) (out : list str) : res (list str) :=
  match dirs with
  | [] => Ok out
  | (_, None) :: _ => UB
  | (_, Some c) :: t => match parse_lines c with
                        | None => UB
                        | Some ls => let '(stop, out') := files_scan pat ls false out in if stop then Ok out' else files_dirs pat t out'
                        end
  end.
Definition files_cmd (name : str) (dirs : list (str * option str)) : res (list str) := files_dirs (at_sign :: name ++ dot_cards) dirs [].

(** ** cards query -b <expr>: query.cxx:20-88. Pkg.name is declared outside the loop over the collections *)
Fixpoint query_scan (m : str -> bool) (coll : str) (ls : list str) (name : str) (out : list (str * str * str)) : str * list (str * str * str) :=
  match ls with
  | [] => (name, out)
  | l :: t => if starts_at l then query_scan m coll t (skipn 1 l) out
              else query_scan m coll t name (if m (slash :: l) then out ++ [(coll, name, slash :: l)] else out)
  end.
Fixpoint query_dirs (m : str -> bool) (dirs : list (str * option str)) (name : str) (out : list (str * str * str)) : res (list (str * str * str)) :=
  match dirs with
  | [] => Ok out
  | (_, None) :: _ => UB
  | (coll, Some c) :: t => match parse_lines c with
                           | None => UB
                           | Some ls => let '(name', out') := query_scan m coll ls name out in query_dirs m t name' out'
                           end
  end.
(** "Package", the header line's text, is what Pkg.name holds first: query.cxx:37 *)
Definition query_cmd (m : str -> bool) (dirs : list (str * option str)) : res (list (str * str * str)) := query_dirs m dirs (L "Package") [].

(** ** pkgrepo::parseFiles(): pkgrepo.cxx:547-586. The map from package name to its files; unreadable indexes are passed over *)
Definition add_file (n f : str) (m : list (str * list str)) : list (str * list str) := mset n (sins f (match mget n m with Some l => l | None => [] end)) m.
Record pfst := PF { pf_name : str; pf_found : bool; pf_map : list (str * list str) }.
Definition pf_line (p : pfst) (l : str) : pfst :=
  match (if starts_at l then sfind dot_cards l else None) with
  | Some n => PF (firstn (n - 1) (skipn 1 l)) true (pf_map p)
  | None => if pf_found p then match l with [] => PF (pf_name p) false (pf_map p) | _ => PF (pf_name p) true (add_file (pf_name p) l (pf_map p)) end
            else p
  end.
Fixpoint pf_dirs (dirs : list (str * option str)) (p : pfst) : res pfst :=
  match dirs with
  | [] => Ok p
  | (_, None) :: t => pf_dirs t p
  | (_, Some c) :: t => match parse_lines c with None => UB | Some ls => pf_dirs t (fold_left pf_line ls p) end
  end.
Definition parse_files (dirs : list (str * option str)) (m : list (str * list str)) : res (list (str * list str)) :=
  match pf_dirs dirs (PF [] false m) with Ok p => Ok (pf_map p) | Throw => Throw | UB => UB end.
