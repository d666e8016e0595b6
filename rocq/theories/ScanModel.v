(** list.cxx and search.cxx: scanning the mapped index files. Simplifications: the index does not change between stat() and mmap();
    the file is mapped with its exact size, so a read past its last byte is a read outside (result Over); the text is printed as is. *)
From Verif Require Import Base StrModel FsModel FsProofs MetaModel IndexModel DbModel.

(** the structure filled while scanning: list.cxx:76-81, search.h:15-25. A member is named by the tag of its line *)
Definition entry := ascii -> str.
Definition start_entry : entry := fun c => if ceqb c "c"%char then L " " else [].
Definition set_entry (c : ascii) (v : str) (e : entry) : entry := fun x => if ceqb x c then v else e x.
(** one line (without its newline): list.cxx:117-136, search.cxx:51-88 *)
Definition scan_line (tags resets : list ascii) (s : str) (st : entry * list entry) : entry * list entry :=
  match s with
  | [] => (fun x => if amem x resets then [] else fst st x, snd st ++ [fst st])
  | c :: v => (if amem c tags then set_entry c v (fst st) else fst st, snd st)
  end.
(** the loop over the mapped bytes: list.cxx:106-138, search.cxx:40-90. memchr() may look at as many bytes as the whole file has, counted
    from p: it stays inside iff there is a newline between p and the end. None: it reads outside *)
Fixpoint scan_loop (fuel : nat) (tags resets : list ascii) (data : str) (st : entry * list entry) : option (entry * list entry) :=
  match data with
  | [] => Some st
  | _ =>
    match fuel with
    | 0 => Some st
    | S f => match cfind nl data with
             | None => None
             | Some n => scan_loop f tags resets (skipn (S n) data) (scan_line tags resets (firstn n data) st)
             end
    end
  end.
Definition scan_file (tags resets : list ascii) (data : str) : option (list entry) := option_map snd (scan_loop (length data) tags resets data (start_entry, [])).
(** list.cxx:88-141, search.cxx:22-93: all the collections, in the order of the configuration; the content of an index that cannot be
    opened is None. mmap() fails for it and for an empty file *)
Inductive scanned := Over | Quit (so_far : list entry) | Listed (l : list entry).
Fixpoint scan_all (tags resets : list ascii) (files : list (option str)) (acc : list entry) : scanned :=
  match files with
  | [] => Listed acc
  | None :: _ | Some [] :: _ => Quit acc
  | Some d :: t => match scan_file tags resets d with None => Over | Some l => scan_all tags resets t (acc ++ l) end
  end.
Definition list_tags : list ascii := ["N"; "V"; "r"; "c"]%char.
Definition search_tags : list ascii := ["N"; "V"; "r"; "c"; "D"; "U"; "P"; "g"; "n"]%char.
Definition search_resets : list ascii := ["g"; "D"; "n"]%char.
(** list.cxx:74-148: the lines printed (collection, name, version, release). A failing mmap() returns before anything is printed *)
Definition list_cmd (files : list (option str)) : option (list (str * str * str * str)) :=
  match scan_all list_tags [] files [] with
  | Over => None
  | Quit _ => Some []
  | Listed l => Some (map (fun e => (e "c"%char, e "N"%char, e "V"%char, e "r"%char)) l)
  end.
(** list.cxx:24-73: the sets *)
Definition set_line (s : str) (acc : list str) : list str := match s with c :: v => if ceqb c "s"%char then sins v acc else acc | [] => acc end.
Fixpoint sets_loop (fuel : nat) (data : str) (acc : list str) : option (list str) :=
  match data with
  | [] => Some acc
  | _ => match fuel with
         | 0 => Some acc
         | S f => match cfind nl data with None => None | Some n => sets_loop f (skipn (S n) data) (set_line (firstn n data) acc) end
         end
  end.
Fixpoint sets_all (files : list (option str)) (acc : list str) : option (list str) :=
  match files with
  | [] => Some acc
  | None :: _ | Some [] :: _ => Some []
  | Some d :: t => match sets_loop (length d) d acc with None => None | Some acc' => sets_all t acc' end
  end.
Definition sets_cmd (files : list (option str)) : option (list str) := sets_all files [].
(** search.cxx:95-150. In search.cxx a failing mmap() leaves parse(), and list() shows what was found before *)
Definition hit (pat s : str) : bool := match sfind pat s with Some _ => true | None => false end.
Definition search_shows (names_only : bool) (arg : str) (e : entry) : bool :=
  let pat := lower_case arg in
  if names_only then hit pat (e "N"%char)
  else (hit pat (e "c"%char) || hit pat (e "N"%char) || hit pat (lower_case (e "D"%char)) || hit pat (lower_case (e "U"%char)) || hit pat (lower_case (e "P"%char)) || hit pat (lower_case (e "V"%char)))
       && (length (e "n"%char) =? 0).
Definition search_cmd (names_only : bool) (arg : str) (files : list (option str)) : option (list entry) :=
  match scan_all search_tags search_resets files [] with
  | Over => None
  | Quit l | Listed l => Some (filter (search_shows names_only arg) l)
  end.
