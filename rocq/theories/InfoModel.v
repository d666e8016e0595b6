(** 'cards info -b' and 'cards info -S', and what the arguments of 'cards install' stand for. *)
From Verif Require Import Base BaseProofs StrModel RulesModel FsModel FsProofs MetaModel DbModel GenDeps HexModel IndexModel FetchModel ConfModel DiffModel SizeModel DiffAmounts InstallModel.
From Coq Require Import ZArith.
Open Scope nat_scope.

(** ** the packages a name stands for *)
(** pkgrepo.cxx:679-694: the names of the index with the set [x] and without a group *)
Definition set_members (m : list (str * irec)) (x : str) : list str :=
  set_of (map fst (filter (fun p : str * irec => smem x (i_many (snd p) "s") && is_nil (i_text "g" (snd p))) m)).
(** pkgrepo.cxx:695-709: of the collection [x], without a group and not for one language *)
Definition coll_members (m : list (str * irec)) (x : str) : list str :=
  set_of (map fst (filter (fun p : str * irec => seqb (i_text "c" (snd p)) x && is_nil (i_text "g" (snd p)) && is_nil (i_text "n" (snd p))) m)).
(** info.cxx:13-15 and install.cxx:29-31: the set, and if nothing is in it the collection *)
Definition members (m : list (str * irec)) (x : str) : list str := match set_members m x with [] => coll_members m x | l => l end.
(** info.cxx:12-23 *)
Definition info_sets (m : list (str * irec)) (x : str) : str := text_of (map (fun n => "("%char :: x ++ L ") " ++ n) (members m x)).
(** install.cxx:28-40 and 66-69, for an argument that is not a file *)
Definition request_of (m : list (str * irec)) (x : str) : request := match members m x with [] => Package x | l => Members l end.
(** install.cxx:15-25, for an argument that is not a file: it stops with "not found" *)
Definition unknown (m : list (str * irec)) (x : str) : bool :=
  is_nil (coll_members m x) && match mget x m with Some _ => false | None => true end && is_nil (set_members m x).

(** ** where each record of the index was read: pkgrepo.cxx:397-411, the directory and address of the collection being read are part of the record
    stored at each empty line (l.517-541) *)
Fixpoint stored (ls : list str) (p : pst) : list str :=
  match ls with
  | [] => []
  | s :: t => match idx_line s p with
              | Ok p' => (if is_nil s then [p_name p] else []) ++ stored t p'
              | _ => []
              end
  end.
Definition named_in (d : dirurl) (ns : list str) (own : list (str * dirurl)) : list (str * dirurl) := fold_left (fun o n => mset n d o) ns own.
Fixpoint parse_places (dirs : list (dirurl * option str)) (i : irec) (m : list (str * irec)) (own : list (str * dirurl)) : res (list (str * irec) * list (str * dirurl)) :=
  match dirs with
  | [] => Ok (m, own)
  | (d, content) :: t =>
      let i0 := IRec (i_file i) (put "c" (u_coll d) (i_val i)) (i_base i) (i_many i) (i_deps i) in
      match content with
      | None => parse_places t i0 m own
      | Some text =>
          match parse_lines text with
          | None => UB
          | Some ls => let p0 := P false [] i0 no_many [] m in
                       rbind (idx_lines ls p0) (fun p => parse_places t (p_info p) (p_map p) (named_in d (stored ls p0) own))
          end
      end
  end.
(** pkgrepo.cxx:389-546 *)
Definition read_places (dirs : list (dirurl * option str)) : res (list (str * irec) * list (str * dirurl)) := parse_places dirs blank [] [].

(** ** the report *)
Definition head (h : string) (v : str) : list str := [L h ++ v].
(** pkgrepo.cxx:279-306: a line only when there is something to say *)
Definition heads (h : string) (l : list str) : list str := match l with [] => [] | _ => [L h ++ flat_map (fun x => " "%char :: x) l] end.
Section Report.
  Variables (date : Z -> str) (machine version : str).
  Variables (j_rel : N) (j_build : Z) (j_size j_space : N).   (** what members never set hold *)
  (** pkgrepo.cxx:273-382, without translation of the headings. [d]: where the record was read; a record that was only created by looking up the
      collection of a base package (l.519) has no place: [None] *)
  Definition info_lines (n : str) (i : irec) (d : option dirurl) : list str :=
    head "Name           : " n ++
    heads "Alias          :" (i_many i "A") ++
    head "Description    : " (i_text "D" i) ++
    head "Archive name   : " (i_file i) ++
    (if is_nil (i_text "g" i) then [] else head "Group          : " (i_text "g" i)) ++
    heads "Categories     :" (i_many i "T") ++
    head "Collection     : " (i_text "c" i) ++
    heads "Sets           :" (i_many i "s") ++
    head "URL            : " (i_text "U" i) ++
    head "License        : " (i_text "L" i) ++
    head "Version        : " (i_text "V" i) ++
    head "Release        : " (dec (known j_rel (i_release i))) ++
    head "Build date     : " (date (known j_build (i_build i))) ++
    head "Hashsum        : " (i_text "H" i) ++
    head "Signature      : " (i_text "I" i) ++
    head "Archive Size   : " (size_text (Z.to_N (known (Z.of_N j_size) (i_size i))) ++ L "bytes") ++
    head "Installed Size : " (size_text (known j_space (i_space i)) ++ L "bytes") ++
    head "Maintainer(s)  : " (i_text "M" i) ++
    head "Packager       : " (i_text "P" i) ++
    head "Contributor(s) : " (i_text "C" i) ++
    head "Arch           : " (i_text "a" i) ++
    head "Binary URL     : " (match d with Some d => u_url d ++ slash :: machine ++ slash :: version ++ slash :: u_coll d | None => [] end) ++
    head "Local folder   : " (match d with Some d => coll_path d | None => [] end) ++
    match i_deps i with [] => [] | ds => head "Dependencies   : " (flat_map (fun d => fst d ++ [" "%char]) ds) end.
  (** info.cxx:24-27; nothing at all for a name that is not in the index *)
  Definition info_binary (m : list (str * irec)) (own : list (str * dirurl)) (n : str) : str :=
    match mget n m with Some i => text_of (info_lines n i (mget n own)) | None => [] end.
End Report.

(** install.cxx:15-98 for arguments that are not files: [run] is the rest of the command (InstallModel.v), given what the arguments stand for *)
Definition install_cmd (m : list (str * irec)) (run : list request -> option (option stop * world)) (args : list str) (w : world) : option (option stop * world) :=
  if existsb (unknown m) args then Some (Some Exception, w) else run (map (request_of m) args).
