(** src/webcards.cxx, webcards.h, webrepo.cxx: the page made by index.cgi. Simplifications: of the page only the content cell is modelled (the
    header, the menus, the footer and the form are fixed texts; the form carries the searched text, see [search_field]); the dates are given by a
    function of the time; content/.visits is not modelled. mysql.cxx is not used (webcards.cxx:447 is commented out). *)
From Verif Require Import Base StrModel RulesModel FsModel MetaModel.
From Coq Require Import ZArith NArith.

(** ** the table of contents: webcards.cxx:10-109 *)
Definition quot : ascii := "034"%char.
(** line.find(c, k) *)
Definition cfind_from (c : ascii) (k : nat) (s : str) : option nat := option_map (Nat.add k) (cfind c (skipn k s)).
(** int headerLevel = line[...]: a signed char *)
Definition hlevel (c : ascii) : Z := let n := Z.of_N (N_of_ascii c) in (if n <? 128 then n else n - 256)%Z.
Fixpoint times (k : nat) (s : str) : str := match k with 0 => [] | S k' => s ++ times k' s end.
Definition t_open : str := L "<li>" ++ nl :: L " <ul class=" ++ quot :: L "hN" ++ quot :: L ">".
Definition t_close : str := L "  </ul>" ++ nl :: L "</li>".
Definition t_first : str := L "<div class=" ++ quot :: L "toc" ++ quot :: L ">" ++ nl :: L " <h2>".
Definition t_list : str := L "  <ul class=" ++ quot :: L "h2" ++ quot :: L ">".
Definition t_last : str := L "</ul>" ++ nl :: L "</div>".
(** itos(ref): string_utils.cxx:107-112 *)
Definition num (k : nat) : str := dec (N.of_nat k mod 2 ^ 32).
Definition t_link (k : nat) (t : str) : str := L "<li><a href=" ++ quot :: L "#" ++ num k ++ quot :: L ">" ++ t ++ L "</a>".
Definition t_anchor (k : nat) : str := L "<a name=" ++ quot :: num k ++ quot :: L "></a>".
(** page, body, haveContent, ref, previousHeaderLevel *)
Record toc := Toc { t_page : list str; t_body : list str; t_have : bool; t_ref : nat; t_prev : Z }.
(** webcards.cxx:24-97: one line *)
Definition toc_line (tag title : str) (s : toc) (line : str) : toc :=
  match sfind tag line with
  | None => if t_have s then Toc (t_page s) (t_body s ++ [line]) (t_have s) (t_ref s) (t_prev s)
            else Toc (t_page s ++ [line]) (t_body s) (t_have s) (t_ref s) (t_prev s)
  | Some st =>
    let c := nth (st + 2) line zero in
    if ceqb c "1"%char then Toc (t_page s ++ [line]) (t_body s) (t_have s) (t_ref s) (t_prev s)
    else match cfind_from ">"%char (st + 1) line with
    | None => Toc (t_page s ++ [line]) (t_body s) (t_have s) (t_ref s) (t_prev s)
    | Some g =>
      let b := S g in
      match sfind (L "</") line with
      | None => Toc (t_page s) (t_body s) (t_have s) (t_ref s) (hlevel c)
      | Some e =>
        let page := if t_have s then t_page s else t_page s ++ [t_first; title; L "</h2>"; t_list] in
        let k := S (t_ref s) in
        (* line.substr(start, end - start): with end < start the difference wraps and the rest of the line is taken *)
        let text := if b <=? e then firstn (e - b) (skipn b line) else skipn b line in
        let sref := times (Z.to_nat (hlevel c - t_prev s)) t_open ++ times (Z.to_nat (t_prev s - hlevel c)) t_close ++ t_link k text in
        Toc (page ++ [sref]) (t_body s ++ [firstn b line ++ t_anchor k ++ skipn b line]) true k (hlevel c)
      end
    end
  end.
(** webcards.cxx:10-109 *)
Definition toc_page (text : list str) (tag title : str) : list str :=
  let s := fold_left (toc_line tag title) text (Toc [] [] false 0 (hlevel "2"%char)) in
  if t_have s then t_page s ++ [t_last] ++ t_body s else t_page s.

(** ** the arguments: webcards.cxx:121-162, webcards.h:30-37 *)
Record wargs := WArgs { a_system : str; a_branch : str; a_page : str; a_find : str; a_pkg : str; a_type : str }.
Definition after_mark (mark tok : str) (old : str) : str := match sfind mark tok with Some n => skipn (n + length mark) tok | None => old end.
Definition arg_step (a : wargs) (tok : str) : wargs :=
  WArgs (after_mark (L "system=") tok (a_system a)) (after_mark (L "branch=") tok (a_branch a)) (after_mark (L "page=") tok (a_page a))
        (after_mark (L "search=") tok (a_find a)) (after_mark (L "searchpkg=") tok (a_pkg a)) (after_mark (L "type=") tok (a_type a)).
Definition or_default (v d : str) : str := match v with [] => d | _ => v end.
Definition web_args (query : str) : wargs :=
  let l := match split_strtok_set query (L "&") with Some l => l | None => [] end in
  let a := fold_left arg_step l (WArgs [] [] (L "index") [] [] []) in
  WArgs (or_default (a_system a) (L "all")) (or_default (a_branch a) (L "systemd")) (a_page a) (a_find a) (a_pkg a) (or_default (a_type a) (L "pkg")).

(** ** the packages: webrepo.cxx:7-114. Only these members of cards::pkg are set; a number that was never set is None *)
Record wpkg := WPkg { w_sys : str; w_branch : str; w_coll : str; w_name : str; w_ver : str; w_rel : option N; w_desc : str; w_build : option Z }.
Record wst := W { s_info : wpkg; s_key : str; s_map : list (str * wpkg) }.
(** webrepo.cxx:77-104: one line *)
Definition web_line (s : wst) (line : str) : res wst :=
  let i := s_info s in
  match line with
  | [] => Ok (W i (s_key s) (mset (s_key s) i (s_map s)))
  | c :: v =>
    if ceqb c "N"%char then Ok (W (WPkg (w_sys i) (w_branch i) (w_coll i) v (w_ver i) (w_rel i) (w_desc i) (w_build i)) (w_sys i ++ L " " ++ w_branch i ++ L " " ++ v) (s_map s))
    else if ceqb c "V"%char then Ok (W (WPkg (w_sys i) (w_branch i) (w_coll i) (w_name i) v (w_rel i) (w_desc i) (w_build i)) (s_key s) (s_map s))
    else if ceqb c "r"%char then rbind (stoi_u16 v) (fun r => Ok (W (WPkg (w_sys i) (w_branch i) (w_coll i) (w_name i) (w_ver i) (Some r) (w_desc i) (w_build i)) (s_key s) (s_map s)))
    else if ceqb c "D"%char then Ok (W (WPkg (w_sys i) (w_branch i) (w_coll i) (w_name i) (w_ver i) (w_rel i) v (w_build i)) (s_key s) (s_map s))
    else if ceqb c "B"%char then Ok (W (WPkg (w_sys i) (w_branch i) (w_coll i) (w_name i) (w_ver i) (w_rel i) (w_desc i) (Some (epoch v))) (s_key s) (s_map s))
    else Ok s
  end.
(** webrepo.cxx:70-106: memchr() gets the size of the whole file from every p: without a newline up to the end it reads outside (UB). One unit of
    fuel per line *)
Fixpoint web_loop (fuel : nat) (data : str) (s : wst) : res wst :=
  match data with
  | [] => Ok s
  | _ => match fuel with
         | 0 => UB
         | S f => match cfind nl data with
                  | None => UB
                  | Some n => rbind (web_line s (firstn n data)) (fun s' => web_loop f (skipn (S n) data) s')
                  end
         end
  end.
(** webrepo.cxx:30-50: what the last part of the depot says about system and branch; anything else leaves what the depot before set *)
Definition web_version (depot old : str) : str := match crfind slash depot with Some n => strip (skipn (S n) depot) | None => old end.
Definition web_kind (v : str) (i : wpkg) : wpkg :=
  let set s b := WPkg s b (w_coll i) (w_name i) (w_ver i) (w_rel i) (w_desc i) (w_build i) in
  if seqb v (L "systemd") then set (L "systemd") (L "systemd")
  else if seqb v (L "rolling") then set (L "sys-v") (L "rolling")
  else if seqb v (L "testingd") then set (L "systemd") (L "testingd")
  else if seqb v (L "testing") then set (L "sys-v") (L "testing")
  else i.
Definition put_coll (c : str) (i : wpkg) : wpkg := WPkg (w_sys i) (w_branch i) c (w_name i) (w_ver i) (w_rel i) (w_desc i) (w_build i).
(** webrepo.cxx:25-109: the collections of the configuration. None: the index cannot be opened; then, and for an empty one, parse() returns *)
Record shelf := Shelf { h_depot : str; h_coll : str; h_index : option str }.
Fixpoint web_shelves (l : list shelf) (version : str) (s : wst) : res wst :=
  match l with
  | [] => Ok s
  | h :: t =>
    let v := web_version (h_depot h) version in
    let s1 := W (put_coll (h_coll h) (web_kind v (s_info s))) [] (s_map s) in
    match h_index h with
    | None | Some [] => Ok s1
    | Some d => rbind (web_loop (length d) d s1) (fun s2 => web_shelves t v s2)
    end
  end.
Definition no_pkg : wpkg := WPkg [] [] [] [] [] None [] None.
Definition web_repo (l : list shelf) : res (list (str * wpkg)) := rbind (web_shelves l [] (W no_pkg [] [])) (fun s => Ok (s_map s)).

(** ** the search for packages: webcards.cxx:266-384, webcards.h:12-23 *)
Section Search.
  (** getDateFromEpoch, and the values of members that were never set *)
  Variables (date : Z -> str) (j_rel : N) (j_build : Z).
  Definition cell (s : str) : str := L "<td>" ++ s ++ L "</td>".
  Definition row_of (i : wpkg) (base name : str) : str :=
    cell (w_sys i) ++ cell (w_branch i) ++ cell (w_coll i)
    ++ L "<td> <a href=" ++ quot :: L "https://github.com/NuTyX/" ++ w_sys i ++ L "/tree/" ++ w_branch i ++ L "/" ++ w_coll i ++ L "/" ++ base ++ quot :: L ">" ++ name ++ L "</a></td>"
    ++ L "<td> <a href=" ++ quot :: L "https://github.com/NuTyX/" ++ w_sys i ++ L "/commits/" ++ w_branch i ++ L "/" ++ w_coll i ++ L "/" ++ base ++ quot :: L ">"
    ++ w_ver i ++ L "-" ++ dec (match w_rel i with Some r => r | None => j_rel end) ++ L "</a></td>"
    ++ cell (w_desc i) ++ cell (date (match w_build i with Some b => b | None => j_build end)).
  (** webcards.cxx:268-282 *)
  Definition first_token (s : str) (d : str) : str := match split_strtok s d with Some (t :: _) => t | _ => s end.
  Definition needle (s : str) : str := first_token (first_token s (L "%")) (L "+").
  Definition has (p s : str) : bool := match sfind p s with Some _ => true | None => false end.
  (** webcards.cxx:291-347. The members group and alias are never set (webrepo.cxx:83-103), so the loops of l.330-345 do nothing *)
  Definition branch_ok (a : wargs) (i : wpkg) : bool := seqb (a_branch a) (w_branch i) || seqb (a_branch a) (L "all").
  Definition system_ok (a : wargs) (i : wpkg) : bool := seqb (a_system a) (w_sys i) || seqb (a_system a) (L "all").
  Definition web_match (a : wargs) (i : wpkg) : bool :=
    let s := needle (a_pkg a) in
    if seqb (a_type a) (L "col") then seqb (lower_case s) (w_coll i) && branch_ok a i && system_ok a i
    else match s with
         | [] => true
         | _ => branch_ok a i && system_ok a i && (has (lower_case s) (w_coll i) || has (lower_case s) (w_name i) || has (lower_case s) (lower_case (w_desc i)))
         end.
  Definition web_rows (a : wargs) (repo : list (str * wpkg)) : list str :=
    fold_left (fun acc p => if web_match a (snd p) then sins (row_of (snd p) (w_name (snd p)) (w_name (snd p))) acc else acc) repo [].

  (** ** the page: webcards.cxx:385-566. content: the files of content/ whose name does not begin with a dot, in the order of their names *)
  Record article := Art { c_date : str; c_board : str; c_text : list str }.
  (** webcards.cxx:251-265 *)
  Definition web_content (files : list (str * (str * list str))) : list (str * article) :=
    fold_left (fun m f => let '(k, v) := split_key_value (fst f) "."%char in mset k (Art (fst (snd f)) v (snd (snd f))) m) files [].
  Inductive shown :=
  | TooShort                                       (* l.459-463, 474-478 *)
  | Packages (field : str) (count : nat) (rows : list str)   (* l.464-472: the form and, if the search text is not empty, the rows *)
  | Found (hits : list (str * str))                (* l.479-498: page and line *)
  | Form                                           (* l.499-504 *)
  | Page (date : str) (lines : list str) (board : str)       (* l.505-538 *)
  | Missing (lines : list str)                     (* l.539-547 *)
  | Fails (r : res unit).
  (** webcards.cxx:479-495: the lines of all articles but "packages" that contain the text *)
  Definition find_lines (a : wargs) (content : list (str * article)) : list (str * str) :=
    flat_map (fun p => if seqb (fst p) (L "packages") then [] else map (pair (fst p)) (filter (fun l => has (lower_case (a_find a)) (lower_case l)) (c_text (snd p)))) content.
  Definition web_shown (shelves : list shelf) (content : list (str * article)) (title : str) (query : str) : shown :=
    let a := web_args query in
    if negb (length (a_pkg a) =? 0) then
      if length (a_pkg a) <? 2 then TooShort
      else match web_repo shelves with
           | Ok repo => let rows := web_rows a repo in Packages (a_pkg a) (length rows) (if length (needle (a_pkg a)) =? 0 then [] else rows)
           | Throw => Fails Throw
           | UB => Fails UB
           end
    else if negb (length (a_find a) =? 0) then
      if length (a_find a) <? 3 then TooShort else Found (find_lines a content)
    else if seqb (a_page a) (L "packages") then Form
    else match mget (a_page a) content with
         | Some c => Page (c_date c) (toc_page (c_text c) (L "<h") title) (c_board c)
         | None => Missing ((L "<h1>" ++ a_page a ++ L " is not existing yet</h1>") :: match mget (L "under-construction") content with Some c => c_text c | None => [] end)
         end.
  (** webcards.cxx:223-224: the field of the form *)
  Definition search_field (v : str) : str :=
    L "        <input id=" ++ quot :: L "search-field" ++ quot :: L " type=" ++ quot :: L "text" ++ quot :: L " name=" ++ quot :: L "searchpkg" ++ quot :: L " size=" ++ quot :: L "18" ++ quot :: L " maxlength=" ++ quot :: L "200" ++ quot :: L " value=" ++ quot :: v ++ quot :: L " />".
End Search.
