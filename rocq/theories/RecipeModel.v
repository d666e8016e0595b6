(** pkgfile.cxx:81-180: reading the recipes (Pkgfile) of the ports. Simplifications: the recipes come as a list, in whatever order readdir()
    gave them, each with the content of its file (None: it cannot be read); the release is kept as text; replaceAll is its closed form
    (C33_replace_all_char); a NUL or an over-long line is what parse_lines makes of it. *)
From Verif Require Import Base BaseProofs StrModel StrSpec FsModel FsProofs MetaModel.

(** pkgfile.cxx:117-119 *)
Definition clean (l : str) : str := subst_char "\"%char [" "%char] (subst_char ","%char [" "%char] (strip l)).
(** pkgfile.cxx:122-135 *)
Definition field_keys : list str := [L "description"; L "url"; L "version"; L "release"; L "packager"; L "contributors"; L "maintainer"].
(** pkgfile.cxx:136, 146 *)
Definition array_keys : list str := [L "makedepends"; L "run"].
Definition eq_sign : ascii := "="%char.
Definition assign (k : str) : str := k ++ [eq_sign].
Definition opening (k : str) : str := k ++ [eq_sign; "("%char].
(** pkgfile.cxx:123: stripWhiteSpace(getValueBefore(getValue(line, '='), '#')) *)
Definition field_value (line : str) : str := strip (get_value_before (get_value line eq_sign) "#"%char).
Definition set_val (k v : str) (f : str -> str) : str -> str := fun x => if seqb x k then v else f x.
(** the first key that fits *)
Definition field_of (line : str) : option str := find (fun k => prefixb (assign k) line) field_keys.
Definition array_of (line : str) : option str := find (fun k => prefixb (opening k) line) array_keys.
Definition close : ascii := ")"%char.
(** s[pos] = ' ' *)
Definition blank_at (n : nat) (s : str) : str := firstn n s ++ " "%char :: skipn (S n) s.
Record rst := R { r_vals : str -> str; r_found : bool; r_text : str }.
(** one line, pkgfile.cxx:116-166 *)
Definition recipe_line (st : rst) (p : str) : rst :=
  let line := clean p in
  if match line with c :: _ => ceqb c "#"%char | [] => false end then st
  else
    match field_of line, array_of line with
    | None, Some k =>
        let s := r_text st ++ skipn (length (opening k)) line in
        match cfind close s with
        | Some n => R (r_vals st) false (blank_at n s)
        | None => R (r_vals st) true (s ++ [" "%char])
        end
    | f, _ =>
        let vals := match f with Some k => set_val k (field_value line) (r_vals st) | None => r_vals st end in
        if r_found st then
          match cfind close line with
          | Some n => R vals false (r_text st ++ firstn n line ++ [" "%char])
          | None => R vals true (r_text st ++ line ++ [" "%char])
          end
        else R vals false (r_text st)
    end.
Record port := Port { p_coll : str; p_vals : str -> str; p_deps : list str }.
(** one recipe, pkgfile.cxx:100-173. [info] and [found] live across recipes, [s] does not *)
Definition read_recipe (coll name : str) (content : option str) (st : port * bool * list (str * port)) : res (port * bool * list (str * port)) :=
  let '(info, found, m) := st in
  let vals := set_val (L "release") (L "1") (p_vals info) in
  match content with
  | None => let info := Port coll vals (p_deps info) in Ok (info, found, mset name info m)
  | Some c => match parse_lines c with
              | None => UB
              | Some ls => let r := fold_left recipe_line ls (R vals found []) in
                           match split_strtok_set (r_text r) [" "%char] with
                           | None => UB
                           | Some d => let info := Port coll (r_vals r) d in Ok (info, r_found r, mset name info m)
                           end
              end
  end.
Fixpoint read_recipes (l : list (str * str * option str)) (st : port * bool * list (str * port)) : res (list (str * port)) :=
  match l with
  | [] => Ok (snd st)
  | (coll, name, c) :: t => match read_recipe coll name c st with Ok st' => read_recipes t st' | Throw => Throw | UB => UB end
  end.
Definition ports_read (l : list (str * str * option str)) : res (list (str * port)) := read_recipes l (Port [] (fun _ => []) [], false, []).
