(** Package records: numbers, META lines (pkgdbh.cxx:468-649) and reading an archive (archive.cxx, pkgdbh.cxx:1122-1177). *)
From Verif Require Import Base StrModel FsModel.

(** a C++ computation: a value, an exception (reported to the user), or undefined behaviour *)
Inductive res (A : Type) := Ok (a : A) | Throw | UB.
Arguments Ok {A} a. Arguments Throw {A}. Arguments UB {A}.
Definition rbind {A B} (x : res A) (g : A -> res B) : res B :=
  match x with Ok a => g a | Throw => Throw | UB => UB end.

(** ** C library number parsing *)
Definition digval (c : ascii) : N :=
  let n := N_of_ascii c in
  if ((48 <=? n) && (n <=? 57))%N then (n - 48)%N
  else if ((97 <=? n) && (n <=? 122))%N then (n - 87)%N
  else if ((65 <=? n) && (n <=? 90))%N then (n - 55)%N else 99%N.
Fixpoint num (base acc : N) (s : str) : N :=
  match s with
  | c :: t => if (digval c <? base)%N then num base (acc * base + digval c)%N t else acc
  | [] => acc
  end.
Definition has_digit (base : N) (s : str) : bool := match s with c :: _ => (digval c <? base)%N | [] => false end.
(** optional sign *)
Definition sign (s : str) : bool * str :=
  match s with
  | c :: t => if ceqb c "-"%char then (true, t) else if ceqb c "+"%char then (false, t) else (false, s)
  | [] => (false, [])
  end.
(** base 0: 0x.. hexadecimal, 0.. octal, else decimal *)
Definition base0 (s : str) : N * str :=
  match s with
  | z :: x :: t => if ceqb z "0"%char then
                     if (ceqb x "x"%char || ceqb x "X"%char) && has_digit 16 t then (16%N, t) else (8%N, s)
                   else (10%N, s)
  | [z] => if ceqb z "0"%char then (8%N, s) else (10%N, s)
  | [] => (10%N, s)
  end.
(** strtoul(s, nullptr, 0) *)
Definition strtoul0 (s : str) : N :=
  let '(neg, s1) := sign (drop_space (cstr s)) in
  let '(b, s2) := base0 s1 in
  let v := num b 0 s2 in
  if (2 ^ 64 <=? v)%N then (2 ^ 64 - 1)%N else if neg then ((2 ^ 64 - v) mod 2 ^ 64)%N else v.
(** conversion of the unsigned long to time_t (signed 64 bits) *)
Definition to_time (v : N) : Z := if (v <? 2 ^ 63)%N then Z.of_N v else (Z.of_N v - 2 ^ 64)%Z.
Definition epoch (s : str) : Z := to_time (strtoul0 s).
(** strtol(s, nullptr, 10), saturating *)
Definition strtol10 (s : str) : Z :=
  let '(neg, s1) := sign (drop_space (cstr s)) in
  let v := Z.of_N (num 10 0 s1) in
  if neg then Z.max (- 2 ^ 63) (- v) else Z.min (2 ^ 63 - 1) v.
(** atoi(s) = (int) strtol(s), then stored in an unsigned short (release, pkg.h:20) or an unsigned int (space, db.h:11) *)
Definition atoi_u16 (s : str) : N := Z.to_N (strtol10 s mod 2 ^ 16).
Definition atoi_u32 (s : str) : N := Z.to_N (strtol10 s mod 2 ^ 32).
(** std::stoi(s), then stored in an unsigned short: throws without digits or outside int *)
Definition stoi_u16 (s : str) : res N :=
  let '(_, s1) := sign (drop_space (cstr s)) in
  if negb (has_digit 10 s1) then Throw
  else let v := strtol10 s in
       if ((v <? - 2 ^ 31) || (2 ^ 31 <=? v))%Z then Throw else Ok (Z.to_N (v mod 2 ^ 16)).

(** std::set<std::pair<std::string,time_t>> *)
Definition dep := (str * Z)%type.
Definition dltb (a b : dep) : bool := sltb (fst a) (fst b) || (seqb (fst a) (fst b) && (snd a <? snd b)%Z).
Fixpoint dins (x : dep) (s : list dep) : list dep :=
  match s with
  | [] => [x]
  | y :: t => if dltb x y then x :: s else if dltb y x then y :: dins x t else s
  end.

(** cards::db and cards::pkg (db.h:9-33, pkg.h). Numeric members without a value are never initialised: None. *)
Record rec := Rec {
  r_version : str; r_release : option N; r_build : option Z; r_descr : str; r_url : str; r_contrib : str; r_maint : str;
  r_packager : str; r_license : str; r_arch : str; r_coll : str; r_group : str; r_base : str; r_space : option N;
  r_alias : list str; r_sets : list str; r_cats : list str; r_deps : list dep; r_auto : bool; r_files : list str }.

(** a default-constructed record; m_dependency is not initialised by the constructor (db.cxx:7-10): [junk] is its value *)
Definition empty_rec (junk : bool) : rec :=
  Rec [] None None [] [] [] [] [] [] [] [] [] [] None [] [] [] [] junk [].

(** setters *)
Definition with_version v r := Rec v (r_release r) (r_build r) (r_descr r) (r_url r) (r_contrib r) (r_maint r) (r_packager r) (r_license r) (r_arch r) (r_coll r) (r_group r) (r_base r) (r_space r) (r_alias r) (r_sets r) (r_cats r) (r_deps r) (r_auto r) (r_files r).
Definition with_release v r := Rec (r_version r) v (r_build r) (r_descr r) (r_url r) (r_contrib r) (r_maint r) (r_packager r) (r_license r) (r_arch r) (r_coll r) (r_group r) (r_base r) (r_space r) (r_alias r) (r_sets r) (r_cats r) (r_deps r) (r_auto r) (r_files r).
Definition with_build v r := Rec (r_version r) (r_release r) v (r_descr r) (r_url r) (r_contrib r) (r_maint r) (r_packager r) (r_license r) (r_arch r) (r_coll r) (r_group r) (r_base r) (r_space r) (r_alias r) (r_sets r) (r_cats r) (r_deps r) (r_auto r) (r_files r).
Definition with_descr v r := Rec (r_version r) (r_release r) (r_build r) v (r_url r) (r_contrib r) (r_maint r) (r_packager r) (r_license r) (r_arch r) (r_coll r) (r_group r) (r_base r) (r_space r) (r_alias r) (r_sets r) (r_cats r) (r_deps r) (r_auto r) (r_files r).
Definition with_url v r := Rec (r_version r) (r_release r) (r_build r) (r_descr r) v (r_contrib r) (r_maint r) (r_packager r) (r_license r) (r_arch r) (r_coll r) (r_group r) (r_base r) (r_space r) (r_alias r) (r_sets r) (r_cats r) (r_deps r) (r_auto r) (r_files r).
Definition with_contrib v r := Rec (r_version r) (r_release r) (r_build r) (r_descr r) (r_url r) v (r_maint r) (r_packager r) (r_license r) (r_arch r) (r_coll r) (r_group r) (r_base r) (r_space r) (r_alias r) (r_sets r) (r_cats r) (r_deps r) (r_auto r) (r_files r).
Definition with_maint v r := Rec (r_version r) (r_release r) (r_build r) (r_descr r) (r_url r) (r_contrib r) v (r_packager r) (r_license r) (r_arch r) (r_coll r) (r_group r) (r_base r) (r_space r) (r_alias r) (r_sets r) (r_cats r) (r_deps r) (r_auto r) (r_files r).
Definition with_packager v r := Rec (r_version r) (r_release r) (r_build r) (r_descr r) (r_url r) (r_contrib r) (r_maint r) v (r_license r) (r_arch r) (r_coll r) (r_group r) (r_base r) (r_space r) (r_alias r) (r_sets r) (r_cats r) (r_deps r) (r_auto r) (r_files r).
Definition with_license v r := Rec (r_version r) (r_release r) (r_build r) (r_descr r) (r_url r) (r_contrib r) (r_maint r) (r_packager r) v (r_arch r) (r_coll r) (r_group r) (r_base r) (r_space r) (r_alias r) (r_sets r) (r_cats r) (r_deps r) (r_auto r) (r_files r).
Definition with_arch v r := Rec (r_version r) (r_release r) (r_build r) (r_descr r) (r_url r) (r_contrib r) (r_maint r) (r_packager r) (r_license r) v (r_coll r) (r_group r) (r_base r) (r_space r) (r_alias r) (r_sets r) (r_cats r) (r_deps r) (r_auto r) (r_files r).
Definition with_coll v r := Rec (r_version r) (r_release r) (r_build r) (r_descr r) (r_url r) (r_contrib r) (r_maint r) (r_packager r) (r_license r) (r_arch r) v (r_group r) (r_base r) (r_space r) (r_alias r) (r_sets r) (r_cats r) (r_deps r) (r_auto r) (r_files r).
Definition with_group v b r := Rec (r_version r) (r_release r) (r_build r) (r_descr r) (r_url r) (r_contrib r) (r_maint r) (r_packager r) (r_license r) (r_arch r) (r_coll r) v b (r_space r) (r_alias r) (r_sets r) (r_cats r) (r_deps r) (r_auto r) (r_files r).
Definition with_space v r := Rec (r_version r) (r_release r) (r_build r) (r_descr r) (r_url r) (r_contrib r) (r_maint r) (r_packager r) (r_license r) (r_arch r) (r_coll r) (r_group r) (r_base r) v (r_alias r) (r_sets r) (r_cats r) (r_deps r) (r_auto r) (r_files r).
Definition with_alias v r := Rec (r_version r) (r_release r) (r_build r) (r_descr r) (r_url r) (r_contrib r) (r_maint r) (r_packager r) (r_license r) (r_arch r) (r_coll r) (r_group r) (r_base r) (r_space r) v (r_sets r) (r_cats r) (r_deps r) (r_auto r) (r_files r).
Definition with_sets v r := Rec (r_version r) (r_release r) (r_build r) (r_descr r) (r_url r) (r_contrib r) (r_maint r) (r_packager r) (r_license r) (r_arch r) (r_coll r) (r_group r) (r_base r) (r_space r) (r_alias r) v (r_cats r) (r_deps r) (r_auto r) (r_files r).
Definition with_cats v r := Rec (r_version r) (r_release r) (r_build r) (r_descr r) (r_url r) (r_contrib r) (r_maint r) (r_packager r) (r_license r) (r_arch r) (r_coll r) (r_group r) (r_base r) (r_space r) (r_alias r) (r_sets r) v (r_deps r) (r_auto r) (r_files r).
Definition with_deps v r := Rec (r_version r) (r_release r) (r_build r) (r_descr r) (r_url r) (r_contrib r) (r_maint r) (r_packager r) (r_license r) (r_arch r) (r_coll r) (r_group r) (r_base r) (r_space r) (r_alias r) (r_sets r) (r_cats r) v (r_auto r) (r_files r).
Definition with_auto v r := Rec (r_version r) (r_release r) (r_build r) (r_descr r) (r_url r) (r_contrib r) (r_maint r) (r_packager r) (r_license r) (r_arch r) (r_coll r) (r_group r) (r_base r) (r_space r) (r_alias r) (r_sets r) (r_cats r) (r_deps r) v (r_files r).
Definition with_files v r := Rec (r_version r) (r_release r) (r_build r) (r_descr r) (r_url r) (r_contrib r) (r_maint r) (r_packager r) (r_license r) (r_arch r) (r_coll r) (r_group r) (r_base r) (r_space r) (r_alias r) (r_sets r) (r_cats r) (r_deps r) (r_auto r) v.

(** pkgdbh.cxx:564-569 and archive.cxx:107-117: an 'R' line. substr(1, size-11): size < 11 wraps to npos, the whole rest;
    substr(size-10): size < 10 wraps and throws std::out_of_range. *)
Definition dep_of_line (s : str) : res dep :=
  if length s <? 10 then Throw
  else Ok (if length s <? 11 then skipn 1 s else firstn (length s - 11) (skipn 1 s), epoch (skipn (length s - 10) s)).

(** pkgdbh.cxx:548 i.substr(0, i.size()-s.size()): wraps to npos when s is longer *)
Definition base_name (i s : str) : str := if length s <=? length i then firstn (length i - length s) i else i.

(** pkgdbh.cxx:496-573: one META line of package [i] *)
Definition meta_line (i : str) (r : rec) (s : str) : res rec :=
  match s with
  | [] => Ok r
  | c :: v =>
    if ceqb c "B"%char then Ok (with_build (Some (epoch v)) r) else
    if ceqb c "C"%char then Ok (with_contrib v r) else
    if ceqb c "D"%char then Ok (with_descr v r) else
    if ceqb c "L"%char then Ok (with_license v r) else
    if ceqb c "M"%char then Ok (with_maint v r) else
    if ceqb c "U"%char then Ok (with_url v r) else
    if ceqb c "P"%char then Ok (with_packager v r) else
    if ceqb c "V"%char then Ok (with_version v r) else
    if ceqb c "r"%char then Ok (with_release (Some (atoi_u16 v)) r) else
    if ceqb c "a"%char then Ok (with_arch v r) else
    if ceqb c "c"%char then Ok (with_coll v r) else
    if ceqb c "s"%char then Ok (with_sets (sins v (r_sets r)) r) else
    if ceqb c "g"%char then Ok (with_group v (base_name i s) r) else
    if ceqb c "S"%char then Ok (with_space (Some (atoi_u32 v)) r) else
    if ceqb c "A"%char then Ok (with_alias (sins v (r_alias r)) r) else
    if ceqb c "T"%char then Ok (with_cats (sins v (r_cats r)) r) else
    if ceqb c "R"%char then rbind (dep_of_line s) (fun d => Ok (with_deps (dins d (r_deps r)) r)) else
    if seqb s (L "d1") then Ok (with_auto true r) else Ok r
  end.
Fixpoint meta_lines (i : str) (r : rec) (ls : list str) : res rec :=
  match ls with [] => Ok r | s :: t => rbind (meta_line i r s) (fun r' => meta_lines i r' t) end.
(** pkgdbh.cxx:493-494: the record before the META lines: release 1, not automatic *)
Definition start_rec : rec := with_auto false (with_release (Some 1%N) (empty_rec false)).

(** ** Archives *)
(** the entries of the archive, in order: path name and node *)
Definition archive := list (str * node).
Fixpoint member (a : archive) (name : str) : option node :=
  match a with [] => None | (x, n) :: t => if seqb x name then Some n else member t name end.
(** archive.cxx:74-106 extractFileContent: the content is read into malloc(size), the last byte overwritten by NUL.
    size 0 writes before the buffer: UB. The text up to the first NUL is split at newlines. *)
Definition member_lines (a : archive) (name : str) : res (list str) :=
  match member a name with
  | None => Ok []
  | Some n => match n_data n with [] => UB | d => Ok (split_char (cstr (removelast d)) nl) end
  end.
(** archive.cxx: the getters: the first line with that tag *)
Fixpoint first_tag (c : ascii) (ls : list str) : option str :=
  match ls with
  | [] => None
  | s :: t => match s with x :: v => if ceqb x c then Some v else first_tag c t | [] => first_tag c t end
  end.
Definition tag_or_empty (c : ascii) (ls : list str) : str := match first_tag c ls with Some v => v | None => [] end.
Definition has_tag (c : ascii) (s : str) : bool := match s with x :: _ => ceqb x c | [] => false end.
Definition all_tag (c : ascii) (ls : list str) : list str := map (skipn 1) (filter (has_tag c) ls).
(** archive.cxx:107-117 getRunTimeDependenciesEpoch *)
Fixpoint arch_deps (ls : list str) (acc : list dep) : res (list dep) :=
  match ls with
  | [] => Ok acc
  | s :: t => if has_tag "R" s then rbind (dep_of_line s) (fun d => arch_deps t (dins d acc)) else arch_deps t acc
  end.
(** archive.cxx:249-258 release *)
Definition arch_release (ls : list str) : res N :=
  match first_tag "r" ls with Some v => stoi_u16 v | None => Ok 0%N end.

(** archive.cxx:5-25 constructor, then pkgdbh.cxx:1122-1177 openArchivePackage. [machine] = getMachineType(), [root] = m_root.
    Returns the package name and its record. *)
Definition open_archive (junk : bool) (machine root : str) (a : archive) : res (str * rec) :=
  rbind (member_lines a (L ".MTREE")) (fun mtree =>
  rbind (member_lines a (L ".META")) (fun meta =>
  match meta, mtree with
  | [], _ | _, [] => Throw
  | _, _ =>
    match first_tag "N" meta with
    | None => Throw
    | Some name =>
      let arch := tag_or_empty "a" meta in
      if negb (seqb arch machine) && negb (seqb arch (L "any")) && (length root <=? 1) then Throw
      else rbind (arch_release meta) (fun rel =>
      match name with
      | [] => Throw
      | _ =>
        let build := match first_tag "B" meta with Some v => epoch v | None => 0%Z end in
        rbind (arch_deps meta (dins (name, build) [])) (fun deps =>
        Ok (name,
            Rec (tag_or_empty "V" meta) (Some rel) (Some build) (tag_or_empty "D" meta) (tag_or_empty "U" meta)
                (tag_or_empty "C" meta) (tag_or_empty "M" meta) (tag_or_empty "P" meta) (tag_or_empty "L" meta) arch
                (tag_or_empty "c" meta) (tag_or_empty "g" meta) [] None
                (set_of (all_tag "A" meta)) (set_of (all_tag "s" meta)) (set_of (all_tag "T" meta)) deps junk
                (set_of (filter (fun f => negb (has_tag "." f)) mtree))))
      end)
    end
  end)).
