(** One archive object of the library over time: archive.h, archive.cxx:5-385, every public question, asked any number of times in any order.
    The archive is read when the object is made and never again. What is printed is the text on standard output.
    Simplifications: those of [member_lines] (reading never fails short of the end; a non-zero size is the number of bytes); ctime(3) is a
    parameter that only turns a time into a text. treatErrors throws for every error that can occur here. *)
From Verif Require Import Base StrModel FsModel MetaModel GenDeps.
From Coq Require Import ZArith.

(** archive.h:18-36. The file, the name and the architecture are computed from the lines by the constructor and kept *)
Record arc := Arc {
  c_meta : list str; c_mtree : list str; c_name : str; c_arch : str; c_files : list str;
  c_rt : list str (** m_rtDependenciesList *); c_ep : list dep (** m_rtDependenciesEpochList *); c_alias : list str; c_cats : list str; c_sets : list str }.
Definition set_rt l o := Arc (c_meta o) (c_mtree o) (c_name o) (c_arch o) (c_files o) l (c_ep o) (c_alias o) (c_cats o) (c_sets o).
Definition set_ep l o := Arc (c_meta o) (c_mtree o) (c_name o) (c_arch o) (c_files o) (c_rt o) l (c_alias o) (c_cats o) (c_sets o).
Definition set_al l o := Arc (c_meta o) (c_mtree o) (c_name o) (c_arch o) (c_files o) (c_rt o) (c_ep o) l (c_cats o) (c_sets o).
Definition set_ca l o := Arc (c_meta o) (c_mtree o) (c_name o) (c_arch o) (c_files o) (c_rt o) (c_ep o) (c_alias o) l (c_sets o).
Definition set_se l o := Arc (c_meta o) (c_mtree o) (c_name o) (c_arch o) (c_files o) (c_rt o) (c_ep o) (c_alias o) (c_cats o) l.

(** archive.cxx:5-25 with 164-195 *)
Definition make (a : archive) : res arc :=
  rbind (member_lines a (L ".MTREE")) (fun mtree =>
  rbind (member_lines a (L ".META")) (fun meta =>
  match meta, mtree with
  | [], _ | _, [] => Throw
  | _, _ => match first_tag "N" meta with
            | None => Throw
            | Some n => Ok (Arc meta mtree n (tag_or_empty "a" meta) (set_of (filter (fun f => negb (has_tag "." f)) mtree)) [] [] [] [] [])
            end
  end)).

(** insertion of the values of the lines of a letter into a set that is kept: archive.cxx:118-149 *)
Definition gather (c : ascii) (ls acc : list str) : list str := fold_left (fun m s => if has_tag c s then sins (skipn 1 s) m else m) ls acc.
(** archive.cxx:107-117: what was inserted before a line that throws stays *)
Fixpoint gather_dated (ls : list str) (acc : list dep) : list dep * res unit :=
  match ls with
  | [] => (acc, Ok tt)
  | s :: t => if has_tag "R" s then match dep_of_line s with
                                    | Ok d => gather_dated t (dins d acc)
                                    | Throw => (acc, Throw)
                                    | UB => (acc, UB)
                                    end
              else gather_dated t acc
  end.

Inductive question :=
  | Text (c : ascii)   (** version, url, license, description, group, nls, maintainer, contributors, packager, collection: archive.cxx:239-248, 259-348 *)
  | Name | Arch        (** archive.cxx:231-238 *)
  | Release            (** archive.cxx:249-258 *)
  | Build              (** archive.cxx:374-385 build *)
  | Epoch              (** archive.cxx:364-373 epochBuildDate *)
  | Date               (** archive.cxx:349-363 builddate *)
  | Id                 (** archive.cxx:196-199 namebuildn *)
  | Files | Size       (** archive.cxx:56-63 *)
  | Deps               (** archive.cxx:200-206 listofDependencies *)
  | Dated              (** archive.cxx:222-230 listofDependenciesBuildDate *)
  | Alias | Cats | Sets (** archive.cxx:207-221 *)
  | Content            (** archive.cxx:156-158 *)
  | Show_meta          (** archive.cxx:159-163 printMeta *)
  | Show_deps          (** archive.cxx:150-155 printDeps *)
  | Show_files.        (** archive.cxx:64-73 list *)
Inductive reply := RText (s : str) | RNum (n : N) | RInt (z : Z) | RSet (l : list str) | RDeps (l : list dep) | RLines (l : list str) | RPrinted (s : str).

Definition c_build (o : arc) : Z := match first_tag "B" (c_meta o) with Some v => epoch v | None => 0%Z end.
Definition c_id (o : arc) : str := c_name o ++ tag_or_empty "B" (c_meta o).
Definition lines_text (ls : list str) : str := flat_map (fun s => s ++ [nl]) ls.
Section Ask.
Variable ctime : Z -> str.
(** archive.cxx:354: the test looks at [buildtime], which is still empty, and not at the line: the loop finds nothing, the text stays empty and
    strtoul gives 0 *)
Definition ask (q : question) (o : arc) : arc * res reply :=
  match q with
  | Text c => (o, Ok (RText (tag_or_empty c (c_meta o))))
  | Name => (o, Ok (RText (c_name o)))
  | Arch => (o, Ok (RText (c_arch o)))
  | Release => (o, match first_tag "r" (c_meta o) with Some v => rbind (stoi_int v) (fun z => Ok (RInt z)) | None => Ok (RInt 0) end)
  | Build => (o, Ok (RInt (c_build o)))
  | Epoch => (o, Ok (RText (tag_or_empty "B" (c_meta o))))
  | Date => (o, Ok (RText (ctime (epoch []))))
  | Id => (o, Ok (RText (c_id o)))
  | Files => (o, Ok (RSet (c_files o)))
  | Size => (o, Ok (RNum (N.of_nat (length (c_mtree o)))))
  | Deps => let l := gather "R" (c_meta o) (sins (c_id o) (c_rt o)) in (set_rt l o, Ok (RSet l))
  | Dated => let '(l, r) := gather_dated (c_meta o) (dins (c_name o, c_build o) (c_ep o)) in (set_ep l o, rbind r (fun _ => Ok (RDeps l)))
  | Alias => let l := gather "A" (c_meta o) (c_alias o) in (set_al l o, Ok (RSet l))
  | Cats => let l := gather "T" (c_meta o) (c_cats o) in (set_ca l o, Ok (RSet l))
  | Sets => let l := gather "s" (c_meta o) (c_sets o) in (set_se l o, Ok (RSet l))
  | Content => (o, Ok (RLines (c_meta o)))
  | Show_meta => (o, Ok (RPrinted (lines_text (c_meta o))))
  | Show_deps => let l := gather "R" (c_meta o) (c_rt o) in (set_rt l o, Ok (RPrinted (flat_map (fun s => s ++ L " ") l)))
  | Show_files => (o, Ok (RPrinted (lines_text (c_mtree o))))
  end.
Fixpoint asks (h : list question) (o : arc) : arc := match h with [] => o | q :: t => asks t (fst (ask q o)) end.
End Ask.
