(** conf.cxx: the configuration file and purge.
    Simplifications: hostname, username, database, password, name and arch keys are stored like logdir and are not modelled;
    the paths built by purge are shorter than FILENAME_MAX; errors of readdir and lstat do not occur. *)
From Verif Require Import Base StrModel FsModel.

(** conf.h:9-16 *)
Record dirurl := DU { u_coll : str; u_depot : str; u_url : str }.
(** conf.h:18-43 *)
Record cfg := Cfg { c_dirs : list dirurl; c_depot : str; c_url : str; c_logdir : str; c_keypath : str; c_groups : list str; c_version : str }.
Definition cfg0 : cfg := Cfg [] [] [] [] [] [] [].

(** conf.cxx:20-24: one fgets chunk; a chunk starting with NUL has strlen 0: line[-1] is read, None *)
Definition conf_chunk (chunk : str) : option str :=
  match cstr chunk with
  | [] => None
  | s => Some (if ceqb (last s zero) nl then removelast s else s)
  end.
(** conf.cxx:28-41: key and value of a line *)
Definition conf_line (s0 : str) : option (str * str) :=
  let s := match cfind "#"%char s0 with Some n => firstn n s0 | None => s0 end in
  match (match cfind " "%char s with Some n => Some n | None => cfind "009"%char s end) with
  | Some n => Some (firstn n s, strip (skipn n s))
  | None => None
  end.
(** conf.cxx:43-72: the value of "dir" *)
Definition conf_dir (val : str) : dirurl :=
  let '(dir, url) := match cfind "|"%char val with
                     | Some n => (strip (firstn n val), strip (skipn (n + 1) val))
                     | None => (strip val, [])
                     end in
  match crfind slash dir with
  | Some n => DU (strip (skipn (n + 1) dir)) (firstn n dir) url
  | None => DU [] [] url
  end.
Definition is_nil {A} (l : list A) : bool := match l with [] => true | _ => false end.
(** conf.cxx:43-123: one directive. The test of the machine type (l.99-102) is in conf_lines. *)
Definition conf_step (c : cfg) (kv : str * str) : cfg :=
  let '(k, v) := kv in
  let dirs := if seqb k (L "dir") then c_dirs c ++ [conf_dir v]
              else if seqb k (L "collection") then
                if existsb (fun d => seqb (u_coll d) v) (c_dirs c) then c_dirs c else c_dirs c ++ [DU v [] []]
              else c_dirs c in
  Cfg dirs
      (if seqb k (L "depot") && is_nil (c_depot c) then v else c_depot c)
      (if seqb k (L "url") && is_nil (c_url c) then v else c_url c)
      (if seqb k (L "logdir") then v else c_logdir c)
      (if seqb k (L "keypath") then v else c_keypath c)
      (if seqb k (L "locale") || seqb k (L "group") then c_groups c ++ [v] else c_groups c)
      (if seqb k (L "version") && is_nil (c_version c) then v else c_version c).
(** conf.cxx:127-138 *)
Definition conf_fill (c : cfg) : cfg :=
  Cfg (map (fun d => DU (u_coll d) (if is_nil (u_depot d) then c_depot c else u_depot d) (if is_nil (u_url d) then c_url c else u_url d)) (c_dirs c))
      (c_depot c) (c_url c) (c_logdir c) (c_keypath c) (c_groups c) (c_version c).
(** conf.cxx:20-125: the lines; with no machine type the function returns at the first directive (keys tested after that point,
    locale, group and version, are not reached) and nothing is filled in *)
Fixpoint conf_lines (arch : str) (c : cfg) (ls : list str) : cfg :=
  match ls with
  | [] => conf_fill c
  | l :: t => match conf_line l with
              | None => conf_lines arch c t
              | Some (k, v) => if is_nil arch then (if seqb k (L "locale") || seqb k (L "group") || seqb k (L "version") then c else conf_step c (k, v))
                               else conf_lines arch (conf_step c (k, v)) t
              end
  end.
(** conf.cxx:13-140; [content] is None when the file cannot be opened *)
Definition parse_config (arch : str) (c : cfg) (content : option str) : option cfg :=
  match content with
  | None => Some c
  | Some s => option_map (conf_lines arch c) (map_opt conf_chunk (chunks (BUFSIZ - 1) (BUFSIZ - 1) [] s))
  end.
(** conf.cxx:6-12: the configuration file, then NUTYX_VERSION_FILE *)
Definition read_conf (arch : str) (file version : option str) : option cfg :=
  match parse_config arch cfg0 file with
  | Some c => parse_config arch c version
  | None => None
  end.

(** ** purge *)
(** the names in a directory *)
Definition entry_of (p : path) (q : path) : option str :=
  if (length q =? S (length p)) && peqb p (firstn (length p) q) then nth_error q (length p) else None.
Definition entries (f : fs) (p : path) : list str :=
  set_of (flat_map (fun e => match entry_of p (fst e) with Some c => [c] | None => [] end) f).
Definition hidden (c : str) : bool := match c with x :: _ => ceqb x "."%char | [] => true end.
(** file_utils.cxx:289-344 with WS_DEFAULT = WS_RECURSIVE: no dot files, links not followed nor listed, directories not listed *)
Fixpoint find_files (fuel : nat) (f : fs) (dir : str) : list str :=
  match fuel with
  | 0 => []
  | S k =>
    match fget f (comps dir) with
    | Some n => if is_dir n then
        flat_map (fun c => if hidden c then []
                           else match fget f (comps dir ++ [c]) with
                                | Some m => if kind_eqb (n_kind m) KLnk then []
                                            else if is_dir m then find_files k f (dir ++ slash :: c)
                                            else [dir ++ slash :: c]
                                | None => []
                                end) (entries f (comps dir))
        else []
    | None => []
    end
  end.
(** enough for the depth of the tree *)
Definition depth (f : fs) : nat := fold_right (fun e n => Nat.max (length (fst e)) n) 0 f.
Definition find_all (f : fs) (dir : str) : list str := find_files (S (S (depth f))) f dir.
Definition coll_path (d : dirurl) : str := u_depot d ++ slash :: u_coll d.
(** conf.cxx:172-187; listOfFiles is not emptied between two collections *)
Fixpoint purge_dirs (acc : list str) (ds : list dirurl) (f : fs) : fs :=
  match ds with
  | [] => f
  | d :: t => if is_nil (u_url d) then purge_dirs acc t f
              else let acc' := fold_left (fun s x => sins x s) (find_all f (coll_path d)) acc in
                   purge_dirs acc' t (fold_left (fun f x => snd (rm f x)) acc' f)
  end.
Definition purge (c : cfg) (f : fs) : fs := purge_dirs [] (c_dirs c) f.
