(** Making a directory with its parents, and the log file of a build: file_utils.cxx:261-287 createRecursiveDirs (called by dwl.cxx:40 and
    dwl.cxx:61 for the depots and by create.cxx:538 for the log directory), create.cxx:535-552.
    Simplifications: those of FsModel (root user, links not followed as directories, ".." a name, a relative path starts at the root); the
    umask is 022, as it is for root. *)
From Verif Require Import Base StrModel FsModel MetaModel.

(** mkdir(2): something of that name, or a parent that is not a directory, makes it fail *)
Definition mkdir (f : fs) (p : str) : fs :=
  match p with
  | [] => f
  | _ => match fget f (comps p) with
         | Some _ => f
         | None => match fget f (removelast (comps p)) with
                   | Some n => if is_dir n then fset (comps p) (Node KDir [] 493 0 0 0 0) f else f
                   | None => f
                   end
         end
  end.
(** file_utils.cxx:277-278, 282-283: mkdir unless access(2) finds it; the result of mkdir is not looked at. access follows a link: for one that
    leads nowhere mkdir is called, and fails *)
Definition mk_step (f : fs) (p : str) : fs := match lstat f p with Some _ => f | None => mkdir f p end.
(** file_utils.cxx:272-281: the text before each slash *)
Fixpoint cuts (done s : str) : list str :=
  match s with
  | [] => []
  | c :: t => if ceqb c slash then done :: cuts (done ++ [c]) t else cuts (done ++ [c]) t
  end.
(** file_utils.cxx:270-271: one slash at the end is dropped *)
Definition chop (o : str) : str := if ends_slash o then removelast o else o.
(** the directories tried, in this order: file_utils.cxx:272-283 *)
Definition tries (o : str) : list str := cuts [] (chop o) ++ [chop o].
(** file_utils.cxx:261-287: strcpy into a buffer of MAXPATHLEN characters *)
Definition make_dirs (f : fs) (p : str) : res (fs * bool) :=
  let o := cstr p in
  if MAXPATHLEN <=? length o then UB
  else if 1 <? length o then Ok (fold_left mk_step (tries o) f, true)
  else Ok (f, false).
(** the process dies during it: some of the directories have been tried *)
Definition make_dirs_cut (k : nat) (f : fs) (p : str) : fs := fold_left mk_step (firstn k (tries (cstr p))) f.

(** create.cxx:547 unlink(2): not for a directory *)
Definition unlink (f : fs) (p : str) : fs :=
  match fget f (comps p) with Some n => if is_dir n then f else fdel (comps p) f | None => f end.
(** create.cxx:548 open(2) with O_APPEND | O_WRONLY | O_CREAT and mode 0666; None is -1 *)
Definition open_append (f : fs) (p : str) : option fs :=
  match fget f (comps p) with
  | Some n => if is_dir n then None else Some f
  | None => match fget f (removelast (comps p)) with
            | Some n => if is_dir n then Some (fset (comps p) (Node KReg [] 420 0 0 0 0) f) else None
            | None => None
            end
  end.
(** create.cxx:542-545 *)
Definition log_name (logdir pkg : str) : str := logdir ++ L "/" ++ pkg ++ L ".log".
(** create.cxx:537-552 *)
Definition open_log (f : fs) (logdir pkg : str) : res fs :=
  match logdir with
  | [] => Ok f
  | _ => rbind (make_dirs f logdir) (fun r =>
           if snd r then match open_append (unlink (fst r) (log_name logdir pkg)) (log_name logdir pkg) with Some g => Ok g | None => Throw end
           else Throw)
  end.
