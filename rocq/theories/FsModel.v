(** File system model and file_utils.cxx.
    Simplifications (stated once, used everywhere below):
    - a path is resolved to its list of components; "." components vanish, ".." is an ordinary name (packages and the code
      never use it); symbolic links are nodes but are never followed as directories (lookup below a link fails);
    - hard links share no identity: every path has its own node;
    - the process is root and no I/O error other than the ones modelled (missing, not a directory, not empty) occurs;
    - mount points do not exist, so only the root directory itself cannot be removed. *)
From Verif Require Import Base StrModel.

Inductive kind := KReg | KDir | KLnk | KChr | KBlk | KFifo | KSock.
Definition kind_eqb (a b : kind) : bool :=
  match a, b with KReg, KReg | KDir, KDir | KLnk, KLnk | KChr, KChr | KBlk, KBlk | KFifo, KFifo | KSock, KSock => true
  | _, _ => false end.

(** what lstat(2) and reading see of a file: n_data is the content (regular) or the target (link) *)
Record node := Node { n_kind : kind; n_data : str; n_perm : N; n_uid : N; n_gid : N; n_dev : N; n_rdev : N }.

Definition path := list str.
Fixpoint peqb (a b : path) : bool :=
  match a, b with
  | [], [] => true
  | x :: a', y :: b' => seqb x y && peqb a' b'
  | _, _ => false
  end.
(** path resolution, see above *)
Definition comps (p : str) : path := filter (fun c => negb (seqb c (L "."))) (split_char p slash).
Definition ends_slash (p : str) : bool := match rev p with c :: _ => ceqb c slash | [] => false end.
Definition last_is_dot (p : str) : bool :=
  match rev (split_char p slash) with c :: _ => seqb c (L ".") | [] => false end.

(** a file system: an association list from resolved paths to nodes (first entry wins) *)
Definition fs := list (path * node).
Fixpoint fget (f : fs) (p : path) : option node :=
  match f with [] => None | (q, n) :: t => if peqb p q then Some n else fget t p end.
Definition fdel (p : path) (f : fs) : fs := filter (fun e => negb (peqb p (fst e))) f.
Definition fset (p : path) (n : node) (f : fs) : fs := (p, n) :: fdel p f.

Definition is_dir (n : node) : bool := kind_eqb (n_kind n) KDir.
(** q is strictly below p *)
Fixpoint belowb (p q : path) : bool :=
  match p, q with
  | [], [] => false
  | [], _ :: _ => true
  | x :: p', y :: q' => seqb x y && belowb p' q'
  | _ :: _, [] => false
  end.
Definition has_child (f : fs) (p : path) : bool := existsb (fun e => belowb p (fst e)) f.

(** lstat(2): a trailing slash requires a directory *)
Definition lstat (f : fs) (p : str) : option node :=
  match fget f (comps p) with
  | Some n => if ends_slash p && negb (is_dir n) then None else Some n
  | None => None
  end.
(** file_utils.cxx:78-82 checkFileExist *)
Definition exists_file (f : fs) (p : str) : bool := match lstat f p with Some _ => true | None => false end.

(** remove(3) = unlink(2) for non-directories, rmdir(2) for directories. Returns success and the new state. *)
Definition rm (f : fs) (p : str) : bool * fs :=
  match lstat f p with
  | None => (false, f)
  | Some n =>
      if is_dir n then
        if (match comps p with [] => true | _ => false end) || last_is_dot p || has_child f (comps p) then (false, f)
        else (true, fdel (comps p) f)
      else (true, fdel (comps p) f)
  end.

(** file_utils.cxx:83-91 checkFileEmpty *)
Definition file_empty (f : fs) (p : str) : bool :=
  match lstat f p with Some n => kind_eqb (n_kind n) KReg && (length (n_data n) =? 0) | None => false end.

(** file_utils.cxx:41-50 trimFileName: replaces the first "//" by "/" until there is none. One fuel unit per round. *)
Fixpoint trim_loop (fuel : nat) (s : str) : option str :=
  match fuel with
  | 0 => None
  | S k => match sfind [slash; slash] s with
           | None => Some s
           | Some n => trim_loop k (firstn n s ++ [slash] ++ skipn (n + 2) s)
           end
  end.
Definition trim_file_name (s : str) : str := match trim_loop (S (length s)) s with Some r => r | None => s end.

(** BUFSIZ of glibc *)
Definition BUFSIZ : nat := N.to_nat 8192.

(** istream::read into a buffer of n bytes: what was read, what is left, eofbit *)
Definition stream_read (n : nat) (s : str) : str * str * bool := (firstn n s, skipn n s, length s <? n).
(** file_utils.cxx:120-131: the loop comparing the two streams chunk by chunk; fuel = number of rounds *)
Fixpoint cmp_loop (fuel n : nat) (a b : str) : option bool :=
  match fuel with
  | 0 => None
  | S k => let '(x, a', ea) := stream_read n a in
           let '(y, b', eb) := stream_read n b in
           if negb (length x =? length y) || negb (seqb x y) || negb (Bool.eqb ea eb) then Some false
           else if ea then Some true else cmp_loop k n a' b'
  end.
Definition same_content (a b : str) : bool :=
  match cmp_loop (S (length a)) BUFSIZ a b with Some r => r | None => false end.
Definition MAXPATHLEN : nat := N.to_nat 4096.
(** file_utils.cxx:101-159 checkFilesEqual. readlink fills at most MAXPATHLEN-1 bytes; strncmp stops at a NUL.
    Devices: compares st_dev, the device HOLDING the file, not st_rdev. *)
Definition files_equal (f : fs) (p1 p2 : str) : bool :=
  match lstat f p1, lstat f p2 with
  | Some n1, Some n2 =>
      match n_kind n1, n_kind n2 with
      | KReg, KReg => same_content (n_data n1) (n_data n2)
      | KLnk, KLnk => seqb (cstr (firstn (MAXPATHLEN - 1) (n_data n1))) (cstr (firstn (MAXPATHLEN - 1) (n_data n2)))
      | KChr, KChr => N.eqb (n_dev n1) (n_dev n2)
      | KBlk, KBlk => N.eqb (n_dev n1) (n_dev n2)
      | _, _ => false
      end
  | _, _ => false
  end.
(** file_utils.cxx:160-174 checkPermissionsEqual: st_mode is the type and the permission bits *)
Definition perms_equal (f : fs) (p1 p2 : str) : bool :=
  match lstat f p1, lstat f p2 with
  | Some n1, Some n2 => kind_eqb (n_kind n1) (n_kind n2) && N.eqb (n_perm n1) (n_perm n2)
                        && N.eqb (n_uid n1) (n_uid n2) && N.eqb (n_gid n1) (n_gid n2)
  | _, _ => false
  end.

(** dirname(3) (glibc; the "exactly two leading slashes" special case is not modelled) *)
Fixpoint drop_slashes (s : str) : str := match s with c :: t => if ceqb c slash then drop_slashes t else s | [] => [] end.
Definition chop_slashes (s : str) : str := rev (drop_slashes (rev s)).
Definition dirname (p : str) : str :=
  match chop_slashes p with
  | [] => match p with [] => L "." | _ => L "/" end
  | p1 => match crfind slash p1 with
          | None => L "."
          | Some n => match chop_slashes (firstn n p1) with [] => L "/" | d => d end
          end
  end.
(** file_utils.cxx:214-221 removeFile; one fuel unit per recursive call *)
Fixpoint remove_file (fuel : nat) (f : fs) (base file : str) : option fs :=
  match fuel with
  | 0 => None
  | S k => if seqb file base then Some f
           else match rm f file with
                | (true, f') => remove_file k f' base (dirname file)
                | (false, f') => Some f'
                end
  end.
(** enough fuel: each call shortens the name ([remove_file_total]) *)
Definition removeFile (f : fs) (base file : str) : fs :=
  match remove_file (length file + 2) f base file with Some f' => f' | None => f end.

(** fgets(3): chunks of at most n characters, each ending at a newline if there is one. k = room left in the chunk. *)
Fixpoint chunks (n k : nat) (cur s : str) : list str :=
  match s with
  | [] => match cur with [] => [] | _ => [rev cur] end
  | c :: t => if ceqb c nl then rev (c :: cur) :: chunks n n [] t
              else match k with
                   | 0 | 1 => rev (c :: cur) :: chunks n n [] t
                   | S k' => chunks n k' (c :: cur) t
                   end
  end.
(** file_utils.cxx:354-357: input[strlen(input)-1] = 0; the C string is stored.
    strlen = 0 (the chunk starts with a NUL byte) writes before the buffer: undefined behaviour, None. *)
Definition store_line (chunk : str) : option str :=
  match cstr chunk with [] => None | s => Some (removelast s) end.
Fixpoint map_opt {A B} (g : A -> option B) (l : list A) : option (list B) :=
  match l with
  | [] => Some []
  | x :: t => match g x, map_opt g t with Some y, Some ys => Some (y :: ys) | _, _ => None end
  end.
(** file_utils.cxx:362-377 parseFile(vector), on the content of the file *)
Definition parse_lines (content : str) : option (list str) := map_opt store_line (chunks (BUFSIZ - 1) (BUFSIZ - 1) [] content).
(** file_utils.cxx:345-360 parseFile(set) *)
Definition parse_set (content : str) : option (list str) := option_map set_of (parse_lines content).

(** file_utils.cxx:175-213 cleanupMetaFiles: each call removes the ABSOLUTE path "/.X", whatever the base directory *)
Definition meta_files : list str := [L "/.INFO"; L "/.META"; L "/.PRE"; L "/.POST"; L "/.MTREE"; L "/.README"].
Definition cleanup_meta (f : fs) (base : str) : fs :=
  fold_left (fun f m => if exists_file f (base ++ m) then removeFile f base m else f) meta_files f.

(** libarchive archive_read_extract with OWNER|PERM|TIME|UNLINK (pkgdbh.cxx:1287-1295), as documented in
    archive_write_disk(3); the flags are those of pkgdbh.cxx:1287. Names are absolute here. *)
Definition new_dir : node := Node KDir [] 493 0 0 0 0.
(** missing parents are created with mode 0755 owned by root; an obstacle (non-directory) is replaced by a directory *)
Fixpoint mk_parents (f : fs) (done todo : path) : fs :=
  match todo with
  | [] => f
  | c :: rest => let p := done ++ [c] in
                 let f' := match fget f p with
                           | Some n => if is_dir n then f else fset p new_dir f
                           | None => fset p new_dir f
                           end in
                 mk_parents f' p rest
  end.
(** some strict ancestor is present and is not a directory *)
Fixpoint blocked (f : fs) (done todo : path) : bool :=
  match todo with
  | [] | [_] => false
  | c :: rest => let p := done ++ [c] in
                 match fget f p with
                 | Some n => negb (is_dir n) || blocked f p rest
                 | None => blocked f p rest
                 end
  end.
Definition set_attr (old new : node) : node :=
  Node KDir [] (n_perm new) (n_uid new) (n_gid new) (n_dev old) (n_rdev old).
Definition extract (f : fs) (name : str) (n : node) : bool * fs :=
  let p := comps name in
  match p with
  | [] => if is_dir n then match fget f [] with Some o => (true, fset [] (set_attr o n) f) | None => (false, f) end
          else (false, f)
  | _ =>
      if is_dir n then
        let f1 := mk_parents f [] (removelast p) in
        match fget f1 p with
        | Some o => if is_dir o then (true, fset p (set_attr o n) f1) else (true, fset p n f1)
        | None => (true, fset p n f1)
        end
      else if blocked f [] p then (false, f)   (* unlink: ENOTDIR *)
      else match fget f p with
           | Some o => if is_dir o && has_child f p then (false, f)   (* neither unlink nor rmdir possible *)
                       else (true, fset p n (mk_parents f [] (removelast p)))
           | None => (true, fset p n (mk_parents f [] (removelast p)))
           end
  end.
