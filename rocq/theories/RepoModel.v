(** repo.cxx: 'cards repo', which publishes a collection (indexes, hashes, signatures) or, without a private key, checks the signatures.
    Simplifications: regular files are a map from path to content, so symbolic links (passed over by file_utils.cxx:324-326) and empty
    directories do not appear; paths are shorter than FILENAME_MAX; reading never fails; whether a path can be opened for writing is an
    oracle; SHA-512, the signature, the decompressor, libarchive and zstd are functions about which nothing is assumed here.
    The progress cursor is left out. *)
From Verif Require Import Base BaseProofs StrModel FsModel FsProofs MetaModel DbModel GenDeps HexModel IndexModel FetchModel ConfModel SyncModel FilesModel.
From Coq Require Import ZArith.

(** archive.cxx:5-26: the lines of the META file and the sorted file names that do not begin with a dot; exceptions otherwise *)
Definition open_arch (a : archive) : res (list str * list str) :=
  rbind (member_lines a (L ".MTREE")) (fun mtree =>
  rbind (member_lines a (L ".META")) (fun meta =>
  match meta, mtree with
  | [], _ | _, [] => Throw
  | _, _ => match first_tag "N" meta with
            | None => Throw
            | Some _ => Ok (meta, set_of (filter (fun l => negb (has_tag "." l)) mtree))
            end
  end)).
(** file_utils.cxx:289-344 with WS_DEFAULT = WS_RECURSIVE: every file below the directory no component of whose path below it begins with a dot *)
Definition visible (dir p : str) : bool :=
  prefixb (dir ++ [slash]) p && match sfind (L "/.") (skipn (length dir) p) with None => true | Some _ => false end.
Definition walk (dir : str) (s : store) : list str := set_of (filter (visible dir) (keys s)).
(** repo.cxx:82-85 *)
Definition base_of (p : str) : str := match crfind slash p with Some n => skipn (S n) p | None => p end.

(** what is printed *)
Inductive note := Wrong (pkg : str) | Checked (n : nat) | Generating (meta files : str) | NoOpen (p : str) | Compressing (meta files : str) | Signed (n : nat) | NoCollection (c : str).

Section Repo.
  Variable sha : str -> str.
  Variable unpack : str -> option archive.
  (** pkgrepo.cxx:858-931 for the bytes to sign: None: the private key cannot be read *)
  Variable sign : str -> option str.
  Variable zip : str -> str.
  (** whether fopen(path, "w") works *)
  Variable can : str -> bool.

  (** repo.cxx:74-121: the lines written to the two indexes, and whether the loop came to its end *)
  Fixpoint paras (s : store) (fs : list str) (mp fp : list str) : list str * list str * res unit :=
    match fs with
    | [] => (mp, fp, Ok tt)
    | f :: t =>
        match mget f s with
        | None => (mp, fp, Throw)
        | Some c =>
            match match unpack c with None => Throw | Some a => open_arch a end with
            | Throw => (mp, fp, Throw)
            | UB => (mp, fp, UB)
            | Ok (meta, files) =>
                let h := hex (sha c) in
                let head := "@"%char :: base_of f in
                let mp1 := mp ++ head :: meta in
                let fp1 := fp ++ head :: files ++ [[]] in
                match decode h with
                | Throw => (mp1, fp1, Throw)
                | UB => (mp1, fp1, UB)
                | Ok mes => match sign mes with
                            | None => (mp1, fp1, Throw)
                            | Some sg => paras s t (mp1 ++ [("H"%char :: h); ("I"%char :: hex sg); ("i"%char :: dec (N.of_nat (length c) mod 2 ^ 32)); []]) fp1
                            end
                end
            end
        end
    end.
  Definition meta_path (d : dirurl) : str := in_coll d repo_name.
  Definition files_path (d : dirurl) : str := in_coll d files_name.
  (** repo.cxx:150-188 *)
  Definition compress (p : str) (s : store) : store :=
    match mget p s with
    | Some c => if can (zst p) then mset (zst p) (zip c) s else s
    | None => s
    end.
  (** how one collection ended: completely; an index could not be opened (the whole run returns); an exception (the streams are flushed at exit) *)
  Inductive ended := Complete | Returned | Failed (r : res unit).
  (** repo.cxx:45-131 *)
  Definition publish (d : dirurl) (s : store) : store * list note * ended :=
    let g := [Generating (meta_path d) (files_path d)] in
    if negb (can (meta_path d)) then (s, g ++ [NoOpen (meta_path d)], Returned)
    else
      let s1 := mset (meta_path d) [] s in
      if negb (can (files_path d)) then (s1, g ++ [NoOpen (files_path d)], Returned)
      else
        let s2 := mset (files_path d) [] s1 in
        let '(mp, fp, r) := paras s2 (walk (coll_path d) s2) [] [] in
        let s3 := mset (files_path d) (text_of fp) (mset (meta_path d) (text_of mp) s2) in
        match r with
        | Ok _ => (compress (meta_path d) (compress (files_path d) s3), g ++ [Compressing (meta_path d) (files_path d)], Complete)
        | _ => (s3, g, Failed r)
        end.
  (** the process dies while it publishes a collection: the two indexes are written side by side through buffers, then compressed one after
      the other, each in place: repo.cxx:59-72, 88-118, 122-131, 177-186 *)
  Inductive pdies (d : dirurl) (s : store) : store -> Prop :=
  | pd_before : pdies d s s
  | pd_open : can (meta_path d) = true -> pdies d s (mset (meta_path d) [] s)
  | pd_text mp fp r i j : let s2 := mset (files_path d) [] (mset (meta_path d) [] s) in
      can (meta_path d) = true -> can (files_path d) = true -> paras s2 (walk (coll_path d) s2) [] [] = (mp, fp, r) ->
      pdies d s (mset (files_path d) (firstn j (text_of fp)) (mset (meta_path d) (firstn i (text_of mp)) s2))
  | pd_files mp fp u k : let s2 := mset (files_path d) [] (mset (meta_path d) [] s) in
      can (meta_path d) = true -> can (files_path d) = true -> can (zst (files_path d)) = true -> paras s2 (walk (coll_path d) s2) [] [] = (mp, fp, Ok u) ->
      pdies d s (mset (zst (files_path d)) (firstn k (zip (text_of fp))) (mset (files_path d) (text_of fp) (mset (meta_path d) (text_of mp) s2)))
  | pd_meta mp fp u k : let s2 := mset (files_path d) [] (mset (meta_path d) [] s) in
      can (meta_path d) = true -> can (files_path d) = true -> can (zst (meta_path d)) = true -> paras s2 (walk (coll_path d) s2) [] [] = (mp, fp, Ok u) ->
      pdies d s (mset (zst (meta_path d)) (firstn k (zip (text_of mp))) (compress (files_path d) (mset (files_path d) (text_of fp) (mset (meta_path d) (text_of mp) s2)))).
  (** repo.cxx:36-146. [arg]: the first argument, if any; [old]: the number of packages in the indexes read before, pkgrepo.cxx:7-16 *)
  Fixpoint publishes (arg : option str) (ds : list dirurl) (found : bool) (old : nat) (s : store) : store * list note * res unit :=
    match ds with
    | [] => (s, match arg with
                | None => [Signed old]
                | Some c => if found then [] else [NoCollection c]
                end, Ok tt)
    | d :: t =>
        if match arg with Some c => negb (seqb (u_coll d) c) | None => false end then publishes arg t false old s
        else
          match publish d s with
          | (s', ns, Complete) =>
              match arg with
              | Some _ => (s', ns, Ok tt)
              | None => let '(s'', ns', r) := publishes arg t true old s' in (s'', ns ++ ns', r)
              end
          | (s', ns, Returned) => (s', ns, Ok tt)
          | (s', ns, Failed r) => (s', ns, r)
          end
    end.

  (** repo.cxx:16-32: without a private key: the packages of the indexes, in the order of their names *)
  Variable key : Type.
  Variable pem : str -> option key.
  Variable verify : key -> str -> str -> bool.
  Fixpoint checks (l : list (str * ent)) (s : store) : list note * res unit :=
    match l with
    | [] => ([], Ok tt)
    | (n, e) :: t =>
        match check_sign sha key pem verify e (Fs s []) with
        | Ok true => checks t s
        | Ok false => ([Wrong n], Ok tt)
        | Throw => ([], Throw)
        | UB => ([], UB)
        end
    end.
  Definition check_all (l : list (str * ent)) (s : store) : list note * res unit :=
    let '(ns, r) := checks l s in match r with Ok _ => (ns ++ [Checked (length l)], r) | _ => (ns, r) end.
  (** repo.cxx:7-149. [keypath]: of the configuration; [l]: the packages of the indexes read by the constructor *)
  Definition repo_run (keypath : str) (arg : option str) (ds : list dirurl) (l : list (str * ent)) (s : store) : store * list note * res unit :=
    if is_nil keypath || match mget (keypath ++ L "/.private.key") s with None => true | Some _ => false end
    then let '(ns, r) := check_all l s in (s, ns, r)
    else publishes arg ds false (length l) s.
End Repo.
