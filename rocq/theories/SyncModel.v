(** sync.cxx and dwl.cxx:17-46, 71-136: 'cards sync'.
    Simplifications: files are a map from path to content, the doubled slash of the key's path ("<dir>/" ++ "/.PKEY") is written once;
    directories can be created and files opened; the server and the decompressor are oracles; the run is by root (otherwise the
    constructor does nothing, sync.cxx:18-19). *)
From Verif Require Import Base StrModel FsModel ConfModel.

Definition store := list (str * str).
(** the outcome of one download: a body, or a failure after some bytes have reached the file. None: libcurl handed over nothing, not
    even an empty piece, and the file was not opened (DwlLink.v relates this to the pieces) *)
Inductive outcome := Body (b : option str) | Broken (got : option str).
Definition key_name : str := L ".PKEY".
Definition repo_name : str := L ".REPO".
Definition files_name : str := L ".FILES".
Definition zst (s : str) : str := s ++ L ".zst".
Definition in_coll (d : dirurl) (name : str) : str := coll_path d ++ slash :: name.
(** sync.cxx:30-37, 43 and dwl.cxx:31-36: the key is requested as ".../" ++ "/.PKEY" *)
Definition coll_url (arch version : str) (d : dirurl) : str := u_url d ++ slash :: arch ++ slash :: version ++ slash :: u_coll d ++ [slash].
Inductive act := Fetch (url path : str) | Unzip (path : str).
(** sync.cxx:25-50 *)
Definition fetches (arch version : str) (d : dirurl) : list act :=
  [Fetch (coll_url arch version d ++ slash :: key_name) (in_coll d key_name);
   Fetch (coll_url arch version d ++ zst repo_name) (in_coll d (zst repo_name));
   Fetch (coll_url arch version d ++ zst files_name) (in_coll d (zst files_name))].
Definition unzips (d : dirurl) : list act := [Unzip (in_coll d repo_name); Unzip (in_coll d files_name)].
Definition remote (ds : list dirurl) : list dirurl := filter (fun d => negb (is_nil (u_url d))) ds.
(** sync.cxx:52-59: all the downloads, then the decompressions *)
Definition plan (arch version : str) (ds : list dirurl) : list act := flat_map (fetches arch version) (remote ds) ++ flat_map unzips (remote ds).

Section Run.
  Variables (server : str -> outcome) (unz : str -> option str).
  (** what an action writes: path and content; whether the run goes on *)
  Definition effect (s : store) (a : act) : option (str * str) * bool :=
    match a with
    (* dwl.cxx:71-110, 123-136: the file is opened at the first bytes received; a failure throws *)
    | Fetch u p => match server u with
                   | Body None => (None, true)
                   | Body (Some b) => (Some (p, b), true)
                   | Broken None => (None, false)
                   | Broken (Some g) => (Some (p, g), false)
                   end
    (* sync.cxx:63-112: a missing or bad .zst file is reported and passed over *)
    | Unzip p => match mget (zst p) s with
                 | None => (None, true)
                 | Some z => match unz z with None => (None, true) | Some c => (Some (p, c), true) end
                 end
    end.
  Definition write (s : store) (w : option (str * str)) : store := match w with Some (p, c) => mset p c s | None => s end.
  Fixpoint steps (acts : list act) (s : store) : bool * store :=
    match acts with
    | [] => (true, s)
    | a :: t => let '(w, ok) := effect s a in if ok then steps t (write s w) else (false, write s w)
    end.
  Definition sync_run (arch version : str) (ds : list dirurl) (s : store) : bool * store := steps (plan arch version ds) s.
  (** the process dies: before, between or within the writes; a file being written holds a prefix of its new content *)
  Inductive dies : list act -> store -> store -> Prop :=
  | dies_now acts s : dies acts s s
  | dies_writing a t s p c ok n : effect s a = (Some (p, c), ok) -> dies (a :: t) s (mset p (firstn n c) s)
  | dies_later a t s w s' : effect s a = (w, true) -> dies t (write s w) s' -> dies (a :: t) s s'.
End Run.
