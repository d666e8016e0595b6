(** Downloading and checking the archives of 'cards install': pkgrepo.cxx:128-246, 782-995; dwl.cxx:47-110; install.cxx:118-153. *)
From Verif Require Import Base StrModel RulesModel FsModel MetaModel DbModel GenDeps HexModel IndexModel.
From Coq Require Import ZArith.

(** an entry of m_listOfPackages: its directory and what the index says *)
Record ent := Ent { e_dir : str; e_rec : irec }.
(** files by path, and what the server will answer to the next downloads: None: failure; Some None: an empty answer (no file is
    written, dwl.cxx:123-136); Some (Some c): the content c *)
Record fstate := Fs { f_files : list (str * str); f_net : list (option (option str)) }.

Section Fetch.
  (** m_config.url(): the value of the first "url" line of the configuration (not the urls of "dir" lines) *)
  Variable url : str.
  Variable repo : list (str * ent).
  (** SHA-512; PEM_read_PUBKEY with the test for ED25519; EVP_DigestVerify; libarchive. No assumption is made about them. *)
  Variable sha : str -> str.
  Variable key : Type.
  Variable pem : str -> option key.
  Variable verify : key -> str -> str -> bool.
  Variable unpack : str -> option archive.

  Definition e_path (e : ent) : str := e_dir e ++ L "/" ++ i_file (e_rec e).
  Definition e_key (e : ent) : str := e_dir e ++ L "/.PKEY".
  (** pkgrepo.cxx:239-246, dwl.cxx:47-110: a failed download throws *)
  Definition download (e : ent) (s : fstate) : res fstate :=
    match f_net s with
    | Some (Some c) :: t => Ok (Fs (mset (e_path e) c (f_files s)) t)
    | Some None :: t => Ok (Fs (f_files s) t)
    | _ => Throw
    end.
  (** pkgrepo.cxx:782-837 *)
  Definition hash_of (path : str) (s : fstate) : res str :=
    match mget path (f_files s) with Some c => Ok (hex (sha c)) | None => Throw end.
  (** pkgrepo.cxx:848-853 *)
  Definition same_hash (h : str) (e : ent) : bool := seqb (lower_case h) (lower_case (i_text "H" (e_rec e))).
  (** pkgrepo.cxx:942-995 *)
  Definition check_sign (e : ent) (s : fstate) : res bool :=
    rbind (hash_of (e_path e) s) (fun h =>
    rbind (decode h) (fun mes =>
    match mget (e_key e) (f_files s) with
    | None => Throw
    | Some pk => match pem pk with
                 | None => Throw
                 | Some k => rbind (decode (i_text "I" (e_rec e))) (fun sg => Ok (verify k sg mes))
                 end
    end)).
  (** pkgrepo.cxx:151-192 *)
  Definition obtain (e : ent) (s : fstate) : res fstate :=
    if length url =? 0 then Ok s
    else
      rbind (match mget (e_path e) (f_files s) with Some _ => Ok s | None => download e s end) (fun s1 =>
      rbind (hash_of (e_path e) s1) (fun h =>
      rbind (if same_hash h e then Ok s1 else download e s1) (fun s2 =>
      rbind (check_sign e s2) (fun ok => if ok then Ok s2 else Throw)))).
  Definition read_file (path : str) (s : fstate) : res apkg :=
    match mget path (f_files s) with
    | None => Throw
    | Some c => match unpack c with None => Throw | Some a => read_arch a end
    end.
  Definition fetch (n : str) (s : fstate) : res (apkg * fstate) :=
    match mget n repo with
    | None => Throw
    | Some e => rbind (obtain e s) (fun s' => rbind (read_file (e_path e) s') (fun a => Ok (a, s')))
    end.
  Definition repo_idx : list (str * list dep) := map (fun x => (fst x, i_deps (e_rec (snd x)))) repo.

  (** install.cxx:118-153: the packages of the configured groups (locales) for everything in the list *)
  Definition gnames (groups : list str) (l : list dep) : list str :=
    filter (fun n => match mget n repo with Some _ => true | None => false end) (flat_map (fun g => map (fun j => fst j ++ L "." ++ g) l) groups).
  Fixpoint predownload (ns : list str) (s : fstate) : res fstate :=
    match ns with
    | [] => Ok s
    | n :: t => match mget n repo with
                | None => predownload t s
                | Some e => rbind (match mget (e_path e) (f_files s) with Some _ => Ok s | None => download e s end) (predownload t)
                end
    end.
  Variable db : list (str * rec).
  Variable jb : Z.
  (** install.cxx:28-71: the list of packages that the command hands to the installer, and the state then *)
  Definition resolve (fuel : nat) (requests groups : list str) (s : fstate) : option (res (list dep * gst fstate)) :=
    match generate_all db jb repo_idx fstate fetch fuel requests [] (G [] s) with
    | Some (Ok (l, g)) =>
        let ns := gnames groups l in
        match predownload ns (g_st g) with
        | Ok s' => generate_all db jb repo_idx fstate fetch fuel (set_of ns) l (G (g_seen g) s')
        | Throw => Some Throw
        | UB => Some UB
        end
    | o => o
    end.
End Fetch.
