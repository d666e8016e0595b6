(** The footprint of an archive: pkgdbh.cxx:1535-1675 getFootprintPackage (pkginfo -f, pkginfo.cxx:192-196).
    Simplifications: an entry is what libarchive says about it (uid and gid as converted to 32 bits); both passes read the same file; getpwuid and getgrgid are the
    parameters [user] and [group]. *)
From Verif Require Import Base StrModel FsProofs.

(** e_hard: archive_entry_hardlink; e_link: archive_entry_symlink; e_data: archive_read_data_skip succeeds *)
Record entry := Entry { e_name : str; e_mode : N; e_hard : option str; e_link : str; e_uid : N; e_gid : N; e_size : N;
                        e_major : N; e_minor : N; e_data : bool }.
(** what archive_read_next_header gives, up to the end of the archive: ARCHIVE_OK, ARCHIVE_WARN, or an error *)
Inductive header := Good (e : entry) | Warned (e : entry) | Unreadable.
Definition is_type (t mode : N) : bool := (N.land mode S_IFMT =? t)%N.
Definition s_isreg := is_type 32768.
Definition s_islnk := is_type 40960.
Definition s_ischr := is_type 8192.
Definition s_isblk := is_type 24576.
(** pkgdbh.cxx:1561-1562, 1594-1595: both loops end at the first result that is not ARCHIVE_OK *)
Fixpoint entries (l : list header) : list entry := match l with Good e :: t => e :: entries t | _ => [] end.
(** pkgdbh.cxx:1564-1570: hardlink_target_modes *)
Definition modes (es : list entry) : list (str * N) :=
  fold_left (fun m e => match e_hard e with None => mset (e_name e) (e_mode e) m | Some _ => m end) es [].
Section Footprint.
  Variables user group : N -> option str.
  (** pkgdbh.cxx:1614-1630 *)
  Definition who (f : N -> option str) (n : N) : str := match f n with Some s => s | None => dec n end.
  (** pkgdbh.cxx:1598-1610: operator[] gives 0 for a target that is not in the archive *)
  Definition mode_text (ms : list (str * N)) (e : entry) : str :=
    if s_islnk (e_mode e) then L "lrwxrwxrwx"
    else match e_hard e with
         | Some h => mtos (match mget h ms with Some m => m | None => 0%N end)
         | None => mtos (e_mode e)
         end.
  (** pkgdbh.cxx:1635-1649 *)
  Definition special (e : entry) : str :=
    if s_islnk (e_mode e) then L " -> " ++ e_link e
    else if s_ischr (e_mode e) || s_isblk (e_mode e) then L " (" ++ dec (e_major e) ++ L ", " ++ dec (e_minor e) ++ L ")"
    else if s_isreg (e_mode e) && (e_size e =? 0)%N then L " (EMPTY)" else [].
  Definition tab : ascii := "009"%char.
  (** pkgdbh.cxx:1596-1651, without the newline *)
  Definition line (ms : list (str * N)) (e : entry) : str :=
    mode_text ms e ++ tab :: who user (e_uid e) ++ "/"%char :: who group (e_gid e) ++ tab :: e_name e ++ special e.
  (** None: an exception; nothing was printed then, since unreadable data is found in the first pass (l.1572-1577) and the test
      for an empty archive (l.1661-1672) fails only when no line was printed *)
  Definition footprint (l : list header) : option str :=
    let es := entries l in
    if existsb (fun e => s_isreg (e_mode e) && negb (e_data e)) es then None
    else match es with [] => None | _ => Some (text_of (map (line (modes es)) es)) end.
End Footprint.
