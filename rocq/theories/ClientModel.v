(** fltk/cards_client.cxx: what the "Go !" button of flcards does to the system. *)
From Verif Require Import Base StrModel RulesModel FsModel MetaModel DbModel GenDeps HexModel IndexModel FetchModel InstallModel.
From Coq Require Import ZArith.

Section Client.
  Variables (junk : bool) (machine : str) (re : str -> str -> option bool) (sh : str -> fs -> fs * bool) (root : str).
  Variable url : str.
  Variable repo : list (str * ent).
  Variable sha : str -> str.
  Variable key : Type.
  Variable pem : str -> option key.
  Variable verify : key -> str -> str -> bool.
  Variable unpack : str -> option archive.
  Variable jb : Z.

  (** fltk/cards_client.cxx:81-95: the loop of RemovePackages. Unlike 'cards remove' (remove.cxx:7-134) it asks for nothing but
      the name being known: no look at the dependents, nor at the base packages ([basePackagesList], l.79, stays empty and is
      not read), and no removal scripts. The metadata go before the files. treatErrors throws. *)
  Fixpoint take_out (names : list str) (w : world) (m : mem) : out unit :=
    match names with
    | [] => Ret tt w m
    | n :: t =>
        if negb (name_exists m n) then Stop NotInstalled w
        else match remove_refs junk n (w, m) with
             | None => Stop Exception w
             | Some wm => let '(w1, m1) := remove_files root n [] wm in take_out t w1 m1
             end
    end.
  (** fltk/cards_client.cxx:63-96 RemovePackages, on a client just made (cards_wrapper.cxx:248-250), so that buildDatabase
      (pkgdbh.cxx:468-649) reads the database. The names are those of a std::set. Not modelled: the messages, the progress (C107),
      the lock (C14) and the second client of l.78, which is not used. *)
  Definition client_remove (names : list str) (w : world) : option stop * world :=
    match names with
    | [] => (None, w)
    | _ =>
        let w0 := World (cleanup_meta (w_fs w) root) (w_db w) in
        match load junk (w_db w0) with
        | UB => (Some Undefined, w0)
        | Throw => (Some Exception, w0)
        | Ok m => finish (take_out names w0 m)
        end
    end.
  (** fltk/cards_client.cxx:18-59 InstallPackages: the loops of install.cxx:27-92 (InstallModel.cards_install) for plain names,
      without group packages, always forced (l.56), with the scripts of the packages (m_runPrePost, pkgdbh.cxx:14), the repository
      being compared with the same database (root "/", pkgdbh.cxx:15). None: the fuel of the resolution is too small. *)
  Definition client_install (fuel : nat) (scripts : bool) (conf : option str) (names : list str) (s : fstate) (w : world) : option (option stop * world) :=
    match names with
    | [] => Some (None, w)
    | _ => cards_install junk machine re sh root url repo sha key pem verify unpack jb fuel (w_db w) true scripts conf (map Package names) [] s w
    end.
  (** fltk/cards_wrapper.cxx:246-264: the removals, then the installations by a second client; an exception ends both.
      [scripts] is true in flcards. *)
  Definition client_go (fuel : nat) (scripts : bool) (conf : option str) (rm ins : list str) (s : fstate) (w : world) : option (option stop * world) :=
    match client_remove rm w with
    | (Some e, w1) => Some (Some e, w1)
    | (None, w1) => client_install fuel scripts conf ins s w1
    end.
End Client.
