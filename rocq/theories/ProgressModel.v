(** The percentages shown while the engine works: on the terminal (pkgdbh.cxx:199-306) and in the window of flcards (fltk/cards_client.cxx:98-147). *)
From Verif Require Import Base MetaModel.
From Coq Require Import NArith.
Open Scope N_scope.

(** the calls of progressInfo with the numbers it reads: how many packages are installed (m_listOfPackagesNames.size()), how many
    entries have been extracted, m_filesNumber, m_filesList.size(). Other: the actions that show no number (pkgdbh.cxx:209-218,
    232-243, 265-280, 303-306) *)
Inductive call := OpenStart | OpenRun (packages : N) | OpenEnd
                | AddStart | AddRun (extracted files : N) | AddEnd
                | RmStart | RmRun (listed files : N) | RmEnd
                | Other.

(** pkgdbh.cxx:478-648 buildDatabase: one call per installed package *)
Definition opening (n : nat) : list call := OpenStart :: repeat (OpenRun (N.of_nat n)) n ++ [OpenEnd].
(** pkgdbh.cxx:1253-1317 installArchivePackage: one call per entry of the archive; [files]: the lines of its .MTREE (1128) *)
Definition adding (entries : nat) (files : N) : list call :=
  AddStart :: map (fun d => AddRun (N.of_nat d) files) (seq 0 entries) ++ [AddEnd].
(** pkgdbh.cxx:959-971, 1008-1019 removePackageFiles: one call per file to delete; [files]: m_filesNumber, whatever it is *)
Definition removing (n : nat) (files : N) : list call := RmStart :: repeat (RmRun (N.of_nat n) files) n ++ [RmEnd].

Definition INT_MAX : N := 2147483647.
Definition u32 (x : N) : N := x mod 4294967296.
(** a division as the processor does it: by zero, the program dies (SIGFPE) *)
Definition quot (a b : N) : res N := if b =? 0 then UB else Ok (a / b).
(** j++; j * 100, as an int *)
Definition hundred (j : N) : res N := if INT_MAX <? j * 100 then UB else Ok (j * 100).

(** pkgdbh.cxx:205-302, with m_progress set: the new value of the static j and the number shown, if any. The number is a size_t given to
    "%3u" (225, 297): here the number itself. *)
Definition cli_step (c : call) (j : N) : res (N * option N) :=
  match c with
  | OpenRun n | RmRun n _ => rbind (hundred (j + 1)) (fun a => rbind (quot a n) (fun v => Ok (j + 1, Some v)))
  | OpenEnd => Ok (0, Some 100)
  | AddStart | RmStart => Ok (0, None)
  | AddRun d f => rbind (quot (u32 (d * 100)) f) (fun v => Ok (j + 1, Some v))
  | AddEnd | RmEnd => Ok (j, Some 100)
  | OpenStart | Other => Ok (j, None)
  end.
(** fltk/cards_client.cxx:98-147: the new value of the static j, and the number given to the progress box (progressbox.cxx:72-78), 0 for the
    actions the switch does not name *)
Definition gui_step (c : call) (j : N) : res (N * option N) :=
  match c with
  | OpenRun n => rbind (quot j (n / 100)) (fun v => Ok (u32 (j + 1), Some v))
  | AddRun d f => if 100 <? f then rbind (quot d (f / 100)) (fun v => Ok (u32 (j + 1), Some v)) else Ok (u32 (j + 1), Some j)
  | RmStart => Ok (0, Some 0)
  | RmRun _ f => if 100 <? f then rbind (quot j (f / 100)) (fun v => Ok (u32 (j + 1), Some v)) else Ok (u32 (j + 1), Some j)
  | _ => Ok (j, Some 0)
  end.
(** the numbers shown by a sequence of calls *)
Fixpoint shown (step : call -> N -> res (N * option N)) (cs : list call) (j : N) : res (N * list N) :=
  match cs with
  | [] => Ok (j, [])
  | c :: t => rbind (step c j) (fun p => rbind (shown step t (fst p)) (fun q =>
                Ok (fst q, match snd p with Some v => v :: snd q | None => snd q end)))
  end.
