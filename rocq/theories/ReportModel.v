(** The report of 'cards diff' (and, without the lists, of 'cards upgrade'): diff.cxx:111-281, by lines (every line ends with std::endl).
    Simplifications: the messages are not translated; the ratio (RatioModel) and the space given by statvfs are arguments. *)
From Verif Require Import Base StrModel MetaModel DbModel IndexModel DiffModel DiffAmounts SizeModel.
From Coq Require Import NArith.
Open Scope nat_scope.

(** diff.cxx:24-69: m_listOfPackagesToDeal, as far as it is printed: status, installed_version, available_version (the versions of the packages
    that are not out of date are those of an earlier turn and are never printed) *)
Record row := Row { w_status : upg; w_inst : str; w_avail : str }.
Definition row_turn (j : junk) (repo : list (str * irec)) (m : mem) (p : str * rec) : row :=
  Row (classify j repo m p) (vtext (r_version (snd p)) (known (j_irel j (fst p)) (r_release (snd p))))
      (match mget (fst p) repo with Some i => vtext (i_text "V"%char i) (known (j_rrel j (fst p)) (i_release i)) | None => [] end).
Definition rows (j : junk) (repo : list (str * irec)) (m : mem) : list (str * row) := fold_left (fun (acc : list (str * row)) (p : str * rec) => mset (fst p) (row_turn j repo m p) acc) (m_pkgs m) [].
Definition is_status (u : upg) (p : str * row) : bool := match u, w_status (snd p) with UOk, UOk | UOut, UOut | UNew, UNew | UObs, UObs | UUnm, UUnm => true | _, _ => false end.
(** std::left << std::setw(w) << s *)
Definition setw (w : nat) (s : str) : str := s ++ repeat " "%char (w - length s).
(** diff.cxx:118-137 *)
Definition widths (l : list (str * row)) : nat * nat :=
  let w := fold_left (fun (w : nat * nat) (p : str * row) => if is_status UOut p then
      ((if fst w <? length (fst p) then length (fst p) else fst w), (if snd w <? length (w_inst (snd p)) then length (w_inst (snd p)) else snd w)) else w) l
    ((if 2 <? length (L "Name:") then length (L "Name:") else 2), (if 4 <? length (L "Installed:") then length (L "Installed:") else 4)) in
  (S (fst w), S (snd w)).
Definition counted (h : string) (n : nat) : str := L h ++ dec (N.of_nat n mod 2 ^ 32).
(** diff.cxx:176-235: the four lists that are shown if they are not empty (no package has the status of a conflict: m_packagesConflict is 0) *)
Definition part (details : bool) (h : string) (n : nat) (w1 : nat) (u : upg) (l : list (str * row)) : list str :=
  if 0 <? n then [[]; counted h n] ++ (if details then map (fun p : str * row => setw w1 (fst p)) (filter (is_status u) l) else []) else [].
(** diff.cxx:251-281 *)
Definition amount (h : string) (v : N) : str := L h ++ size_text v ++ L "bytes".
Definition amount_info (space : N) (l : list (str * amounts)) : list str :=
  [[]; amount "Available space on your system:           " space; []; amount "Total download size:                      " (downloadSize l);
   amount "Total size of reinstalled packages:       " (addSize l); amount "Total size of remove packages:            " (removeSize l)] ++
  (if (removeSize l <? addSize l)%N then [amount "Total amount of added bytes:              " (addSize l - removeSize l)] else []) ++
  (if (addSize l <? removeSize l)%N then [amount "Total amount of removed bytes:            " (removeSize l - addSize l)] else []).
(** define.h:19, 23 *)
Definition blue : str := "027"%char :: L "[1;34m".
Definition normal : str := "027"%char :: L "[1;0m".
(** diff.cxx:237-249 *)
Definition advice (ratio : N) : list str :=
  if (20 <? ratio)%N then [[]; L "Percentage of obsoletes packages: " ++ dec ratio ++ L " %"; []; L "Use the command: " ++ blue ++ L "sudo cards upgrade --proceed" ++ normal; L "when you're ready to upgrade your system."; []] else [].
(** diff.cxx:111-250 *)
Definition show_info (details : bool) (space ratio : N) (js jz : str -> N) (j : junk) (repo : list (str * irec)) (m : mem) : list str :=
  let s := diff j repo m in
  if d_size s =? 0 then [L "Your system is up to date."]
  else let l := rows j repo m in
    let '(w1, w2) := widths l in
    [[]; counted "Number of Packages:                       " (length (m_pkgs m));
     counted "Unchanged Packages:                       " (d_ok s);
     counted "Added packages (new dependencies):        " 0;
     []; counted "Out of Date Packages (different version): " (d_out s)] ++
    (if details then (setw w1 (L "Name:") ++ setw w2 (L "Installed:") ++ L "Available:") ::
       map (fun p : str * row => setw w1 (fst p) ++ setw w2 (w_inst (snd p)) ++ w_avail (snd p)) (filter (is_status UOut) l) else []) ++
    part details "Rebuild Packages (newer build date):      " (d_new s) w1 UNew l ++
    part details "Obsoletes Packages (will be removed):     " (d_obs s) w1 UObs l ++
    part details "Unmaintained Packages (should be removed):" (d_unm s) w1 UUnm l ++
    amount_info space (deal j js jz repo m) ++ advice ratio.
