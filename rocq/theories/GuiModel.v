(** The graphical client flcards: its table of packages, marks, job list and buttons (fltk/table_package.cxx, fltk/table_base.cxx,
    fltk/cards_wrapper.cxx, fltk/mainWindow.cxx), one user event at a time: every thread an event starts is run to its end before the
    next event (the schedules where it is not are those of [ThreadModel]). Colours, widths, fonts and drawing are not modelled. *)
From Verif Require Import Base StrModel MetaModel IndexModel.
From Coq Require Import ZArith NArith.

(** src/enum.h:71-77 *)
Definition INSTALLED : N := 1.
Definition TO_INSTALL : N := 2.
Definition TO_REMOVE : N := 4.
(** src/cache.cxx:23-30, 67-78 *)
Definition set_bit (b s : N) : N := N.lor s b.
Definition unset_bit (b s : N) : N := N.ldiff s b.
Definition has_bit (b s : N) : bool := negb (N.land s b =? 0)%N.

(** the fields of src/cache.h the client shows *)
Record details := Details { d_version : str; d_text : str; d_coll : str; d_packager : str }.
Record pk := Pk { k_name : str; k_info : details; k_status : N }.
Definition with_status (s : N) (p : pk) : pk := Pk (k_name p) (k_info p) s.

(** cards::cache*: an object of the list of packages. [fst]: which list it belongs to: m_ClearPackagesList deletes every object of the
    list (fltk/cards_wrapper.cxx:386-396), and a pointer into it is dangling from then on. *)
Definition ptr := (nat * nat)%type.
(** fltk/table_base.h:24-30 *)
Record row := Row { r_cols : list str; r_data : ptr }.

(** fltk/table_base.cxx:16-30. sscanf("%d") reads a long and cuts it to an int, as atoi does. *)
Definition isdigit (s : str) : bool := match s with c :: _ => (48 <=? N_of_ascii c)%N && (N_of_ascii c <=? 57)%N | [] => false end.
Definition cell (col : nat) (r : row) : str := cstr (nth col (r_cols r) []).
Definition row_less (col : nat) (reverse : bool) (a b : row) : bool :=
  let ap := cell col a in let bp := cell col b in
  if isdigit ap && isdigit bp then
    if reverse then (atoi_int ap <? atoi_int bp)%Z else (atoi_int bp <? atoi_int ap)%Z
  else if reverse then sltb bp ap else sltb ap bp.

(** m_arrPackages, m_arrJobList (cards_wrapper.h), m_rowdata, m_filter, m_sort_lastcol, m_sort_reverse (table_base.h), the "Go !" button and
    the information pane (mainWindow.h). [g_gen]: how many lists have been deleted. *)
Record gui := Gui { g_gen : nat; g_pkgs : list pk; g_jobs : list ptr; g_rows : list row; g_filter : str; g_lastcol : option nat; g_reverse : bool;
                    g_active : bool; g_info : str }.

Inductive event :=
  | Click (i : nat) (pick : bool)      (** left click on row i; [pick]: the menu entry is chosen, or the menu is dismissed *)
  | Look (i : nat)                     (** any other event on row i *)
  | Search (s : str)                   (** the text of the search field *)
  | Header (c : nat)                   (** left click on the header of column c *)
  | Go (root : bool)                   (** the "Go !" button; [root]: the client runs as root *)
  | Sync (root : bool).                (** the "Sync" button *)

(** what the user sees of an event *)
Inductive seen (W : Type) :=
  | Picked (n label : str)
  | Dismissed (n label : str)
  | Looked (n : str)
  | Searched (s : str)
  | Sorted (c : nat)
  | Nothing
  | GoRefused                          (** nothing happens and nothing is said: only table_base and ProgressBox hear OnDoJobListFinished *)
  | SyncRefused                        (** an alert: root is needed (mainWindow.cxx:194-204) *)
  | Done (removed installed : list str) (ok : bool) (w : W)   (** the job was run and the list of packages was read again in w *)
  | Synced (w : W).
Arguments Picked {W}. Arguments Dismissed {W}. Arguments Looked {W}. Arguments Searched {W}. Arguments Sorted {W}. Arguments Nothing {W}.
Arguments GoRefused {W}. Arguments SyncRefused {W}. Arguments Done {W}. Arguments Synced {W}.

(** empty(), size() == 0 *)
Definition emptyb {A} (l : list A) : bool := match l with [] => true | _ => false end.
Definition NL : str := [ascii_of_nat 10].

Section Gui.
  (** the system: the packages of the index in their order (pkgrepo::getListOfPackages, a map), the names of the installed packages, and
      what RemovePackages, InstallPackages and sync::run do (false: an exception) *)
  Variable W : Type.
  Variable avail : W -> list (str * details).
  Variable inst : W -> list str.
  Variables remove_pkgs install_pkgs : list str -> W -> W * bool.
  Variable sync_run : W -> W.
  (** std::sort with row_less of that column *)
  Variable sort_rows : nat -> bool -> list row -> list row.

  (** fltk/cards_wrapper.cxx:287-300 *)
  Definition read_pkgs (w : W) : list pk :=
    map (fun e => Pk (fst e) (snd e) (if smem (fst e) (inst w) then set_bit INSTALLED 0 else 0%N)) (avail w).

  (** fltk/table_package.cxx:24-58: the rows of the packages that contain the filter *)
  Definition has (f s : str) : bool := match sfind f s with Some _ => true | None => false end.
  Definition matches (f : str) (p : pk) : bool :=
    if emptyb f then true
    else has f (k_name p) || has f (d_coll (k_info p)) || has f (d_text (k_info p)) || has f (d_version (k_info p)).
  Definition letter (s : N) : str :=
    if has_bit TO_INSTALL s then L "A" else if has_bit TO_REMOVE s then L "B" else if has_bit INSTALLED s then L "C" else L "D".
  Definition row_of (gen : nat) (e : nat * pk) : row :=
    let p := snd e in
    Row [letter (k_status p); k_name p; d_version (k_info p); d_text (k_info p); d_coll (k_info p); d_packager (k_info p)] (gen, fst e).
  Definition numbered {A} (l : list A) : list (nat * A) := combine (seq 0 (length l)) l.
  Definition refresh_table (g : gui) : gui :=
    Gui (g_gen g) (g_pkgs g) (g_jobs g) (map (row_of (g_gen g)) (filter (fun e => matches (g_filter g) (snd e)) (numbered (g_pkgs g))))
        (g_filter g) (g_lastcol g) (g_reverse g) (g_active g) (g_info g).

  (** fltk/cards_wrapper.cxx:93-111, and the subscribers: table_base.cxx:237-241, mainWindow.cxx:206-220 *)
  Definition jobs_of (g : gui) : list ptr :=
    map (fun e => (g_gen g, fst e)) (filter (fun e => has_bit TO_INSTALL (k_status (snd e)) || has_bit TO_REMOVE (k_status (snd e))) (numbered (g_pkgs g))).
  Definition refresh_jobs (g : gui) : gui :=
    let j := jobs_of g in
    let t := refresh_table (Gui (g_gen g) (g_pkgs g) j (g_rows g) (g_filter g) (g_lastcol g) (g_reverse g) (g_active g) (g_info g)) in
    Gui (g_gen t) (g_pkgs t) (g_jobs t) (g_rows t) (g_filter t) (g_lastcol t) (g_reverse t) (negb (emptyb j)) (g_info t).

  (** fltk/cards_wrapper.cxx:280-304: a new list; the job list is left alone; table_base.cxx:243-248 *)
  Definition refresh_pkgs (w : W) (g : gui) : gui :=
    refresh_table (Gui (S (g_gen g)) (read_pkgs w) (g_jobs g) (g_rows g) (g_filter g) (g_lastcol g) (g_reverse g) (g_active g) (g_info g)).

  (** reading the object of a pointer *)
  Definition deref (g : gui) (p : ptr) : option pk := if fst p =? g_gen g then nth_error (g_pkgs g) (snd p) else None.

  (** fltk/table_package.cxx:174-201: the menus shown one after the other *)
  Definition menus (s : N) : list str :=
    (if has_bit INSTALLED s && negb (has_bit TO_REMOVE s) then [L "Remove"] else []) ++
    (if negb (has_bit INSTALLED s) && negb (has_bit TO_INSTALL s) then [L "Install"] else []) ++
    (if has_bit TO_REMOVE s then [L "Cancel Remove"] else []) ++
    (if has_bit TO_INSTALL s then [L "Cancel Install"] else []).
  (** fltk/table_package.cxx:203-238: the status after the entry is chosen; None: no refreshJobList either *)
  Definition chosen (label : str) (s : N) : option N :=
    if seqb label (L "Install") then Some (set_bit TO_INSTALL s)
    else if seqb label (L "Remove") then if has_bit INSTALLED s then Some (set_bit TO_REMOVE s) else None
    else if seqb label (L "Cancel Install") || seqb label (L "Cancel Remove") then
      let s1 := if has_bit TO_INSTALL s then unset_bit TO_INSTALL s else s in
      Some (if has_bit TO_REMOVE s1 then unset_bit TO_REMOVE s1 else s1)
    else None.

  Fixpoint update (i : nat) (f : pk -> pk) (l : list pk) : list pk :=
    match l, i with [], _ => [] | p :: t, 0 => f p :: t | p :: t, S j => p :: update j f t end.
  Definition put_status (i : nat) (s : N) (g : gui) : gui :=
    Gui (g_gen g) (update i (with_status s) (g_pkgs g)) (g_jobs g) (g_rows g) (g_filter g) (g_lastcol g) (g_reverse g) (g_active g) (g_info g).

  (** fltk/cards_wrapper.cxx:77-89, 183-193; mainWindow.cxx:222-242 *)
  Definition info_text (p : pk) : str :=
    if emptyb (k_name p) then L "No information available for this package"
    else cstr (k_name p) ++ cstr (L " " ++ d_version (k_info p) ++ NL) ++ cstr (d_text (k_info p) ++ NL) ++
         cstr (L "build by: " ++ d_packager (k_info p) ++ NL) ++ cstr (L "from    : " ++ d_coll (k_info p) ++ L " collection/set of packages").
  Definition show_info (n : str) (g : gui) : gui :=
    let text := match find (fun p => seqb (k_name p) n) (g_pkgs g) with Some p => info_text p | None => L "No information available for this package" end in
    Gui (g_gen g) (g_pkgs g) (g_jobs g) (g_rows g) (g_filter g) (g_lastcol g) (g_reverse g) (g_active g) text.

  (** fltk/cards_wrapper.cxx:237-243: the names of the two sets; None: an object of the job list has been deleted *)
  Fixpoint job_sets (g : gui) (l : list ptr) : option (list str * list str) :=
    match l with
    | [] => Some ([], [])
    | p :: t =>
        match deref g p, job_sets g t with
        | Some k, Some (rm, ins) => Some (if has_bit TO_REMOVE (k_status k) then sins (k_name k) rm else rm,
                                          if has_bit TO_INSTALL (k_status k) then sins (k_name k) ins else ins)
        | _, _ => None
        end
    end.
  (** fltk/cards_wrapper.cxx:246-264 *)
  Definition do_jobs (rm ins : list str) (w : W) : W * bool :=
    let a := if emptyb rm then (w, true) else remove_pkgs rm w in
    if snd a then if emptyb ins then a else install_pkgs ins (fst a) else a.

  Definition step (e : event) (g : gui) (w : W) : res (seen W * gui * W) :=
    match e with
    | Click i pick =>
        match nth_error (g_rows g) i with
        | None => Ok (Nothing, g, w)
        | Some r =>
            match deref g (r_data r) with
            | None => UB
            | Some p =>
                match rev (menus (k_status p)) with
                | [] => UB                                      (* m is not initialised *)
                | label :: _ =>
                    if pick then
                      match chosen label (k_status p) with
                      | Some s => Ok (Picked (k_name p) label, show_info (k_name p) (refresh_jobs (put_status (snd (r_data r)) s g)), w)
                      | None => Ok (Picked (k_name p) label, show_info (k_name p) g, w)
                      end
                    else Ok (Dismissed (k_name p) label, g, w)
                end
            end
        end
    | Look i =>
        match nth_error (g_rows g) i with
        | None => Ok (Nothing, g, w)
        | Some r => match deref g (r_data r) with None => UB | Some p => Ok (Looked (k_name p), show_info (k_name p) g, w) end
        end
    (* fltk/table_base.cxx:229-233 *)
    | Search s => Ok (Searched s, refresh_table (Gui (g_gen g) (g_pkgs g) (g_jobs g) (g_rows g) s (g_lastcol g) (g_reverse g) (g_active g) (g_info g)), w)
    (* fltk/table_base.cxx:59-64, 207-222 *)
    | Header c =>
        let r := match g_lastcol g with Some d => if d =? c then negb (g_reverse g) else false | None => false end in
        Ok (Sorted c, Gui (g_gen g) (g_pkgs g) (g_jobs g) (sort_rows c r (g_rows g)) (g_filter g) (Some c) r (g_active g) (g_info g), w)
    (* fltk/mainWindow.cxx:116-126, cards_wrapper.cxx:228-276 *)
    | Go root =>
        if negb (g_active g) then Ok (Nothing, g, w)
        else if root then
          match job_sets g (g_jobs g) with
          | None => UB
          | Some (rm, ins) => let o := do_jobs rm ins w in Ok (Done rm ins (snd o) (fst o), refresh_jobs (refresh_pkgs (fst o) g), fst o)
          end
        else Ok (GoRefused, refresh_jobs g, w)
    (* fltk/cards_wrapper.cxx:201-224, 312-319 *)
    | Sync root => if root then Ok (Synced (sync_run w), refresh_pkgs (sync_run w) g, sync_run w) else Ok (SyncRefused, g, w)
    end.

  (** fltk/table_package.cxx:11-21, table_base.cxx:34-55, mainWindow.cxx:10-59: the window once the first list has been read *)
  Definition start (w : W) : gui := refresh_pkgs w (Gui 0 [] [] [] [] None false false []).

  (** a session: between two events the system may change under the client's feet (another command, another user) *)
  Fixpoint run (es : list (event * W)) (g : gui) : res (list (seen W) * gui) :=
    match es with
    | [] => Ok ([], g)
    | (e, w) :: t =>
        match step e g w with
        | Ok (o, g', _) => match run t g' with Ok (os, g'') => Ok (o :: os, g'') | Throw => Throw | UB => UB end
        | Throw => Throw
        | UB => UB
        end
    end.
End Gui.
