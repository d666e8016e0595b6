(** The threads of flcards (fltk/cards_wrapper.cxx:144-304): jobs are started by the main thread on the user's actions (and one of them by the
    thread of a synchronisation) and run beside it. [GuiModel] says what the events do when every thread is run to its end; here a schedule says who
    gets through, one instruction at a time. The main thread handles a user action in one step: it holds FLTK's lock until it waits for the next
    one, and the callbacks that change the window take that lock. Only what decides about exclusion and about valid memory is kept of the data:
    which list of packages is current, which ones the table and the job list point into, whether something is chosen.
    Not modelled: m_job_running is not atomic; exceptions that leave m_RefreshPackageList_Thread, which would end the program. *)
From Verif Require Import Base MetaModel.

Inductive job := RefreshJob | InfoJob | SyncJob | GoJob.

Inductive instr :=
  | SetFlag | ClearFlag                 (** m_job_running = true, = false *)
  | BeginRead | EndRead                 (** a loop over m_arrPackages *)
  | DeleteList                          (** m_ClearPackagesList *)
  | FillList                            (** the loop of push_back *)
  | ShowTable                           (** OnRefreshPackageFinished: the table is built from the list *)
  | ReadJobs                            (** the loop over m_arrJobList *)
  | Work                                (** the index is fetched, or packages are removed and installed *)
  | ListJobs                            (** refreshJobList *)
  | LaunchRefresh                       (** refreshPackageList *)
  | HideBox.                            (** OnSyncFinished, OnDoJobListFinished of the progress box *)

(** fltk/cards_wrapper.cxx:280-304 *)
Definition refresh_program : list instr := [SetFlag; DeleteList; FillList; ShowTable; ClearFlag].
(** fltk/cards_wrapper.cxx:183-194 *)
Definition info_program : list instr := [SetFlag; BeginRead; EndRead; ClearFlag].
(** fltk/cards_wrapper.cxx:201-225, 312-319 *)
Definition sync_program (root : bool) : list instr :=
  SetFlag :: (if root then [Work; ClearFlag; LaunchRefresh] else [ClearFlag]) ++ [HideBox].
(** fltk/cards_wrapper.cxx:228-276, 322-328. m_arrJobList.clear() and refreshJobList are one step: refreshJobList clears it again. *)
Definition go_program (root : bool) : list instr :=
  SetFlag :: (if root then [BeginRead; ReadJobs; EndRead; Work] ++ refresh_program else []) ++ [ListJobs; ClearFlag; HideBox].
Definition program (root : bool) (j : job) : list instr :=
  match j with RefreshJob => refresh_program | InfoJob => info_program | SyncJob => sync_program root | GoJob => go_program root end.

(** a thread and what it still has to do *)
Record thread := Th { t_job : job; t_rest : list instr }.

(** m_job_running; the threads started so far; whether the modal progress box is open; m_arrPackages: how many lists have been deleted, whether it is
    being rebuilt, how many loops read it, whether one of its packages is chosen; the lists the table's rows and the job list point into (None:
    there are none); whether "Go !" is active; whether the program has ended *)
Record st := St { flag : bool; threads : list thread; box : bool; gen : nat; filling : bool; readers : nat; marked : bool;
                  row_gen : option nat; job_gen : option nat; active : bool; ended : bool }.

Inductive user :=
  | PressSync
  | PressGo
  | Pick (any : bool)                  (** a row and its menu entry; [any]: something is chosen then *)
  | Look                               (** a row, no choice *)
  | Search
  | Close.                             (** the window *)
Inductive move := User (u : user) | Turn (i : nat).

Definition set_flag (b : bool) (s : st) : st :=
  St b (threads s) (box s) (gen s) (filling s) (readers s) (marked s) (row_gen s) (job_gen s) (active s) (ended s).
Definition set_threads (l : list thread) (s : st) : st :=
  St (flag s) l (box s) (gen s) (filling s) (readers s) (marked s) (row_gen s) (job_gen s) (active s) (ended s).
Definition set_box (b : bool) (s : st) : st :=
  St (flag s) (threads s) b (gen s) (filling s) (readers s) (marked s) (row_gen s) (job_gen s) (active s) (ended s).

(** fltk/cards_wrapper.cxx:144-181, 372-384: a job is started if m_job_running is false at this moment: the thread sets it, later *)
Definition launch (root : bool) (j : job) (s : st) : st :=
  if flag s then s else set_threads (threads s ++ [Th j (program root j)]) s.

(** fltk/cards_wrapper.cxx:93-111, with the table's and the window's OnJobListChange *)
Definition list_jobs (s : st) : res st :=
  if filling s then UB
  else Ok (St (flag s) (threads s) (box s) (gen s) (filling s) (readers s) (marked s) (Some (gen s))
              (if marked s then Some (gen s) else None) (marked s) (ended s)).

(** one instruction of a thread *)
Definition exec (root : bool) (c : instr) (s : st) : res st :=
  match c with
  | SetFlag => Ok (set_flag true s)
  | ClearFlag => Ok (set_flag false s)
  | BeginRead => if filling s then UB else Ok (St (flag s) (threads s) (box s) (gen s) (filling s) (S (readers s)) (marked s) (row_gen s) (job_gen s) (active s) (ended s))
  | EndRead => Ok (St (flag s) (threads s) (box s) (gen s) (filling s) (pred (readers s)) (marked s) (row_gen s) (job_gen s) (active s) (ended s))
  | DeleteList => if filling s || (0 <? readers s) then UB
      else Ok (St (flag s) (threads s) (box s) (S (gen s)) true (readers s) false (row_gen s) (job_gen s) (active s) (ended s))
  | FillList => Ok (St (flag s) (threads s) (box s) (gen s) false (readers s) (marked s) (row_gen s) (job_gen s) (active s) (ended s))
  | ShowTable => if filling s then UB else Ok (St (flag s) (threads s) (box s) (gen s) (filling s) (readers s) (marked s) (Some (gen s)) (job_gen s) (active s) (ended s))
  | ReadJobs => match job_gen s with Some g => if g =? gen s then Ok s else UB | None => Ok s end
  | Work => Ok s
  | ListJobs => list_jobs s
  | LaunchRefresh => Ok (launch root RefreshJob s)
  | HideBox => Ok (set_box false s)
  end.

(** what a click on a row reads: fltk/table_package.cxx:152-205 *)
Definition row_ok (s : st) : bool := match row_gen s with Some g => (g =? gen s) && negb (filling s) | None => true end.

(** a user action; while the box is open it is modal: FLTK passes nothing to the other windows, and the box ignores being closed
    (fltk/progressbox.cxx:46, 91-94) *)
Definition act (root : bool) (u : user) (s : st) : res st :=
  if box s || ended s then Ok s
  else match u with
  (* fltk/mainWindow.cxx:105-115 *)
  | PressSync => Ok (set_box true (launch root SyncJob s))
  (* fltk/mainWindow.cxx:116-126 *)
  | PressGo => if active s then Ok (set_box true (launch root GoJob s)) else Ok s
  (* fltk/table_package.cxx:152-241: without rows there is nothing to click on *)
  | Pick any =>
      match row_gen s with
      | None => Ok s
      | Some _ =>
          if row_ok s then
            match list_jobs (St (flag s) (threads s) (box s) (gen s) (filling s) (readers s) any (row_gen s) (job_gen s) (active s) (ended s)) with
            | Ok s' => Ok (launch root InfoJob s')
            | r => r
            end
          else UB
      end
  | Look => match row_gen s with None => Ok s | Some _ => if row_ok s then Ok (launch root InfoJob s) else UB end
  (* fltk/table_base.cxx:229-233 *)
  | Search => if filling s then UB else Ok (St (flag s) (threads s) (box s) (gen s) (filling s) (readers s) (marked s) (Some (gen s)) (job_gen s) (active s) (ended s))
  (* fltk/mainWindow.cxx:162-171: it waits until no job is running (the schedule's next Close is its next look at m_job_running) *)
  | Close => if flag s then Ok s else Ok (St (flag s) (threads s) (box s) (gen s) (filling s) (readers s) (marked s) (row_gen s) (job_gen s) (active s) true)
  end.

Fixpoint set_nth {A} (i : nat) (x : A) (l : list A) : list A :=
  match l, i with [], _ => [] | _ :: t, 0 => x :: t | y :: t, S j => y :: set_nth j x t end.

Definition step (root : bool) (m : move) (s : st) : res st :=
  match m with
  | User u => act root u s
  | Turn i =>
      if ended s then Ok s
      else match nth_error (threads s) i with
      | Some (Th j (c :: t)) => exec root c (set_threads (set_nth i (Th j t) (threads s)) s)
      | _ => Ok s
      end
  end.
Fixpoint run (root : bool) (l : list move) (s : st) : res st :=
  match l with [] => Ok s | m :: t => match step root m s with Ok s' => run root t s' | Throw => Throw | UB => UB end end.

(** the window once it is built: table_package's constructor starts the reading of the list (fltk/table_package.cxx:20) *)
Definition init : st := St false [Th RefreshJob refresh_program] false 0 false 0 false None None false false.
