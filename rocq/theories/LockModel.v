(** The database lock and concurrent processes: lock.cxx:6-45, and the places of the lock in pkgadd.cxx, pkgrm.cxx, pkginfo.cxx,
    upgrade.cxx and create.cxx.
    flock(2): a lock belongs to an open file description (each lock object opens the directory itself); LOCK_NB: a request that
    conflicts with a lock of another description fails at once; closing the description, also by the end of the process, releases.
    The lock object lives in a C++ scope: its destructor runs at the end of the scope and when an exception leaves the scope. When the
    constructor itself throws, the scope is never entered (and nothing was locked).
    Simplifications: opendir and flock fail only because of a conflicting lock; the actions between lock calls are atomic. *)
From Verif Require Import Base.

Section Lock.
  Variables (A Loc D : Type).                           (* actions, private memory of a process, shared disk *)
  Variable act : A -> Loc -> D -> option Loc * D.       (* None: the action throws *)

  (** source: statements, and blocks opening with a lock object *)
  Inductive stmt := Do (a : A) | Scope (excl : bool) (body : list stmt).
  (** what the process executes: lock::lock, lock::~lock, actions *)
  Inductive instr := Lock (excl : bool) | Unlock | Act (a : A).
  Fixpoint compile (s : stmt) : list instr :=
    match s with
    | Do a => [Act a]
    | Scope e body => Lock e :: (fix go l := match l with [] => [Unlock] | x :: t => compile x ++ go t end) body
    end.
  Definition compile_all (l : list stmt) : list instr := flat_map compile l.

  Inductive status := Running | Finished | Failed | Killed.
  Record proc := Proc { p_status : status; p_todo : list instr; p_held : list nat; p_loc : Loc }.
  (** the kernel's table: open file description, exclusive *)
  Record state := State { procs : nat -> proc; table : list (nat * bool); fresh : nat; data : D }.
  Definition upd (f : nat -> proc) (p : nat) (x : proc) : nat -> proc := fun q => if Nat.eqb q p then x else f q.
  (** flock(2) *)
  Definition compatible (excl : bool) (t : list (nat * bool)) : bool :=
    if excl then match t with [] => true | _ => false end else forallb (fun e => negb (snd e)) t.
  Definition release (hs : list nat) (t : list (nat * bool)) : list (nat * bool) := filter (fun e => negb (existsb (Nat.eqb (fst e)) hs)) t.
  (** leaving all scopes: exception, exit or kill *)
  Definition leave (why : status) (p : nat) (x : proc) (d : D) (s : state) : state :=
    State (upd (procs s) p (Proc why [] [] (p_loc x))) (release (p_held x) (table s)) (fresh s) d.
  (** one step of process [p]; with kill, it is killed instead *)
  Inductive choice := Run (p : nat) | Kill (p : nat).
  Definition step (c : choice) (s : state) : state :=
    match c with
    | Kill p => match p_status (procs s p) with Running => leave Killed p (procs s p) (data s) s | _ => s end
    | Run p =>
        let x := procs s p in
        match p_status x with
        | Running =>
            match p_todo x with
            | [] => State (upd (procs s) p (Proc Finished [] (p_held x) (p_loc x))) (table s) (fresh s) (data s)
            | Act a :: t =>
                match act a (p_loc x) (data s) with
                | (Some l, d) => State (upd (procs s) p (Proc Running t (p_held x) l)) (table s) (fresh s) d
                | (None, d) => leave Failed p x d s
                end
            | Lock e :: t =>
                if compatible e (table s)
                then State (upd (procs s) p (Proc Running t (fresh s :: p_held x) (p_loc x))) ((fresh s, e) :: table s) (S (fresh s)) (data s)
                else leave Failed p x (data s) s
            | Unlock :: t =>
                match p_held x with
                | h :: hs => State (upd (procs s) p (Proc Running t hs (p_loc x))) (release [h] (table s)) (fresh s) (data s)
                | [] => s
                end
            end
        | _ => s
        end
    end.
  Definition run (cs : list choice) (s : state) : state := fold_left (fun s c => step c s) cs s.
  (** all processes at their beginning *)
  Definition initial (prog : nat -> list stmt) (loc : nat -> Loc) (d : D) : state :=
    State (fun p => Proc Running (compile_all (prog p)) [] (loc p)) [] 0 d.
End Lock.
Arguments Do {A}. Arguments Scope {A}. Arguments Lock {A}. Arguments Unlock {A}. Arguments Act {A}.
Arguments compile {A}. Arguments compile_all {A}. Arguments Proc {A Loc}. Arguments p_status {A Loc}. Arguments p_todo {A Loc}. Arguments p_held {A Loc}. Arguments p_loc {A Loc}.
Arguments State {A Loc D}. Arguments procs {A Loc D}. Arguments table {A Loc D}. Arguments fresh {A Loc D}. Arguments data {A Loc D}.
Arguments step {A Loc D}. Arguments run {A Loc D}. Arguments initial {A Loc D}. Arguments leave {A Loc D}.
