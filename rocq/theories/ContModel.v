(** vector.cxx and string.cxx: the storage is modelled cell by cell; None in place of a result: an access outside the storage, or a
    read of a cell that was never written. Simplifications: malloc and realloc succeed; char* elements are represented by the text
    strdup copied; assignment through the non-constant operator[] and copying a whole vector are not modelled. *)
From Verif Require Import Base.
From Coq Require Import ZArith NArith Lia.

Definition w32 (n : N) : N := (n mod 2 ^ 32)%N.
Fixpoint write {A} (i : nat) (x : A) (l : list A) : option (list A) :=
  match l, i with
  | [], _ => None
  | _ :: t, 0 => Some (x :: t)
  | y :: t, S k => option_map (cons y) (write k x t)
  end.
(** vector.h:63-65 *)
Record vec := Vec { v_cells : list (option str); v_size : N; v_cap : N }.
(** vector.cxx:11-20 *)
Definition vec_new (cap : N) : vec := Vec (repeat None (N.to_nat cap)) 0 cap.
(** vector.cxx:34-43 *)
Definition vec_reserve (cap : N) (v : vec) : vec :=
  if (cap <=? v_cap v)%N then v else Vec (v_cells v ++ repeat None (N.to_nat cap - length (v_cells v))) (v_size v) cap.
(** vector.cxx:27-33 *)
Definition vec_push (s : str) (v : vec) : option vec :=
  let v1 := if (v_cap v =? v_size v)%N then vec_reserve (w32 (v_size v * 2)) v else v in
  option_map (fun c => Vec c (w32 (v_size v1 + 1)) (v_cap v1)) (write (N.to_nat (v_size v1)) (Some s) (v_cells v1)).
(** vector.cxx:55-60 *)
Definition vec_at (i : N) (v : vec) : option str := match nth_error (v_cells v) (N.to_nat i) with Some (Some s) => Some s | _ => None end.
(** vector.cxx:44-48: m_size - 1 is unsigned *)
Definition vec_value (i : N) (v : vec) : option str :=
  let last := w32 (v_size v + (2 ^ 32 - 1)) in
  if (last <? i)%N then vec_at last v else vec_at i v.
Inductive vop := Push (s : str) | Reserve (n : N).
Definition vec_step (v : option vec) (o : vop) : option vec :=
  match v with None => None | Some v => match o with Push s => vec_push s v | Reserve n => Some (vec_reserve n v) end end.
Definition vec_run (cap : N) (ops : list vop) : option vec := fold_left vec_step ops (Some (vec_new cap)).

(** string.h:9-13: a null m_value is None *)
Record cs := CS { z_mem : option (list (option ascii)); z_size : N; z_cap : N }.
(** string.cxx:66-70 *)
Definition cs_new : cs := CS None 0 0.
Definition cells (z : cs) : list (option ascii) := match z_mem z with Some m => m | None => [] end.
(** string.cxx:71-87: "if (m_capacity = 0)" assigns 0 and is never taken; the block has sizeof(char-star) = 8 bytes per character;
    realloc keeps the beginning of the old block *)
Definition cs_reserve (n : N) (z : cs) : cs :=
  if (n <=? 0)%N then CS (z_mem z) (z_size z) 0
  else let m := N.to_nat (8 * n) in CS (Some (firstn m (cells z) ++ repeat None (m - length (cells z)))) (z_size z) n.
Definition put_chars (s : str) (m : list (option ascii)) : option (list (option ascii)) :=
  if length s <=? length m then Some (map Some s ++ skipn (length s) m) else None.
(** string.cxx:55-65; the source block holds at least n characters *)
Definition cs_assign_n (s : str) (n : N) (z : cs) : option cs :=
  if (0 <? n)%N then
    let z1 := cs_reserve n z in
    match put_chars (firstn (N.to_nat n) s) (cells z1) with
    | Some m => option_map (fun m' => CS (Some m') n (z_cap z1)) (write (N.to_nat n) (Some zero) m)
    | None => None
    end
  else Some (cs_reserve 0 z).
(** string.cxx:41-54 *)
Definition cs_assign (s : str) (z : cs) : option cs := match cstr s with [] => Some (cs_reserve 0 z) | t => cs_assign_n t (w32 (N.of_nat (length t))) z end.
(** string.cxx:31-40: data(), c_str() *)
Definition cs_data (z : cs) : cs := match z_mem z with None => cs_reserve 1 z | Some _ => z end.
(** reading the C string at the returned pointer *)
Fixpoint read_text (m : list (option ascii)) : option str :=
  match m with
  | Some c :: t => if ceqb c zero then Some [] else option_map (cons c) (read_text t)
  | _ => None
  end.
Definition cs_text (z : cs) : option str := read_text (cells (cs_data z)).
Inductive zop := Assign (s : str) | AssignN (s : str) (n : N) | ReserveZ (n : N) | Data.
Definition cs_step (z : option cs) (o : zop) : option cs :=
  match z with None => None | Some z =>
    match o with
    | Assign s => cs_assign s z
    | AssignN s n => if (n <=? N.of_nat (length s))%N then cs_assign_n s n z else None
    | ReserveZ n => Some (cs_reserve n z)
    | Data => Some (cs_data z)
    end end.
Definition cs_run (ops : list zop) : option cs := fold_left cs_step ops (Some cs_new).
