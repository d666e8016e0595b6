(** Common vocabulary of the model: byte strings, ordered sets and maps of the C++ standard library.
    std::string            -> list ascii (byte string)
    std::set<std::string>  -> strictly increasing list, order of std::string::operator< (unsigned bytes)
    std::map<std::string,A>-> association list with strictly increasing keys
    Nothing here is specific to cards; these model the standard library the code calls. *)
From Coq Require Export List Arith NArith ZArith Ascii Bool Lia Permutation Sorted.
From Coq Require Export String.
Export ListNotations.
Open Scope nat_scope.
Open Scope list_scope.

Notation length := List.length (only parsing).
Notation concat := List.concat (only parsing).

Definition str := list ascii.

(** string literals *)
Definition L (s : string) : str := list_ascii_of_string s.

(** equality of characters and strings *)
Definition ceqb (a b : ascii) : bool := Ascii.eqb a b.

Fixpoint seqb (a b : str) : bool :=
  match a, b with
  | [], [] => true
  | x :: a', y :: b' => ceqb x y && seqb a' b'
  | _, _ => false
  end.

(** std::string::operator< : lexicographic on unsigned bytes (char_traits<char>::lt) *)
Definition cltb (a b : ascii) : bool := N.ltb (N_of_ascii a) (N_of_ascii b).

Fixpoint sltb (a b : str) : bool :=
  match a, b with
  | [], [] => false
  | [], _ :: _ => true
  | _ :: _, [] => false
  | x :: a', y :: b' => if cltb x y then true else if cltb y x then false else sltb a' b'
  end.

(** std::set<std::string> *)
Fixpoint sins (x : str) (s : list str) : list str :=
  match s with
  | [] => [x]
  | y :: t => if sltb x y then x :: s else if sltb y x then y :: sins x t else s
  end.

Fixpoint smem (x : str) (s : list str) : bool :=
  match s with [] => false | y :: t => seqb x y || smem x t end.

Definition set_of (l : list str) : list str := fold_left (fun s x => sins x s) l [].

Definition sdel (x : str) (s : list str) : list str := filter (fun y => negb (seqb x y)) s.

(** std::map<std::string, A> *)
Section Map.
  Context {A : Type}.
  Fixpoint mget (k : str) (m : list (str * A)) : option A :=
    match m with [] => None | (k', v) :: t => if seqb k k' then Some v else mget k t end.
  Fixpoint mset (k : str) (v : A) (m : list (str * A)) : list (str * A) :=
    match m with
    | [] => [(k, v)]
    | (k', v') :: t =>
        if sltb k k' then (k, v) :: m
        else if sltb k' k then (k', v') :: mset k v t else (k, v) :: t
    end.
  Definition mdel (k : str) (m : list (str * A)) : list (str * A) :=
    filter (fun p => negb (seqb k (fst p))) m.
  Definition keys (m : list (str * A)) : list str := map fst m.
End Map.

(** std::string::find(char) / rfind(char) / find(string) *)
Fixpoint cfind (c : ascii) (s : str) : option nat :=
  match s with
  | [] => None
  | x :: t => if ceqb x c then Some 0 else option_map S (cfind c t)
  end.

Fixpoint crfind (c : ascii) (s : str) : option nat :=
  match s with
  | [] => None
  | x :: t => match crfind c t with
              | Some n => Some (S n)
              | None => if ceqb x c then Some 0 else None
              end
  end.

Fixpoint prefixb (p s : str) : bool :=
  match p, s with
  | [], _ => true
  | x :: p', y :: s' => ceqb x y && prefixb p' s'
  | _ :: _, [] => false
  end.

Fixpoint sfind (p s : str) : option nat :=
  if prefixb p s then Some 0
  else match s with [] => None | _ :: t => option_map S (sfind p t) end.

Definition cmem (c : ascii) (s : str) : bool := existsb (ceqb c) s.

(** std::string::substr(pos, n): throws std::out_of_range (here: None) when pos > size() *)
Definition substr_at (pos n : nat) (s : str) : option str :=
  if pos <=? length s then Some (firstn n (skipn pos s)) else None.

(** the NUL-terminated C string at the start of a buffer (strlen/strcpy/operator<< semantics) *)
Fixpoint cstr (s : str) : str :=
  match s with
  | [] => []
  | x :: t => if ceqb x zero then [] else x :: cstr t
  end.

Definition nl : ascii := "010"%char.
Definition slash : ascii := "/"%char.
