(** Ports and their build levels: pkgfile.cxx:52-80, 181-232; depends.cxx:5-46.
    Simplifications: a port is identified by its name instead of its number (every readable recipe gets a fresh number,
    pkgfile.cxx:172-174; ports with unreadable recipes, l.107-112, are not modelled); the counters do not overflow. *)
From Verif Require Import Base StrModel Graph.
From Coq Require Import ZArith.

(** port.h: m_dependencies, m_indexes, m_decount, m_level, m_decrement *)
Record port := Port { q_deps : list str; q_idx : list str; q_count : Z; q_level : nat; q_dec : nat }.
Definition ports := list (str * port).
(** the ports after parse() has read the recipes: name and dependencies (std::set) *)
Definition fresh_port (deps : list str) : port := Port deps [] 0 0 0.
Definition read_ports (l : list (str * list str)) : ports := fold_left (fun m e => mset (fst e) (fresh_port (set_of (snd e))) m) l [].
(** pkgfile.cxx:52-80: the name of a dependency is cut at its last dot *)
Definition dep_port (s : str) : str := get_value_before_last s "."%char.
Definition known_deps (names : list str) (n : str) (deps : list str) : list str :=
  filter (fun d => smem d names && negb (seqb d n)) (map dep_port deps).
Definition confirm (s : ports) : ports :=
  map (fun e => let '(n, q) := e in
                let ks := known_deps (keys s) n (q_deps q) in
                (n, Port (q_deps q) ks (Z.of_nat (length ks)) (q_level q) (q_dec q))) s.
(** pkgfile.cxx:184-221: one port whose dependencies are all done *)
Definition occ (i : str) (l : list str) : nat := length (filter (seqb i) l).
Definition bump (i : str) (e : str * port) : str * port :=
  let '(n, q) := e in
  if seqb n i then e
  else if (0 <? q_count q)%Z then (n, Port (q_deps q) (q_idx q) (q_count q) (q_level q) (q_dec q + occ i (filter (fun k => negb (seqb k n)) (q_idx q))))
  else e.
Definition finish (lv : nat) (s : ports) (i : str) : ports :=
  match mget i s with
  | Some q => if (q_count q =? 0)%Z then map (bump i) (mset i (Port (q_deps q) (q_idx q) (-1) lv (q_dec q)) s) else s
  | None => s
  end.
(** pkgfile.cxx:222-227 *)
Definition settle (e : str * port) : str * port :=
  let '(n, q) := e in
  if 0 <? q_dec q then (n, Port (q_deps q) (q_idx q) (q_count q - Z.of_nat (q_dec q)) (q_level q) 0) else e.
Definition found (s : ports) : bool := existsb (fun e => (q_count (snd e) =? 0)%Z) s.
Definition round (lv : nat) (s : ports) : ports := map settle (fold_left (finish lv) (keys s) s).
(** pkgfile.cxx:181-232; None: still running. "found" is set iff some port has counter 0 at the start: a counter does not become
    0 inside the loop. *)
Fixpoint levels (fuel lv : nat) (s : ports) : option ports :=
  match fuel with
  | 0 => None
  | S f => if found s then levels f (S lv) (round lv s) else Some (round lv s)
  end.
(** parse(): pkgfile.cxx:81-180 *)
Definition tree (l : list (str * list str)) : option ports := levels (S (length (read_ports l))) 0 (confirm (read_ports l)).

(** depends.cxx:5-23: list() with the recipes' own names (not cut at the dot); m_tree[name] of an unknown name is an empty port.
    The test "n == name" (l.17) leaves only an empty inner loop; list() of a listed name returns at once. *)
Definition raw_deps (s : ports) (n : str) : list str := match mget n s with Some q => q_deps q | None => [] end.
Definition level_of (s : ports) (n : str) : nat := match mget n s with Some q => q_level q | None => 0 end.
Definition names_of (s : ports) : list str := keys s ++ flat_map (fun e => q_deps (snd e)) s.
Definition dep_list (s : ports) (n : str) : list str := dfs (raw_deps s) (S (S (length (names_of s)))) [] n.
(** depends.cxx:24-45: the printed lines *)
Definition print_deps (s : ports) (n : str) : list (nat * str) :=
  flat_map (fun k => map (fun i => (k, i)) (filter (fun i => level_of s i =? k) (dep_list s n))) (seq 0 (level_of s n)) ++ [(level_of s n, n)].
