(** What a command line means: the grammar of its words, stated without the parser. *)
From Verif Require Import Base ArgModel.

(** one word (or two, for a short option with a value) of the command line besides the command *)
Inductive item := IOpt (o : aopt) (v : str) | IArg (a : str).
Inductive word (t : atable) : list str -> item -> Prop :=
| w_arg a : (forall r, a <> dash :: r) -> word t [a] (IArg a)
| w_long o : In o (t_opts t) -> o_long o <> [] -> o_val o = false -> word t [dash :: dash :: o_long o] (IOpt o [])
| w_long_ignored o x : In o (t_opts t) -> o_long o <> [] -> o_val o = false -> word t [dash :: dash :: o_long o ++ "="%char :: x] (IOpt o [])
| w_long_value o v : In o (t_opts t) -> o_long o <> [] -> o_val o = true -> v <> [] -> word t [dash :: dash :: o_long o ++ "="%char :: v] (IOpt o v)
| w_short o c : In o (t_opts t) -> o_short o = Some c -> o_val o = false -> word t [[dash; c]] (IOpt o [])
| w_short_value o c v : In o (t_opts t) -> o_short o = Some c -> o_val o = true -> word t [[dash; c]; v] (IOpt o v).
Inductive words (t : atable) : list str -> list item -> Prop :=
| ws_nil : words t [] []
| ws_cons w i ws is : word t w i -> words t ws is -> words t (w ++ ws) (i :: is).
Definition args_of (l : list item) : list str := flat_map (fun i => match i with IArg a => [a] | IOpt _ _ => [] end) l.
(** the last value given to option id *)
Definition gives (id : nat) (l : list item) (v : str) : Prop := exists l1 o l2, l = l1 ++ IOpt o v :: l2 /\ o_id o = id /\ forall o' v', In (IOpt o' v') l2 -> o_id o' <> id.
Definition named (id : nat) (l : list item) : Prop := exists o v, In (IOpt o v) l /\ o_id o = id.
Definition count_rule (c : acmd) (n : nat) : Prop := match a_check c with NoCheck => True | Min => a_num c <= n | Eq => n = a_num c | Max => n <= a_num c end.
(** tables where a name denotes one thing *)
Record table_ok (t : atable) : Prop := TableOk {
  ok_cmds : NoDup (map a_name (t_cmds t));
  ok_long : forall o o', In o (t_opts t) -> In o' (t_opts t) -> o_long o = o_long o' -> o_long o <> [] -> o = o';
  ok_short : forall o o' c, In o (t_opts t) -> In o' (t_opts t) -> o_short o = Some c -> o_short o' = Some c -> o = o';
  ok_dash : forall o, In o (t_opts t) -> o_short o <> Some dash;
  ok_eq : forall o, In o (t_opts t) -> ~ In "="%char (o_long o);
  ok_name : forall c r, In c (t_cmds t) -> a_name c <> dash :: r }.
(** a command line: options, the command, the rest *)
Definition line_means (t : atable) (args : list str) (c : acmd) (items : list item) : Prop :=
  exists pre post i1 i2, args = pre ++ a_name c :: post /\ In c (t_cmds t) /\ (forall a, In a pre -> exists r, a = dash :: r) /\
    ~ In (L "-h") pre /\ ~ In (L "--help") pre /\ words t pre i1 /\ words t post i2 /\ items = i1 ++ i2.
Definition acceptable (t : atable) (c : acmd) (items : list item) : Prop :=
  ~ named (t_help t) items /\ (forall id, In id (a_mand c) -> named id items) /\ count_rule c (length (args_of items)).
(** no short option takes its value from the next argument *)
Definition no_short_values (t : atable) : Prop := forall o c, In o (t_opts t) -> o_short o = Some c -> o_val o = false.
