(** argument_parser.cxx: the command line. Arguments are C strings, so lists of characters without the zero character.
    Simplifications: registration (addCommand, addOption: argument_parser.cxx:31-114) is represented by the table it builds, where
    every option already has its number; the printed usage and error texts are not modelled, only which of them is chosen. *)
From Verif Require Import Base.

Definition dash : ascii := "-"%char.
(** argument_parser.h:43 *)
Inductive acheck := NoCheck | Min | Eq | Max.
(** argument_parser.h:136-147: the fields the parser uses *)
Record aopt := Aopt { o_id : nat; o_long : str; o_short : option ascii; o_val : bool }.
(** argument_parser.h:149-165: a_mand = numbers of the mandatory options *)
Record acmd := Acmd { a_name : str; a_check : acheck; a_num : nat; a_mand : list nat; a_opts : list nat }.
Record atable := Atable { t_cmds : list acmd; t_opts : list aopt; t_help : nat }.
(** m_commands.find, m_optionsByLongName.find (only non-empty names are entered: argument_parser.cxx:93-98), m_optionsByShortName.find *)
Definition find_cmd (t : atable) (s : str) : option acmd := find (fun c => seqb (a_name c) s) (t_cmds t).
Definition find_long (t : atable) (s : str) : option aopt := find (fun o => seqb (o_long o) s && negb (seqb s [])) (t_opts t).
Definition find_short (t : atable) (c : ascii) : option aopt := find (fun o => match o_short o with Some d => ceqb d c | None => false end) (t_opts t).

(** what the process does: prints the usage and exits 0; prints the help of a command and exits 0; prints an error and exits -1;
    goes on with the command, the options set (newest first) and the other arguments *)
Inductive aresult := Usage | HelpFor (c : acmd) | Bad | Go (c : acmd) (set : list (nat * str)) (others : list str).

Definition is_opt (a : str) : bool := match a with c :: _ => ceqb c dash | [] => false end.
(** argument_parser.cxx:126-150 *)
Inductive found := FUsage | FBad | FNone | FCmd (pos : nat) (c : acmd).
Fixpoint first_loop (t : atable) (i : nat) (args : list str) : found :=
  match args with
  | [] => FNone
  | a :: rest =>
    if is_opt a then if seqb a (L "-h") || seqb a (L "--help") then FUsage else first_loop t (S i) rest
    else match find_cmd t a with Some c => FCmd i c | None => FBad end
  end.
(** argument_parser.cxx:166-190: the long option after its two dashes *)
Definition split_eq (s : str) : str * option str :=
  match cfind "="%char s with Some n => (firstn n s, Some (skipn (S n) s)) | None => (s, None) end.
Definition long_opt (t : atable) (body : str) : option (nat * str) :=
  let (name, v) := split_eq body in
  match find_long t name with
  | None => None
  | Some o => if o_val o then match v with Some (x :: y) => Some (o_id o, x :: y) | _ => None end else Some (o_id o, [])
  end.
(** argument_parser.cxx:157-219: k = how far ahead the command is, None once it is passed *)
Definition ahead (k : option nat) : option nat := match k with Some (S n) => Some n | _ => None end.
Fixpoint second_loop (t : atable) (k : option nat) (args : list str) (set : list (nat * str)) (others : list str) {struct args} : option (list (nat * str) * list str) :=
  match args with
  | [] => Some (set, others)
  | a :: rest =>
    match k with
    | Some 0 => second_loop t None rest set others
    | _ =>
      match a with
      | c0 :: more =>
        if ceqb c0 dash then
          match more with
          | [] => None
          | c1 :: body =>
            if ceqb c1 dash then
              match long_opt t body with Some p => second_loop t (ahead k) rest (p :: set) others | None => None end
            else
              match body with
              | _ :: _ => None
              | [] =>
                match find_short t c1 with
                | None => None
                | Some o =>
                  if o_val o then
                    match rest with
                    | [] => None
                    | v :: rest' => second_loop t (ahead (ahead k)) rest' ((o_id o, v) :: set) others
                    end
                  else second_loop t (ahead k) rest ((o_id o, []) :: set) others
                end
              end
          end
        else second_loop t (ahead k) rest set (others ++ [a])
      | [] => second_loop t (ahead k) rest set (others ++ [a])
      end
    end
  end.
(** argument_parser.cxx:312-320, 326-329 *)
Definition opt_value (id : nat) (set : list (nat * str)) : option str := option_map snd (find (fun p => Nat.eqb (fst p) id) set).
Definition is_set (id : nat) (set : list (nat * str)) : bool := match opt_value id set with Some _ => true | None => false end.
(** argument_parser.cxx:243-281 *)
Definition count_ok (c : acmd) (n : nat) : bool :=
  match a_check c with Eq => n =? a_num c | Min => negb (n <? a_num c) | Max => negb (a_num c <? n) | NoCheck => true end.
(** argument_parser.cxx:117-282; args = argv without argv[0] *)
Definition parse (t : atable) (args : list str) : aresult :=
  match first_loop t 0 args with
  | FUsage => Usage
  | FBad | FNone => Bad
  | FCmd pos c =>
    match second_loop t (Some pos) args [] [] with
    | None => Bad
    | Some (set, others) =>
      if is_set (t_help t) set then HelpFor c
      else if forallb (fun id => is_set id set) (a_mand c) then (if count_ok c (length others) then Go c set others else Bad)
      else Bad
    end
  end.

(** cards_argument_parser.cxx:35-300: the table of the command cards; the numbers follow the order in which addOption sees the options *)
Definition cards_opts : list aopt :=
  [ Aopt 1 (L "help") (Some "h"%char) false; Aopt 2 (L "conf") None true; Aopt 3 (L "ready") None false; Aopt 4 (L "download-only") None false;
    Aopt 5 (L "no-sync") None false; Aopt 6 (L "no-progress") None false; Aopt 7 (L "size") (Some "s"%char) false; Aopt 8 (L "check") (Some "c"%char) false;
    Aopt 9 (L "proceed") (Some "p"%char) false; Aopt 10 (L "root") None true; Aopt 11 (L "binaries") (Some "b"%char) false; Aopt 12 (L "sets") (Some "S"%char) false;
    Aopt 13 (L "name") (Some "n"%char) false; Aopt 14 (L "disable") (Some "d"%char) false; Aopt 15 (L "upgrade") (Some "u"%char) false; Aopt 16 (L "force") (Some "f"%char) false;
    Aopt 17 (L "nolog") None false; Aopt 18 (L "dry") None false; Aopt 19 (L "no-meta") None false ].
Definition cards_cmds : list acmd :=
  [ Acmd (L "help") NoCheck 0 [] [1]; Acmd (L "config") NoCheck 0 [] [1; 2]; Acmd (L "files") Eq 1 [] [1; 11]; Acmd (L "sync") NoCheck 0 [] [1; 2; 6];
    Acmd (L "query") Eq 1 [] [1; 11]; Acmd (L "info") Eq 1 [] [1; 11; 12; 2]; Acmd (L "list") NoCheck 0 [] [1; 11; 12; 2]; Acmd (L "search") Eq 1 [] [1; 13];
    Acmd (L "install") Min 1 [] [1; 14; 15; 16; 10; 17; 2]; Acmd (L "remove") Min 1 [] [1; 10; 2; 16]; Acmd (L "upgrade") NoCheck 0 [] [1; 3; 4; 5; 6; 7; 8; 9; 10; 2];
    Acmd (L "purge") NoCheck 0 [] [1]; Acmd (L "diff") NoCheck 0 [] [1]; Acmd (L "level") NoCheck 0 [] [1]; Acmd (L "depends") Eq 1 [] [1]; Acmd (L "deptree") Eq 1 [] [1];
    Acmd (L "create") Eq 1 [] [1; 18; 19; 10]; Acmd (L "dependent") Eq 1 [] [1]; Acmd (L "keys") NoCheck 0 [] [1]; Acmd (L "repo") Min 0 [] [1; 2] ].
Definition cards_table : atable := Atable cards_cmds cards_opts 1.
