(** Model of the pkgadd.conf rules: reading (pkgdbh.cxx:1333-1422), selection and application (pkgadd.cxx:184-332). *)
From Verif Require Import Base StrModel.

(** enum.h:121-135 rule_event_t *)
Inductive event := LDCONF | UPGRADE | INSTALL | INFO | ICONS | FONTS | SCHEMAS | DESKTOP_DB | MIME_DB
  | QUERY_PIXBUF | GIO_QUERY | QUERY_IMOD3 | QUERY_IMOD2.

Definition event_id (e : event) : nat :=
  match e with LDCONF => 0 | UPGRADE => 1 | INSTALL => 2 | INFO => 3 | ICONS => 4 | FONTS => 5 | SCHEMAS => 6
  | DESKTOP_DB => 7 | MIME_DB => 8 | QUERY_PIXBUF => 9 | GIO_QUERY => 10 | QUERY_IMOD3 => 11 | QUERY_IMOD2 => 12 end.
Definition event_eqb (a b : event) : bool := event_id a =? event_id b.

(** pkgdbh.h rule_t *)
Record rule := Rule { r_event : event; r_pattern : str; r_action : bool }.

(** pkgdbh.cxx:1359-1394 event names *)
Definition event_of_name (s : str) : option event :=
  if seqb s (L "UPGRADE") then Some UPGRADE else
  if seqb s (L "INSTALL") then Some INSTALL else
  if seqb s (L "LDCONF") then Some LDCONF else
  if seqb s (L "MIME_DB") then Some MIME_DB else
  if seqb s (L "INFO") then Some INFO else
  if seqb s (L "ICONS") then Some ICONS else
  if seqb s (L "FONTS") then Some FONTS else
  if seqb s (L "QUERY_PIXBUF") then Some QUERY_PIXBUF else
  if seqb s (L "GIO_QUERY") then Some GIO_QUERY else
  if seqb s (L "QUERY_IMOD3") then Some QUERY_IMOD3 else
  if seqb s (L "QUERY_IMOD2") then Some QUERY_IMOD2 else
  if seqb s (L "SCHEMAS") then Some SCHEMAS else
  if seqb s (L "DESKTOP_DB") then Some DESKTOP_DB else None.

Inductive rules_err := TooLong | BadArgCount | UnknownEvent | UnknownAction.

(** white space skipped by sscanf's %s *)
Definition blanks : str := ["009"; "010"; "011"; "012"; "013"; " "]%char.

(** pkgdbh.cxx:1355 sscanf(line, "%s %s %s %s"): the first (at most four) blank-separated words of the C string *)
Definition words (line : str) : list str :=
  match strtok_loop (S (length line)) blanks (cstr line) with Some ts => ts | None => [] end.

(** pkgdbh.cxx:1346-1412, one line: nothing, a rule, or an error (exception).
    PKGADD_CONF_MAXLINE = 1024 (define.h). The word buffers have the same size, so no overflow is possible. *)
Definition read_rule (line : str) : option (rule + rules_err) :=
  match line with
  | [] => None
  | c :: _ =>
    if ceqb c "#"%char then None
    else if 1024 <=? length line then Some (inr TooLong)
    else match words line with
         | [ev; pat; act] =>
             match event_of_name ev with
             | None => Some (inr UnknownEvent)
             | Some e => if seqb act (L "YES") then Some (inl (Rule e pat true))
                         else if seqb act (L "NO") then Some (inl (Rule e pat false))
                         else Some (inr UnknownAction)
             end
         | _ => Some (inr BadArgCount)
         end
  end.

(** pkgdbh.cxx:1342-1413: the loop over the lines; the first error throws *)
Fixpoint read_rules (lines : list str) : list rule + rules_err :=
  match lines with
  | [] => inl []
  | l :: ls => match read_rule l with
               | None => read_rules ls
               | Some (inr e) => inr e
               | Some (inl r) => match read_rules ls with inl rs => inl (r :: rs) | inr e => inr e end
               end
  end.
(** the whole file; None = no file (pkgdbh.cxx:1341: silently no rules) *)
Definition read_rules_file (content : option str) : list rule + rules_err :=
  match content with None => inl [] | Some c => read_rules (getlines c) end.

(** The regular expression engine (regcomp/regexec, pkgdbh.cxx:1520-1534) is an oracle:
    [re pattern file] = None when the pattern does not compile (an exception is thrown), Some b otherwise. *)
Section Apply.
  Variable re : str -> str -> option bool.

  Inductive decision := NoRule | Decided (r : rule) | BadPattern.

  (** the reverse_iterator loops: pkgadd.cxx:193-202, 225-232 (list given already reversed) *)
  Fixpoint first_match (rs : list rule) (f : str) : decision :=
    match rs with
    | [] => NoRule
    | r :: t => match re (r_pattern r) f with
                | None => BadPattern
                | Some true => Decided r
                | Some false => first_match t f
                end
    end.

  (** pkgadd.cxx:315-323 getInstallRulesList *)
  Definition rules_of_event (e : event) (rs : list rule) : list rule :=
    filter (fun r => event_eqb (r_event r) e) rs.
  (** pkgadd.cxx:324-332 getPostInstallRulesList *)
  Definition script_rules (rs : list rule) : list rule :=
    filter (fun r => negb (event_eqb (r_event r) INSTALL) && negb (event_eqb (r_event r) UPGRADE)) rs.

  (** pkgadd.cxx:184-206 getKeepFileList; None = exception (bad pattern) *)
  Fixpoint keep_loop (found_rev : list rule) (files : list str) : option (list str) :=
    match files with
    | [] => Some []
    | f :: fs => match first_match found_rev f with
                 | BadPattern => None
                 | NoRule => keep_loop found_rev fs
                 | Decided r => match keep_loop found_rev fs with
                                | None => None
                                | Some k => Some (if r_action r then k else f :: k)
                                end
                 end
    end.
  Definition get_keep_list (rs : list rule) (files : list str) : option (list str) :=
    keep_loop (rev (rules_of_event UPGRADE rs)) files.

  (** pkgadd.cxx:238-257: the post-install pair computed for one file.
      a starts as ("",0) (value-initialised pair; 0 = LDCONF); each visited script rule overwrites a.second, so when
      no rule matches a.second is the event of the LAST rule visited, i.e. the first script rule of the file. *)
  Fixpoint script_visit (rs : list rule) (f : str) (cur : event) (inst : bool) : option (event * bool) :=
    match rs with
    | [] => Some (cur, inst)
    | r :: t => match re (r_pattern r) f with
                | None => None
                | Some true => Some (r_event r, r_action r)
                | Some false => script_visit t f (r_event r) inst
                end
    end.

  (** pkgadd.cxx:222-258: loop over info.files: (install set, non-install set, post-install pairs) *)
  Fixpoint install_loop (files_rev scripts_rev : list rule) (files : list str)
    : option (list str * list str * list (str * event)) :=
    match files with
    | [] => Some ([], [], [])
    | f :: fs =>
        match (match first_match files_rev f with
               | BadPattern => None | NoRule => Some true | Decided r => Some (r_action r) end) with
        | None => None
        | Some inst =>
            match script_visit scripts_rev f LDCONF inst with
            | None => None
            | Some (ev, trig) =>
                match install_loop files_rev scripts_rev fs with
                | None => None
                | Some (ins, non, post) =>
                    Some (if inst then f :: ins else ins, if inst then non else f :: non,
                          if trig then ((if event_eqb ev LDCONF then [] else f), ev) :: post else post)
                end
            end
        end
    end.

  (** pkgadd.cxx:208-282 applyInstallRules. The sets are filled from the sorted set info.files, so the lists are
      already in set order; the post-install pairs go to the std::set m_postInstallList (order/duplicates irrelevant here). *)
  Definition apply_install_rules (rs : list rule) (files : list str) :=
    install_loop (rev (rules_of_event INSTALL rs)) (rev (script_rules rs)) files.
End Apply.
