(** Independent specification of rule selection. *)
From Verif Require Import Base StrSpec RulesModel.

(** [r] is the last rule of [rs] for event [e] whose pattern matches [f]; all patterns compile *)
Definition last_match (re : str -> str -> option bool) (e : event) (rs : list rule) (f : str) (r : rule) : Prop :=
  exists before after, rs = before ++ r :: after /\ r_event r = e /\ re (r_pattern r) f = Some true /\
    (forall r', In r' after -> r_event r' = e -> re (r_pattern r') f = Some false).
Definition no_match (re : str -> str -> option bool) (e : event) (rs : list rule) (f : str) : Prop :=
  forall r, In r rs -> r_event r = e -> re (r_pattern r) f = Some false.

(** the verdict of the rules on a file: the action of the last matching rule, YES without one *)
Inductive verdict re e rs f : bool -> Prop :=
| verdict_rule r : last_match re e rs f r -> verdict re e rs f (r_action r)
| verdict_default : no_match re e rs f -> verdict re e rs f true.

Definition script_event (e : event) : Prop := e <> INSTALL /\ e <> UPGRADE.

(** the documented events *)
Definition event_table : list (str * event) :=
  [(L "UPGRADE", UPGRADE); (L "INSTALL", INSTALL); (L "LDCONF", LDCONF); (L "MIME_DB", MIME_DB); (L "INFO", INFO);
   (L "ICONS", ICONS); (L "FONTS", FONTS); (L "QUERY_PIXBUF", QUERY_PIXBUF); (L "GIO_QUERY", GIO_QUERY);
   (L "QUERY_IMOD3", QUERY_IMOD3); (L "QUERY_IMOD2", QUERY_IMOD2); (L "SCHEMAS", SCHEMAS); (L "DESKTOP_DB", DESKTOP_DB)].

(** an empty or comment line *)
Definition ignorable (l : str) : Prop := l = [] \/ exists t, l = "#"%char :: t.
(** a line with three blank-separated fields: a known event, a pattern, YES or NO *)
Definition rule_line (l : str) (r : rule) : Prop :=
  length l < 1024 /\
  exists ev act, tokens white l [ev; r_pattern r; act] /\ In (ev, r_event r) event_table /\
    ((act = L "YES" /\ r_action r = true) \/ (act = L "NO" /\ r_action r = false)).
(** the rules described by the lines of a file, in order *)
Inductive rules_text : list str -> list rule -> Prop :=
| rt_nil : rules_text [] []
| rt_skip l ls rs : ignorable l -> rules_text ls rs -> rules_text (l :: ls) rs
| rt_rule l ls r rs : ~ ignorable l -> rule_line l r -> rules_text ls rs -> rules_text (l :: ls) (r :: rs).

(** [r] is the last of the rules of all trigger events whose pattern matches [f] *)
Definition script_last_match (re : str -> str -> option bool) (rs : list rule) (f : str) (r : rule) : Prop :=
  exists before after, rs = before ++ r :: after /\ script_event (r_event r) /\ re (r_pattern r) f = Some true /\
    (forall r', In r' after -> script_event (r_event r') -> re (r_pattern r') f = Some false).
Definition script_no_match (re : str -> str -> option bool) (rs : list rule) (f : str) : Prop :=
  forall r, In r rs -> script_event (r_event r) -> re (r_pattern r) f = Some false.
(** event of the first trigger rule of the file, LDCONF when there is none *)
Definition first_script_event (rs : list rule) : event :=
  match filter (fun r => match r_event r with INSTALL | UPGRADE => false | _ => true end) rs with
  | r :: _ => r_event r | [] => LDCONF end.
