(** Properties C09, C10 and C50: the rules of pkgadd.conf. *)
From Verif Require Import Base BaseProofs StrModel StrSpec RulesModel RulesSpec RulesProofs.

(** C09: an installed file is one whose last matching INSTALL rule says YES (or that has none). *)
Theorem C09_install_rules (re : str -> str -> option bool) rs files ins non post :
  apply_install_rules re rs files = Some (ins, non, post) ->
  (forall f, In f ins <-> In f files /\ verdict re INSTALL rs f true) /\
  (forall f, In f non <-> In f files /\ verdict re INSTALL rs f false) /\
  (ssorted files -> ssorted ins /\ ssorted non).
Proof. exact (install_rules_spec re rs files ins non post). Qed.
(** the kept files of an upgrade are those whose last matching UPGRADE rule says NO *)
Theorem C09_keep_list (re : str -> str -> option bool) rs files k :
  get_keep_list re rs files = Some k ->
  (forall f, In f k <-> In f files /\ verdict re UPGRADE rs f false) /\ (ssorted files -> ssorted k).
Proof. exact (keep_list_spec re rs files k). Qed.
(** a verdict is unique, so the two lists partition the files *)
Theorem C09_verdict_unique (re : str -> str -> option bool) e rs f b1 b2 :
  verdict re e rs f b1 -> verdict re e rs f b2 -> b1 = b2.
Proof. exact (verdict_det re e rs f b1 b2). Qed.
(** and rule selection fails only because of a pattern that is no regular expression *)
Theorem C09_total (re : str -> str -> option bool) rs files :
  (forall r f, In r rs -> re (r_pattern r) f <> None) ->
  (exists x, apply_install_rules re rs files = Some x) /\ (exists k, get_keep_list re rs files = Some k).
Proof. intro H; split; [exact (install_rules_total re rs files H) | exact (keep_list_total re rs files H)]. Qed.
Theorem C09_partition (re : str -> str -> option bool) rs files ins non post :
  apply_install_rules re rs files = Some (ins, non, post) ->
  forall f, In f files <-> (In f ins /\ ~ In f non) \/ (In f non /\ ~ In f ins).
Proof. exact (install_rules_partition re rs files ins non post). Qed.

Definition prefix_re (p f : str) : option bool := Some (prefixb p f).
Example C09_witness :
  apply_install_rules prefix_re
    [Rule INSTALL (L "usr/") false; Rule INSTALL (L "usr/bin") true; Rule UPGRADE (L "etc") false; Rule INSTALL (L "usr/bin/x") false]
    [L "etc/a"; L "usr/bin/x"; L "usr/bin/y"; L "usr/share/z"]
  = Some ([L "etc/a"; L "usr/bin/y"], [L "usr/bin/x"; L "usr/share/z"], [([], LDCONF); ([], LDCONF)]).
Proof. reflexivity. Qed.
Example C09_keep_witness :
  get_keep_list prefix_re [Rule UPGRADE (L "etc") false; Rule UPGRADE (L "etc/init") true] [L "etc/a"; L "etc/init.d"; L "usr"]
  = Some [L "etc/a"].
Proof. reflexivity. Qed.

(** C10: a rules file is accepted with rules [rs] iff its lines describe exactly these rules. *)
Theorem C10_rules_file content rs :
  ~ In zero content -> (read_rules_file (Some content) = inl rs <-> rules_text (getlines content) rs).
Proof. exact (read_rules_file_spec content rs). Qed.
Theorem C10_unique content rs1 rs2 :
  ~ In zero content -> rules_text (getlines content) rs1 -> rules_text (getlines content) rs2 -> rs1 = rs2.
Proof. exact (rules_file_unique content rs1 rs2). Qed.
(** the lines are those of the text *)
Theorem C10_lines content :
  Forall (fun l => ~ In nl l) (getlines content) /\ join nl (getlines content) = content.
Proof. exact (proj2 (StrProofs.getlines_spec content)). Qed.
Theorem C10_no_file : read_rules_file None = inl [].
Proof. exact eq_refl. Qed.
Example C10_witness :
  read_rules_file (Some (L "# comment" ++ [nl] ++ L "UPGRADE  ^etc/.*$ NO" ++ [nl] ++ L "  INSTALL ^usr/doc YES")) =
  inl [Rule UPGRADE (L "^etc/.*$") false; Rule INSTALL (L "^usr/doc") true].
Proof. reflexivity. Qed.
Example C10_reject : read_rules_file (Some (L "UPGRADE ^etc/.*$ no")) = inr UnknownAction.
Proof. reflexivity. Qed.

(** C50 as stated is false. No rule mentions a trigger, yet one is scheduled. *)
Theorem C50_spurious_trigger_refuted :
  exists re rs files ins non post e x,
    apply_install_rules re rs files = Some (ins, non, post) /\ In (x, e) post /\ script_event e /\
    ~ exists f r, In f ins /\ In r rs /\ r_event r = e /\ re (r_pattern r) f = Some true.
Proof. exact post_install_spurious. Qed.
(** A trigger rule matches an installed file and yet nothing is scheduled for it, because a later rule of another event
    matches the same file. *)
Theorem C50_missed_trigger_refuted :
  exists re rs files ins non post f r,
    apply_install_rules re rs files = Some (ins, non, post) /\ In f ins /\ In r rs /\ script_event (r_event r) /\
    r_action r = true /\ re (r_pattern r) f = Some true /\ ~ exists x, In (x, r_event r) post.
Proof. exact post_install_missed. Qed.
(** A trigger is scheduled for a file that the rules do not install. *)
Theorem C50_uninstalled_file_refuted :
  exists re rs files ins non post f e,
    apply_install_rules re rs files = Some (ins, non, post) /\ In (f, e) post /\ ~ In f ins /\ In f non.
Proof. exact post_install_uninstalled. Qed.
(** What holds: a pair is scheduled iff the last matching rule among those of all trigger events says YES, or no
    such rule matches, the file is installed, and the event is that of the first trigger rule of the file. *)
Theorem C50_triggers_partial (re : str -> str -> option bool) rs files ins non post :
  apply_install_rules re rs files = Some (ins, non, post) ->
  forall x e, In (x, e) post <->
    exists f, In f files /\ x = (if event_eqb e LDCONF then [] else f) /\
      ((exists r, script_last_match re rs f r /\ r_event r = e /\ r_action r = true) \/
       (script_no_match re rs f /\ verdict re INSTALL rs f true /\ e = first_script_event rs)).
Proof. exact (post_install_spec re rs files ins non post). Qed.

(** for instance: a file a later NO rule takes back, one with its own rule, one with none, and one that is not installed *)
Example C50_case : apply_install_rules prefix_re
    [Rule ICONS (L "usr/share/") true; Rule FONTS (L "usr/share/fonts") true; Rule FONTS (L "usr/share/fonts/old") false; Rule INSTALL (L "etc") false]
    [L "etc/a"; L "usr/bin/y"; L "usr/share/a"; L "usr/share/fonts/b"; L "usr/share/fonts/old/c"]
  = Some ([L "usr/bin/y"; L "usr/share/a"; L "usr/share/fonts/b"; L "usr/share/fonts/old/c"], [L "etc/a"], [(L "usr/bin/y", ICONS); (L "usr/share/a", ICONS); (L "usr/share/fonts/b", FONTS)]).
Proof. reflexivity. Qed.

Print Assumptions C09_install_rules.
Print Assumptions C09_keep_list.
Print Assumptions C09_verdict_unique.
Print Assumptions C09_total.
Print Assumptions C09_partition.
Print Assumptions C10_rules_file.
Print Assumptions C10_unique.
Print Assumptions C10_lines.
Print Assumptions C10_no_file.
Print Assumptions C50_spurious_trigger_refuted.
Print Assumptions C50_missed_trigger_refuted.
Print Assumptions C50_uninstalled_file_refuted.
Print Assumptions C50_triggers_partial.
