(** Properties C36, C37, C38 and C39: file utilities. *)
From Verif Require Import Base BaseProofs StrModel StrSpec FsModel FsSpec FsProofs FsOps FsMisc.

(** C36: the cleaned path is the path with every run of slashes reduced to one slash *)
Theorem C36_trim_is_squeeze s : trim_file_name s = squeeze s.
Proof. exact (trim_squeeze s). Qed.
Theorem C36_no_double_slash s : ~ occurs [slash; slash] (trim_file_name s).
Proof. rewrite trim_squeeze. exact (squeeze_no_double s). Qed.
Theorem C36_only_slashes_removed s :
  filter (fun c => negb (Ascii.eqb c slash)) (trim_file_name s) = filter (fun c => negb (Ascii.eqb c slash)) s.
Proof. rewrite trim_squeeze. exact (squeeze_chars s). Qed.
Theorem C36_same_components s ts : tokens (eq slash) (trim_file_name s) ts -> tokens (eq slash) s ts.
Proof. rewrite trim_squeeze. exact (squeeze_tokens s ts). Qed.
Theorem C36_idempotent s : trim_file_name (trim_file_name s) = trim_file_name s.
Proof. rewrite !trim_squeeze. exact (squeeze_idem s). Qed.
Theorem C36_terminates s : trim_loop (S (length s)) s = Some (trim_file_name s).
Proof. rewrite trim_squeeze. exact (trim_loop_squeeze _ s (Nat.lt_succ_diag_r _)). Qed.
Example C36_witness : trim_file_name (L "//usr///lib/x//") = L "/usr/lib/x/".
Proof. reflexivity. Qed.

(** C37: newline-terminated lines that fit the buffer are read back whole and in order *)
Theorem C37_lines_partial lines :
  Forall (fun l => ~ In nl l /\ ~ In zero l /\ length l < BUFSIZ - 1) lines ->
  parse_lines (text_of lines) = Some lines.
Proof. exact (parse_text lines). Qed.
(** a line that does not fit is not read back *)
Theorem C37_long_line_refuted : exists lines,
  Forall (fun l => ~ In nl l /\ ~ In zero l) lines /\ parse_lines (text_of lines) <> Some lines.
Proof. exact long_line. Qed.
(** and an unterminated last line loses its last character *)
Theorem C37_unterminated_refuted l :
  l <> [] -> ~ In nl l -> ~ In zero l -> length l < BUFSIZ - 1 -> parse_lines l = Some [removelast l].
Proof. exact (unterminated_line l). Qed.
Example C37_witness : parse_lines (text_of [L "Nfoo"; []; L "V1.0"]) = Some [L "Nfoo"; []; L "V1.0"].
Proof.
  apply C37_lines_partial. pose proof BUFSIZ_big as B.
  repeat (apply Forall_cons || apply Forall_nil);
    (split; [cbn; intuition discriminate | split; [cbn; intuition discriminate | cbn [List.length L list_ascii_of_string]; lia]]).
Qed.

(** C38 *)
Theorem C38_regular f p1 p2 n1 n2 :
  lstat f p1 = Some n1 -> lstat f p2 = Some n2 -> n_kind n1 = KReg -> n_kind n2 = KReg ->
  (files_equal f p1 p2 = true <-> n_data n1 = n_data n2).
Proof. exact (files_equal_reg f p1 p2 n1 n2). Qed.
Theorem C38_links f p1 p2 n1 n2 :
  lstat f p1 = Some n1 -> lstat f p2 = Some n2 -> n_kind n1 = KLnk -> n_kind n2 = KLnk ->
  length (n_data n1) < MAXPATHLEN -> length (n_data n2) < MAXPATHLEN -> ~ In zero (n_data n1) -> ~ In zero (n_data n2) ->
  (files_equal f p1 p2 = true <-> n_data n1 = n_data n2).
Proof. exact (files_equal_lnk f p1 p2 n1 n2). Qed.
Theorem C38_permissions f p1 p2 : perms_equal f p1 p2 = true <->
  exists n1 n2, lstat f p1 = Some n1 /\ lstat f p2 = Some n2 /\
    n_kind n1 = n_kind n2 /\ n_perm n1 = n_perm n2 /\ n_uid n1 = n_uid n2 /\ n_gid n1 = n_gid n2.
Proof. exact (perms_equal_spec f p1 p2). Qed.
Theorem C38_different_kinds f p1 p2 n1 n2 :
  lstat f p1 = Some n1 -> lstat f p2 = Some n2 -> n_kind n1 <> n_kind n2 -> files_equal f p1 p2 = false.
Proof. exact (files_equal_mixed f p1 p2 n1 n2). Qed.
(** beyond the property: device files with different device numbers compare equal *)
Theorem C38_devices_refuted : exists f p1 p2 n1 n2, tree f /\ lstat f p1 = Some n1 /\ lstat f p2 = Some n2 /\
  n_kind n1 = KChr /\ n_kind n2 = KChr /\ n_rdev n1 <> n_rdev n2 /\ files_equal f p1 p2 = true.
Proof. exact devices_differ. Qed.
(** devices: equal exactly when both are of the same kind and lie on the same file system, whatever devices they are; directories, sockets
    and FIFOs are never equal, nor is anything to a missing file *)
Theorem C38_devices f p1 p2 n1 n2 :
  lstat f p1 = Some n1 -> lstat f p2 = Some n2 -> n_kind n1 = n_kind n2 -> n_kind n1 = KChr \/ n_kind n1 = KBlk ->
  (files_equal f p1 p2 = true <-> n_dev n1 = n_dev n2).
Proof.
  intros A B E K. unfold files_equal. rewrite A, B, <- E. destruct K as [K|K]; rewrite K; apply N.eqb_eq.
Qed.
Theorem C38_never f p1 p2 : (lstat f p1 = None \/ lstat f p2 = None \/ exists n, lstat f p1 = Some n /\ (n_kind n = KDir \/ n_kind n = KFifo \/ n_kind n = KSock)) -> files_equal f p1 p2 = false.
Proof.
  unfold files_equal. intros [H|[H|(n & H & K)]].
  - rewrite H. reflexivity.
  - rewrite H. destruct (lstat f p1); reflexivity.
  - rewrite H. destruct (lstat f p2); [|reflexivity]. destruct K as [K|[K|K]]; rewrite K; reflexivity.
Qed.
Print Assumptions C38_devices. Print Assumptions C38_never.
Example C38_witness : files_equal
  [([], root_dir); ([L "a"], Node KReg (L "x") 420 0 0 1 0); ([L "b"], Node KReg (L "x") 420 0 0 1 0); ([L "c"], Node KReg (L "xy") 420 0 0 1 0)]
  (L "/a") (L "/b") = true.
Proof. reflexivity. Qed.

(** C39: base written without trailing slash, the file given by its components below it *)
Theorem C39_prune base cs f :
  clean_base base -> cs <> [] -> Forall comp cs -> tree f ->
  let f' := removeFile f base (under base cs) in
  tree f' /\
  (** only the file and directories between the base and the file disappear, nothing else changes *)
  (forall q, fget f' q = fget f q \/
     (fget f' q = None /\ exists ds es, ds <> [] /\ cs = ds ++ es /\ q = comps base ++ ds)) /\
  (** a removable file is removed, and then every directory on the way is gone or not empty *)
  (forall n, fget f (comps base ++ cs) = Some n -> (n_kind n <> KDir \/ has_child f (comps base ++ cs) = false) ->
     fget f' (comps base ++ cs) = None /\
     forall ds es, ds <> [] -> es <> [] -> cs = ds ++ es -> fget f' (comps base ++ ds) = None \/ has_child f' (comps base ++ ds) = true).
Proof. exact (removeFile_under base cs f). Qed.
(** for any arguments: it terminates and only the file and directories above it can disappear *)
Theorem C39_any_arguments f base file : tree f ->
  remove_file (length file + 2) f base file = Some (removeFile f base file) /\
  tree (removeFile f base file) /\
  (forall q, fget (removeFile f base file) q = fget f q \/
     (fget (removeFile f base file) q = None /\ prefix_of q (comps file) /\ q <> [] /\ (q = comps file \/ dir_at f q))).
Proof.
  intro T. split; [|exact (removeFile_gen f base file T)].
  destruct (removeFile_total f base file T) as [g [E ->]]. exact E.
Qed.
(** with a base written with a trailing slash (as the package root always is) the base directory itself is deleted *)
Theorem C39_trailing_slash_refuted : exists f base file, tree f /\ ends_slash base = true /\ prefixb base file = true /\
  fget f (comps base) <> None /\ fget (removeFile f base file) (comps base) = None.
Proof. exact base_deleted. Qed.
Example C39_witness : fget (removeFile two_fs (L "/mnt") (L "/mnt/a")) [L "mnt"] = Some root_dir
  /\ fget (removeFile two_fs (L "/mnt") (L "/mnt/a")) [L "mnt"; L "a"] = None.
Proof. split; reflexivity. Qed.

Print Assumptions C36_trim_is_squeeze.
Print Assumptions C36_no_double_slash.
Print Assumptions C36_only_slashes_removed.
Print Assumptions C36_same_components.
Print Assumptions C36_idempotent.
Print Assumptions C36_terminates.
Print Assumptions C37_lines_partial.
Print Assumptions C37_long_line_refuted.
Print Assumptions C37_unterminated_refuted.
Print Assumptions C38_regular.
Print Assumptions C38_links.
Print Assumptions C38_permissions.
Print Assumptions C38_different_kinds.
Print Assumptions C38_devices_refuted.
Print Assumptions C39_prune.
Print Assumptions C39_any_arguments.
Print Assumptions C39_trailing_slash_refuted.
