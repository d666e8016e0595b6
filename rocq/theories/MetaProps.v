(** Properties C11 (stored file list), C17 (META fields) and C47 (which archives are accepted). *)
From Verif Require Import Base BaseProofs StrModel StrSpec StrProofs FsModel FsSpec FsProofs MetaModel MetaSpec MetaProofs DbModel DbLoad.

(** C11: the file list written for a package is read back as the same list when the database is next loaded *)
Theorem C11_files_round_trip junk d name info m0 f al m r :
  nondot name = true -> ssorted (r_files info) -> Forall (fun x => x <> [] /\ ~ In nl x) (r_files info) ->
  load junk (w_db (fst (add_files_refs name info (World f d, Mem m0 al junk)))) = Ok m ->
  mget name (m_pkgs m) = Some r -> r_files r = r_files info.
Proof.
  intros N S F E G. apply load_spec in E as [_ [P _]]. apply P in G as [_ [dir [G1 G2]]].
  cbn in G1. unfold put_file in G1. rewrite mget_mset, seqb_refl in G1. inversion G1; subst dir. clear G1.
  apply load_pkg_ok in G2 as [ls [c [r0 [_ [G3 [_ ->]]]]]]. rewrite mget_mset, seqb_refl in G3. inversion G3; subst c.
  cbn. unfold read_files. apply read_files_text; auto.
Qed.
(** the other packages read back as before *)
Theorem C11_others_unchanged junk d name info m0 f al m m' n :
  n <> name -> load junk d = Ok m ->
  load junk (w_db (fst (add_files_refs name info (World f d, Mem m0 al junk)))) = Ok m' ->
  mget n (m_pkgs m') = mget n (m_pkgs m).
Proof.
  intros N E E'. apply load_spec in E as [_ [P _]]. apply load_spec in E' as [_ [P' _]].
  assert (Q : forall r, mget n (m_pkgs m') = Some r <-> mget n (m_pkgs m) = Some r).
  { intro r. rewrite P, P'. cbn. unfold put_file. rewrite mget_mset.
    assert (seqb n name = false) as -> by (apply seqb_neq; auto). tauto. }
  clear - Q. destruct (mget n (m_pkgs m)) as [r|]; [apply Q; auto|].
  destruct (mget n (m_pkgs m')) as [r|]; auto. symmetry. apply Q. reflexivity.
Qed.
(** a name holding a newline is not read back: the hypothesis is needed *)
Theorem C11_newline_refuted : exists F, ssorted F /\ read_files (text_of F) <> F.
Proof. exists [L "a" ++ nl :: L "b"]. split; [repeat constructor|]. cbv. discriminate. Qed.
Example C11_witness : read_files (text_of [L "usr/"; L "usr/bin/"; L "usr/bin/x"]) = [L "usr/"; L "usr/bin/"; L "usr/bin/x"].
Proof. reflexivity. Qed.

(** C17: what loading yields for each META line *)
Theorem C17_fields i dir ls c :
  good_lines ls -> mget (L "META") dir = Some (text_of ls) -> mget (L "files") dir = Some c ->
  (forall v, In ("R"%char :: v) ls -> 10 <= length v) ->
  exists r, load_pkg i dir = Ok r /\
    field "V" ls (fun v => v) [] (r_version r) /\
    field "D" ls (fun v => v) [] (r_descr r) /\
    field "U" ls (fun v => v) [] (r_url r) /\
    field "C" ls (fun v => v) [] (r_contrib r) /\
    field "M" ls (fun v => v) [] (r_maint r) /\
    field "P" ls (fun v => v) [] (r_packager r) /\
    field "L" ls (fun v => v) [] (r_license r) /\
    field "a" ls (fun v => v) [] (r_arch r) /\
    field "c" ls (fun v => v) [] (r_coll r) /\
    field "g" ls (fun v => v) [] (r_group r) /\
    field "r" ls (fun v => Some (atoi_u16 v)) (Some 1%N) (r_release r) /\
    field "B" ls (fun v => Some (epoch v)) None (r_build r) /\
    field "S" ls (fun v => Some (atoi_u32 v)) None (r_space r) /\
    (forall a, In a (r_alias r) <-> In ("A"%char :: a) ls) /\
    (forall a, In a (r_sets r) <-> In ("s"%char :: a) ls) /\
    (forall a, In a (r_cats r) <-> In ("T"%char :: a) ls) /\
    (forall n e, In (n, e) (r_deps r) <-> exists dt, length dt = 10 /\ In ("R"%char :: n ++ dt) ls /\ e = epoch dt) /\
    (r_auto r = true <-> In (L "d1") ls).
Proof.
  intros G M F H. rewrite (load_pkg_meta i dir ls c G M F).
  assert (S : ssorted (set_of ls)) by apply set_of_sorted.
  assert (I : forall x, In x (set_of ls) <-> In x ls) by (intro; apply set_of_In).
  destruct (meta_lines_ok i start_rec (set_of ls)) as [r0 E].
  { intros s Is T. apply I in Is. apply has_tag_In in T as [v ->]. apply H in Is. cbn. lia. }
  rewrite E. cbn [rbind]. eexists. split; [reflexivity|].
  assert (X : forall c' A (read : str -> A) d x, field c' (set_of ls) read d x -> field c' ls read d x).
  { intros c' A read d x Y. destruct Y as [v Y1 Y2|Y]; [apply field_line | apply field_none].
    - apply I; auto. - intros w W. apply Y2, I, W. - intros w W. apply (Y w), I, W. }
  cbn [with_files r_version r_descr r_url r_contrib r_maint r_packager r_license r_arch r_coll r_group r_release r_build r_space r_alias r_sets r_cats r_deps r_auto].
  rewrite (meta_fold _ _ i (step_version i) _ _ _ E), (meta_fold _ _ i (step_descr i) _ _ _ E), (meta_fold _ _ i (step_url i) _ _ _ E),
    (meta_fold _ _ i (step_contrib i) _ _ _ E), (meta_fold _ _ i (step_maint i) _ _ _ E), (meta_fold _ _ i (step_packager i) _ _ _ E),
    (meta_fold _ _ i (step_license i) _ _ _ E), (meta_fold _ _ i (step_arch i) _ _ _ E), (meta_fold _ _ i (step_coll i) _ _ _ E),
    (meta_fold _ _ i (step_group i) _ _ _ E), (meta_fold _ _ i (step_release i) _ _ _ E), (meta_fold _ _ i (step_build i) _ _ _ E),
    (meta_fold _ _ i (step_space i) _ _ _ E), (meta_fold _ _ i (step_alias i) _ _ _ E), (meta_fold _ _ i (step_sets i) _ _ _ E),
    (meta_fold _ _ i (step_cats i) _ _ _ E), (meta_fold _ _ i (step_deps i) _ _ _ E), (meta_fold _ _ i (step_auto i) _ _ _ E).
  do 13 (split; [apply X, set_field_fold; auto|]).
  split; [intro a; rewrite ins_field_fold, I; cbn; tauto|].
  split; [intro a; rewrite ins_field_fold, I; cbn; tauto|].
  split; [intro a; rewrite ins_field_fold, I; cbn; tauto|].
  split; [|rewrite auto_fold, I; cbn; intuition discriminate].
  intros n e. rewrite deps_fold. cbn [start_rec with_auto with_release empty_rec r_deps]. split.
  - intros [[]|[s [I1 [I2 I3]]]]. apply I in I1. apply has_tag_In in I2 as [v ->].
    destruct (split_last10 v (H v I1)) as [n' [dt [-> Ld]]]. rewrite dep_of_line_spec in I3 by auto. inversion I3; subst. eauto.
  - intros [dt [Ld [I1 ->]]]. right. exists ("R"%char :: n ++ dt). split; [apply I; auto|]. split; [reflexivity|]. apply dep_of_line_spec; auto.
Qed.
(** the build date of a dependency line is the number written there *)
Theorem C17_build_dates dt : date dt -> epoch dt = Z.of_N (read_dec dt).
Proof. exact (epoch_date dt). Qed.
(** a dependency line too short to hold a date is never read out of range: the load is refused *)
Theorem C17_short_line_refused junk d n dir ls c :
  nondot n = true -> mget n d = Some dir -> good_lines ls -> mget (L "META") dir = Some (text_of ls) -> mget (L "files") dir = Some c ->
  (exists v, In ("R"%char :: v) ls /\ length v < 9) ->
  (forall k dr, nondot k = true -> mget k d = Some dr -> load_pkg k dr <> UB) ->
  load junk d = Throw.
Proof.
  intros N G GL M F [v [I Lv]] U. apply (load_throw junk d n dir); auto.
  rewrite (load_pkg_meta n dir ls c GL M F).
  rewrite meta_lines_short; [reflexivity|]. exists ("R"%char :: v). split; [apply set_of_In; auto|]. split; [reflexivity|]. cbn. lia.
Qed.
(** with exactly nine characters after the tag the line is accepted but the name swallows the date and the date is 0 *)
Theorem C17_nine_characters_refuted : exists s, length s = 10 /\ dep_of_line s = Ok (L "abc123456", 0%Z).
Proof. exists (L "Rabc123456"). split; reflexivity. Qed.
(** a release above 65535 is not recorded as written *)
Theorem C17_release_refuted : atoi_u16 (L "65537") = 1%N.
Proof. reflexivity. Qed.
Example C17_witness : exists r, load_pkg (L "foo.doc") [(L "META", text_of [L "Nfoo"; L "V1.2"; L "r3"; L "Rglibc1700000000"; L "gdoc"; L "d1"]); (L "files", [])] = Ok r /\
  r_version r = L "1.2" /\ r_release r = Some 3%N /\ r_deps r = [(L "glibc", 1700000000%Z)] /\ r_group r = L "doc" /\ r_base r = L "foo" /\ r_auto r = true.
Proof.
  erewrite (load_pkg_meta _ _ _ _); [| |reflexivity|reflexivity].
  - eexists. split; [vm_compute; reflexivity|]. cbn. split; [reflexivity|]. split; [reflexivity|]. split; [reflexivity|]. split; [reflexivity|]. split; reflexivity.
  - pose proof BUFSIZ_big as B. unfold good_lines.
    repeat (apply Forall_cons || apply Forall_nil);
    (split; [cbn; intuition discriminate | split; [cbn; intuition discriminate | cbn [List.length L list_ascii_of_string]; lia]]).
Qed.

(** C47 *)
Theorem C47_accepted junk machine root a name r : open_archive junk machine root a = Ok (name, r) ->
  exists meta mtree, member a (L ".META") = Some meta /\ member a (L ".MTREE") = Some mtree /\
    n_data meta <> [] /\ n_data mtree <> [] /\ name <> [] /\
    (exists ls, tokens (eq nl) (cstr (removelast (n_data meta))) ls /\ ls <> [] /\
        exists before after, ls = before ++ ("N"%char :: name) :: after /\ forall w, ~ In ("N"%char :: w) before) /\
    (exists fl, tokens (eq nl) (cstr (removelast (n_data mtree))) fl /\ fl <> [] /\
        forall f, In f (r_files r) <-> In f fl /\ (forall v, f <> "."%char :: v)).
Proof.
  unfold open_archive. intro E. apply rbind_ok in E as [mt [E1 E]]. apply rbind_ok in E as [me [E2 E]].
  assert (K : forall nm l, member_lines a (L nm) = Ok l -> l <> [] -> exists n, member a (L nm) = Some n /\ n_data n <> [] /\ l = split_char (cstr (removelast (n_data n))) nl).
  { intros nm l H N. unfold member_lines in H. destruct (member a (L nm)) as [n|]; [|inversion H; congruence].
    exists n. destruct (n_data n) eqn:D; [discriminate|]. inversion H. split; auto. split; [discriminate|reflexivity]. }
  destruct me as [|x me]; [discriminate|]. destruct mt as [|y mt]; [discriminate|].
  destruct (K _ _ E2) as [nm [M1 [M2 M3]]]; [discriminate|]. destruct (K _ _ E1) as [nt [T1 [T2 T3]]]; [discriminate|].
  destruct (first_tag "N" (x :: me)) as [nn|] eqn:FN; [|discriminate].
  match type of E with (if ?b then _ else _) = _ => destruct b; [discriminate|] end.
  apply rbind_ok in E as [rel [_ E]]. destruct nn as [|z nn]; [discriminate|].
  apply rbind_ok in E as [deps [_ E]]. assert (En : name = z :: nn) by (inversion E; reflexivity).
  assert (Er : r_files r = set_of (filter (fun f => negb (has_tag "." f)) (y :: mt))) by (inversion E; reflexivity).
  clear E. exists nm, nt. split; [exact M1|]. split; [exact T1|]. split; [exact M2|]. split; [exact T2|]. split; [rewrite En; discriminate|].
  split.
  - exists (x :: me). split; [rewrite M3; apply split_char_tokens|]. split; [discriminate|]. rewrite En.
    clear - FN. induction (x :: me) as [|s t IH]; [discriminate|]. cbn in FN. destruct s as [|c v].
    + destruct (IH FN) as [b [af [-> H]]]. exists ([] :: b), af. split; [reflexivity|]. intros w [W|W]; [discriminate|apply (H w W)].
    + destruct (ceqb c "N") eqn:C.
      * inversion FN; subst. apply ceqb_eq in C. subst. exists [], t. split; [reflexivity|]. intros w [].
      * destruct (IH FN) as [b [af [-> H]]]. exists ((c :: v) :: b), af. split; [reflexivity|].
        intros w [W|W]; [inversion W; subst; rewrite ceqb_refl in C; discriminate | apply (H w W)].
  - exists (y :: mt). split; [rewrite T3; apply split_char_tokens|]. split; [discriminate|]. intro f. rewrite Er, set_of_In, filter_In.
    split; intros [H1 H2]; split; auto.
    + intros v ->. discriminate.
    + apply negb_true_iff. destruct (has_tag "." f) eqn:T; auto. apply has_tag_In in T as [v ->]. exfalso. apply (H2 v). reflexivity.
Qed.
(** an archive whose META or MTREE member is missing is refused *)
Theorem C47_missing_refused junk machine root a :
  (member a (L ".META") = None /\ (forall n, member a (L ".MTREE") = Some n -> n_data n <> [])) \/
  (member a (L ".MTREE") = None /\ (forall n, member a (L ".META") = Some n -> n_data n <> [])) ->
  open_archive junk machine root a = Throw.
Proof.
  assert (K : forall nm, (forall n, member a (L nm) = Some n -> n_data n <> []) -> exists l, member_lines a (L nm) = Ok l).
  { intros nm H. unfold member_lines. destruct (member a (L nm)) as [n|]; [|eauto]. specialize (H n eq_refl). destruct (n_data n); [congruence|eauto]. }
  intros [[H1 H2]|[H1 H2]]; destruct (K _ H2) as [l Hl]; unfold open_archive; unfold member_lines at 1 2.
  - fold (member_lines a (L ".MTREE")). rewrite Hl, H1. reflexivity.
  - rewrite H1. cbn [rbind]. fold (member_lines a (L ".META")). rewrite Hl. cbn. destruct l; reflexivity.
Qed.
(** a member of size 0 makes the reader write before its buffer *)
Theorem C47_empty_member_refuted junk machine root : exists a, open_archive junk machine root a = UB.
Proof. exists [(L ".MTREE", Node KReg [] 420 0 0 0 0)]. reflexivity. Qed.
(** a member of any other size is read inside its buffer *)
Theorem C47_member_read_partial a name n : member a name = Some n -> n_data n <> [] -> exists ls, member_lines a name = Ok ls.
Proof. intros M N. unfold member_lines. rewrite M. destruct (n_data n); [congruence|eauto]. Qed.
Definition demo_archive : archive :=
  [(L ".META", Node KReg (text_of [L "Nfoo"; L "V1"; L "aany"]) 420 0 0 0 0);
   (L ".MTREE", Node KReg (text_of [L "usr/"; L "usr/x"; L ".META"]) 420 0 0 0 0);
   (L "usr/", Node KDir [] 493 0 0 0 0); (L "usr/x", Node KReg (L "hello") 420 0 0 0 0)].
Example C47_witness : exists r, open_archive false (L "x86_64") (L "/") demo_archive = Ok (L "foo", r) /\ r_files r = [L "usr/"; L "usr/x"].
Proof. eexists. split; reflexivity. Qed.

Print Assumptions C11_files_round_trip.
Print Assumptions C11_others_unchanged.
Print Assumptions C11_newline_refuted.
Print Assumptions C17_fields.
Print Assumptions C17_build_dates.
Print Assumptions C17_short_line_refused.
Print Assumptions C17_nine_characters_refuted.
Print Assumptions C17_release_refuted.
Print Assumptions C47_accepted.
Print Assumptions C47_missing_refused.
Print Assumptions C47_empty_member_refuted.
Print Assumptions C47_member_read_partial.
