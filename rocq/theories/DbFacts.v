(** Links between the specification vocabulary and the model of archives and loading. *)
From Verif Require Import Base BaseProofs StrModel StrSpec StrProofs RulesModel RulesSpec RulesProofs FsModel FsSpec FsProofs FsOps FsExtract
  MetaModel MetaSpec MetaProofs DbModel DbSpec DbLoad DbOps DbRun DbInv EngineFs EngineRoot.

Lemma member_entry a nm n : member a nm = Some n <-> entry a nm n.
Proof.
  split.
  - induction a as [|[x m] a IH]; [discriminate|]. cbn [member]. destruct (seqb x nm) eqn:E.
    + intro H. inversion H; subst m. apply seqb_eq in E. subst x. exists [], a. split; [reflexivity|]. intros m [].
    + intro H. destruct (IH H) as [b [c [-> N]]]. exists ((x, m) :: b), c. split; [reflexivity|].
      intros k [I|I]; [|apply (N k I)]. inversion I; subst. rewrite seqb_refl in E. discriminate.
  - intros [b [c [-> N]]]. induction b as [|[x m] b IH]; cbn [member app]; [rewrite seqb_refl; reflexivity|].
    destruct (seqb x nm) eqn:E; [exfalso; apply seqb_eq in E; subst x; apply (N m); left; reflexivity|].
    apply IH. intros k I. apply (N k). right. exact I.
Qed.
Lemma until_nul_cstr s t : until_nul s t <-> t = cstr s.
Proof.
  split.
  - intros [N [->|[r ->]]]; [symmetry; apply cstr_nozero, N|].
    induction t as [|c t IH]; [reflexivity|]. cbn. destruct (ceqb c zero) eqn:E.
    + exfalso. apply N. left. apply ceqb_eq in E. auto.
    + f_equal. apply IH. intro I. apply N. right. exact I.
  - intros ->. induction s as [|c s [N IH]]; [split; [intros []|left; reflexivity]|]. cbn. destruct (ceqb c zero) eqn:E.
    + apply ceqb_eq in E. subst c. split; [intros []|right; exists s; reflexivity].
    + split; [intros [->|I]; [rewrite ceqb_refl in E; discriminate|auto]|].
      destruct IH as [IH|[r IH]]; [left; congruence|right; exists r; cbn; congruence].
Qed.
Lemma member_lines_text a nm ls : ls <> [] -> (member_lines a nm = Ok ls <-> member_text a nm ls).
Proof.
  intro Ne. unfold member_lines, member_text. split.
  - destruct (member a nm) as [n|] eqn:E; [|intro H; inversion H; congruence].
    destruct (n_data n) as [|c t] eqn:D; [discriminate|]. intro H. inversion H; subst ls. exists n, (cstr (removelast (c :: t))).
    split; [apply member_entry, E|]. rewrite D. split; [discriminate|]. split; [apply until_nul_cstr; reflexivity|].
    apply split_char_tokens.
  - intros [n [t [E [D [U T]]]]]. apply member_entry in E. rewrite E. apply until_nul_cstr in U.
    destruct (n_data n) as [|c d] eqn:Dn; [congruence|]. rewrite <- U. f_equal. eapply tokens_det; [apply split_char_tokens|exact T].
Qed.
Lemma first_tag_split c ls v : first_tag c ls = Some v <-> exists before after, ls = before ++ (c :: v) :: after /\ forall w, ~ In (c :: w) before.
Proof.
  split.
  - induction ls as [|s ls IH]; [discriminate|]. cbn. destruct s as [|x s].
    + intro H. destruct (IH H) as [b [d [-> N]]]. exists ([] :: b), d. split; [reflexivity|].
      intros w [I|I]; [discriminate|exact (N w I)].
    + destruct (ceqb x c) eqn:E; intro H.
      * apply ceqb_eq in E. inversion H; subst. exists [], ls. split; [reflexivity|]. intros w [].
      * destruct (IH H) as [b [d [-> N]]]. exists ((x :: s) :: b), d. split; [reflexivity|].
        intros w [I|I]; [|exact (N w I)]. inversion I; subst. rewrite ceqb_refl in E. discriminate.
  - intros [b [d [-> N]]]. induction b as [|s b IH]; cbn; [rewrite ceqb_refl; reflexivity|].
    assert (IH' := IH ltac:(intros w I; apply (N w); right; exact I)).
    destruct s as [|x s]; auto. destruct (ceqb x c) eqn:E; auto. exfalso. apply ceqb_eq in E. subst. apply (N s). left. reflexivity.
Qed.
Lemma open_name junk machine root a name info : open_archive junk machine root a = Ok (name, info) ->
  archive_name a name /\ (forall x, In x (r_files info) <-> ships a x).
Proof.
  intro E. apply open_archive_parts in E as [meta [mtree [E1 [E2 [E3 [_ E5]]]]]].
  assert (N1 : meta <> []) by (intros ->; discriminate E3). apply member_lines_text in E1; auto.
  split.
  - apply first_tag_split in E3 as [b [c [E3 E4]]]. exists meta, b, c. auto.
  - intro x. rewrite E5, set_of_In, filter_In. split.
    + intros [I N]. assert (mtree <> []) by (intros ->; destruct I). exists mtree. split; [apply member_lines_text; auto|].
      split; auto. apply nondot_spec, N.
    + intros [ls [M [I N]]]. assert (Nl : ls <> []) by (intros ->; destruct I). apply member_lines_text in M; auto.
      rewrite E2 in M. inversion M; subst. split; auto. apply nondot_spec, N.
Qed.
Lemma archive_name_unique a n1 n2 : archive_name a n1 -> archive_name a n2 -> n1 = n2.
Proof.
  intros [l1 [b1 [c1 [M1 [E1 N1]]]]] [l2 [b2 [c2 [M2 [E2 N2]]]]].
  assert (A1 : first_tag "N" l1 = Some n1) by (apply first_tag_split; eauto).
  assert (A2 : first_tag "N" l2 = Some n2) by (apply first_tag_split; eauto).
  apply member_lines_text in M1; [|intros ->; discriminate A1]. apply member_lines_text in M2; [|intros ->; discriminate A2].
  rewrite M1 in M2. inversion M2; subst. congruence.
Qed.
Lemma no_dot_named junk machine root a : no_dot_name a -> named junk machine root a.
Proof. intros H name r E v ->. apply open_name in E as [E _]. exact (H v E). Qed.
Lemma op_no_dot junk machine root x : Forall no_dot_name (op_archives x) -> op_named junk machine root x.
Proof.
  destruct x as [o sd conf a|force scripts conf l obs|s conf name]; cbn; intro H; auto.
  - apply no_dot_named. inversion H; auto.
  - rewrite Forall_forall in *. intros p I. apply no_dot_named, H, in_map, I.
Qed.
Lemma ends_slash_iff x : ends_slash x = true <-> exists y, x = y ++ [slash].
Proof. apply ends_slash_spec. Qed.

(** loaded records: what the database on disk says *)
Lemma read_files_In c x : In x (read_files c) <-> In x (getlines c) /\ x <> [].
Proof.
  unfold read_files. rewrite set_of_In, filter_In. destruct x; cbn; split; intros [A B]; split; auto; congruence.
Qed.
Lemma load_lists junk (d : disk) m n r x : load junk d = Ok m -> mget n (m_pkgs m) = Some r -> (In x (r_files r) <-> lists d n x).
Proof.
  intros E G. apply load_spec in E as [_ [P _]]. apply P in G as [_ [dir [G L]]].
  apply load_pkg_ok in L as [ls [c [r0 [_ [F [_ ->]]]]]]. cbn [r_files with_files]. rewrite read_files_In. unfold lists.
  split; [intros [A B]; exists dir, c; auto|]. intros [dir' [c' [G' [F' [A B]]]]]. rewrite G in G'. inversion G'; subst.
  rewrite F in F'. inversion F'; subst. auto.
Qed.
Lemma load_record junk (d : disk) m n : load junk d = Ok m -> nondot n = true -> mget n d <> None -> exists r, mget n (m_pkgs m) = Some r.
Proof.
  intros E N G. destruct (mget n (m_pkgs m)) as [r|] eqn:H; [eauto|]. exfalso. revert H. eapply load_complete; eauto.
Qed.
