(** C76: a concrete repository that meets the hypotheses, and two expectations that fail. *)
From Verif Require Import Base BaseProofs StrModel StrSpec StrProofs RulesModel RulesSpec RulesProofs FsModel FsSpec FsProofs MetaModel MetaSpec MetaProofs
  DbModel DbSpec DbLoad DbOps DbRun DbInv EngineFs DbFacts DbProps DbExamples RemoveProps AddRun AddProps RootProps GenDeps GenDepsProofs GenDepsProps HexModel HexProps IndexModel FetchModel FetchProps FetchExamples
  ManyRun ManyMeta RemoveCmd RemoveCmdProofs RemoveCmdExamples InstallModel InstallRun InstallProps InstallClosed.
From Coq Require Import ZArith Lia.
Import DbInv.

Definition of_archive (a : archive) : apkg := match read_arch a with Ok p => p | _ => APkg [] [] 0 0 [] [] end.
Definition t_arch (n : str) : apkg :=
  if seqb n (L "foo") then of_archive a_foo else if seqb n (L "bar") then of_archive a_bar else if seqb n (L "foo.fr") then of_archive a_fr else APkg n [] 0 0 [] [].
Lemma t_cert n e c sg : mget n t_repo = Some e -> decode (i_text "I" (e_rec e)) = Ok sg -> t_verify tt sg (t_sha c) = true ->
  (n = L "foo" /\ c = L "FOO") \/ (n = L "bar" /\ c = L "BAR") \/ (n = L "foo.fr" /\ c = L "FR").
Proof.
  intros He H5 H6. apply (proj1 (seqb_eq sg c)) in H6. subst sg. apply mget_In in He. cbn [t_repo In] in He.
  destruct He as [He|[He|[He|[]]]]; injection He as <- <-; vm_compute in H5; injection H5 as <-; auto.
Qed.
Lemma t_trusted files net : trusted t_url t_repo t_sha unit t_pem t_verify t_unpack t_arch (Fs files net).
Proof.
  constructor.
  - discriminate.
  - exact (proj1 (proj2 C28_hypotheses)).
  - intros n e pk k sg c He _ _ Hd Hv. destruct k. destruct (t_cert n e c sg He Hd Hv) as [[-> ->]|[[-> ->]|[-> ->]]]; (eexists; split; [vm_compute; reflexivity|vm_compute; reflexivity]).
  - intro n. unfold t_arch. destruct (seqb n (L "foo")) eqn:B1; [apply seqb_eq in B1; subst n; vm_compute; reflexivity|]. destruct (seqb n (L "bar")) eqn:B2; [apply seqb_eq in B2; subst n; vm_compute; reflexivity|].
    destruct (seqb n (L "foo.fr")) eqn:B3; [apply seqb_eq in B3; subst n; vm_compute; reflexivity|reflexivity].
  - intros n e He. apply mget_In in He. cbn [t_repo In] in He. destruct He as [He|[He|[He|[]]]]; injection He as <- <-; vm_compute; reflexivity.
  - intros n Hn v ->. apply Hn. reflexivity.
Qed.
(** packages written as [pkg] does are tidy *)
Lemma pkg_tidy lines files name info : open_archive false mach rt (pkg lines files) = Ok (name, info) -> nondot name = true -> forallb plainb (r_files info) = true ->
  forallb (fun e => match comps (fst e) with [] => false | [c] => negb (seqb c (L ".META")) | c :: _ :: _ => negb (smem c meta_names) end) files = true ->
  tidy_archive (pkg lines files) (reg (text_of lines)).
Proof.
  intros Eo Nd Pl Ck. rewrite forallb_forall in Ck. constructor.
  - eapply no_dot_open; eauto.
  - split; [left; reflexivity|]. split; [discriminate|]. intros x m J Hx. destruct J as [J|[J|J]]; [injection J as <- <-; auto|injection J as <- <-; discriminate Hx|]. specialize (Ck _ J). cbn [fst] in Ck. rewrite Hx in Ck. discriminate Ck.
  - intros x m J Hx. destruct J as [J|[J|J]]; [injection J as <- <-; discriminate Hx|injection J as <- <-; discriminate Hx|]. specialize (Ck _ J). cbn [fst] in Ck. rewrite Hx in Ck. discriminate Ck.
  - intros x Sx. apply open_name in Eo as [_ Sh]. apply Sh in Sx. rewrite forallb_forall in Pl. apply plainb_plain, Pl, Sx.
  - apply no_meta_check. rewrite forallb_forall. intros e [<-|[<-|J]]; [reflexivity|reflexivity|]. specialize (Ck _ J). destruct (comps (fst e)) as [|c [|c' t]]; [reflexivity|reflexivity|exact Ck].
Qed.
Definition linesb (ls : list str) : bool := forallb (fun l => negb (seqb l []) && negb (existsb (ceqb nl) l) && negb (existsb (ceqb zero) l) && (length l <? 100)) ls.
Lemma not_in_check c l : existsb (ceqb c) l = false -> ~ In c l.
Proof. intros H J. apply not_true_iff_false in H. apply H, existsb_exists. exists c. split; [exact J|apply ceqb_refl]. Qed.
Lemma pkg_well lines : lines <> [] -> linesb lines = true -> well_formed (reg (text_of lines)) lines.
Proof.
  intros Ne H. unfold linesb in H. rewrite forallb_forall in H. split; [reflexivity|]. split; [exact Ne|]. split; [unfold good_lines|]; apply Forall_forall; intros l J; specialize (H l J);
    apply andb_true_iff in H as [H H4]; apply andb_true_iff in H as [H H3]; apply andb_true_iff in H as [H1 H2].
  - split; [apply not_in_check, negb_true_iff, H2|]. split; [apply not_in_check, negb_true_iff, H3|]. apply Nat.ltb_lt in H4. pose proof BUFSIZ_big. lia.
  - apply seqb_neq, negb_true_iff, H1.
Qed.
Lemma t_tidy files net n a : certified t_repo t_sha unit t_pem t_verify t_unpack (Fs files net) n a ->
  exists nd ls, tidy_archive a nd /\ well_formed nd ls /\ read_arch a = Ok (t_arch n).
Proof.
  intros (e & c & pk & k & sg & He & _ & _ & Hd & Hv & Hu). destruct k. destruct (t_cert n e c sg He Hd Hv) as [[-> ->]|[[-> ->]|[-> ->]]]; vm_compute in Hu; injection Hu as <-.
  - exists (reg (text_of [L "Nfoo"; L "V1"; L "ax86_64"; L "r1"; L "B1700000000"; L "Rbar1700000000"])), [L "Nfoo"; L "V1"; L "ax86_64"; L "r1"; L "B1700000000"; L "Rbar1700000000"].
    split; [|split; [apply pkg_well; [discriminate|vm_compute; reflexivity]|vm_compute; reflexivity]]. change (tidy_archive a_foo (reg (text_of [L "Nfoo"; L "V1"; L "ax86_64"; L "r1"; L "B1700000000"; L "Rbar1700000000"]))).
    unfold a_foo. eapply pkg_tidy; vm_compute; reflexivity.
  - exists (reg (text_of [L "Nbar"; L "V1"; L "ax86_64"; L "r1"; L "B1700000000"])), [L "Nbar"; L "V1"; L "ax86_64"; L "r1"; L "B1700000000"].
    split; [|split; [apply pkg_well; [discriminate|vm_compute; reflexivity]|vm_compute; reflexivity]]. change (tidy_archive a_bar (reg (text_of [L "Nbar"; L "V1"; L "ax86_64"; L "r1"; L "B1700000000"]))).
    unfold a_bar. eapply pkg_tidy; vm_compute; reflexivity.
  - exists (reg (text_of [L "Nfoo.fr"; L "V1"; L "ax86_64"; L "r1"; L "B1700000000"])), [L "Nfoo.fr"; L "V1"; L "ax86_64"; L "r1"; L "B1700000000"].
    split; [|split; [apply pkg_well; [discriminate|vm_compute; reflexivity]|vm_compute; reflexivity]]. change (tidy_archive a_fr (reg (text_of [L "Nfoo.fr"; L "V1"; L "ax86_64"; L "r1"; L "B1700000000"]))).
    unfold a_fr. eapply pkg_tidy; vm_compute; reflexivity.
Qed.
Lemma empty_tidy : tidy_world w_empty.
Proof.
  constructor.
  - apply treeb_tree. vm_compute. reflexivity.
  - intros c q _ [r [Nr ->]]. reflexivity.
  - exact inv_empty.
  - intros n x [dir [c [G _]]]. discriminate G.
Qed.
(** without --root: the database worked on is the one of "/" *)
Definition t_install (force scripts : bool) (conf : option str) (requests : list request) (groups : list str) (s : fstate) (w : world) : option (option stop * world) :=
  cards_install false mach pfx quiet rt t_url t_repo t_sha unit t_pem t_verify t_unpack 0 20 (w_db w) force scripts conf requests groups s w.
Definition after {A} (x : option (A * world)) : world := match x with Some (_, w) => w | None => w_empty end.
(** 'cards install foo' on an empty system: its dependency bar (whose file in the depot is not the certified one) and its group package too *)
Definition w_inst : world := after (t_install false false None [Package (L "foo")] [L "fr"] t_start w_empty).
Example C76_case : t_install false false None [Package (L "foo")] [L "fr"] t_start w_empty = Some (None, w_inst) /\
  trusted t_url t_repo t_sha unit t_pem t_verify t_unpack t_arch t_start /\ tidy_world w_empty /\
  map fst (w_db w_inst) = [L "bar"; L "foo"; L "foo.fr"] /\ automatic (w_db w_inst) (L "bar") /\ ~ automatic (w_db w_inst) (L "foo") /\ closed (w_db w_inst).
Proof.
  assert (E : t_install false false None [Package (L "foo")] [L "fr"] t_start w_empty = Some (None, w_inst)) by (vm_compute; reflexivity).
  split; [exact E|]. split; [apply t_trusted|]. split; [exact empty_tidy|]. split; [vm_compute; reflexivity|].
  split; [apply has_meta; vm_compute; reflexivity|]. split; [apply has_no_meta; vm_compute; reflexivity|].
  refine (C76_closed false mach pfx quiet rt t_url t_repo t_sha unit t_pem t_verify t_unpack 0 t_arch 20 false false None [Package (L "foo")] [L "fr"] t_start w_empty w_inst
    (t_trusted _ _) empty_tidy eq_refl eq_refl eq_refl eq_refl (t_tidy _ _) _ E _).
  - intros m n k t El _ [r [G _]] _. vm_compute in El. injection El as <-. discriminate G.
  - intros n k [_ G]. exfalso. apply G. reflexivity.
Qed.
(** 'cards install foo bar', foo needing bar: bar, although asked for, is recorded as installed automatically, and
    'cards remove foo' then removes it *)
Definition w_both : world := after (t_install false false None [Package (L "foo"); Package (L "bar")] [] t_start w_empty).
Theorem C76_requested_automatic_refuted : t_install false false None [Package (L "foo"); Package (L "bar")] [] t_start w_empty = Some (None, w_both) /\
  automatic (w_db w_both) (L "bar") /\ ~ automatic (w_db w_empty) (L "bar") /\
  exists w', rmc true [] [L "foo"] w_both = (None, w') /\ ~ installed (w_db w') (L "bar").
Proof.
  split; [vm_compute; reflexivity|]. split; [apply has_meta; vm_compute; reflexivity|]. split; [apply has_no_meta; vm_compute; reflexivity|].
  eexists. split; [vm_compute; reflexivity|]. intros [_ H]. apply H. vm_compute. reflexivity.
Qed.
(** foo is installed and up to date but its dependency bar is not: 'cards install foo' succeeds and does not install bar *)
Definition w_alone : world := snd (ses (Add simple false None a_foo) w_empty).
Definition w_again : world := after (t_install false false None [Package (L "foo")] [] t_start w_alone).
Theorem C76_current_unexamined_refuted : inv (w_db w_alone) /\ t_install false false None [Package (L "foo")] [] t_start w_alone = Some (None, w_again) /\
  needs (w_db w_again) (L "foo") (L "bar") /\ ~ installed (w_db w_again) (L "bar").
Proof.
  split.
  - apply (C02_preserved false mach pfx quiet rt w_empty (Add simple false None a_foo)); [|exact inv_empty]. constructor; [no_dot|constructor].
  - split; [vm_compute; reflexivity|]. split; [|intros [_ H]; apply H; vm_compute; reflexivity].
    exists (L "Rbar1700000000"). split; [apply has_meta; vm_compute; reflexivity|]. left. exists (L "1700000000"). split; reflexivity.
Qed.
