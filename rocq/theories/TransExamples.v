(** C95: concrete cases that meet the hypotheses. *)
From Verif Require Import Base BaseProofs StrModel StrSpec StrProofs RulesModel RulesSpec RulesProofs FsModel FsSpec FsProofs FsOps MetaModel MetaSpec MetaProofs
  DbModel DbSpec DbLoad DbOps DbRun DbInv EngineFs EngineWay DbFacts DbProps DbExamples RemoveProps AddRun AddProps UpgradeProps UpgradeExamples RootProps GenDeps GenDepsProofs GenDepsProps HexModel HexProps IndexModel FetchModel FetchProps FetchExamples
  ManyRun ManyMeta ManyFiles RemoveCmdProofs RemoveCmdExamples DiffModel DiffProps InstallModel InstallRun InstallProps InstallClosed InstallExamples UpCmdModel UpCmdProps UpCmdMore UpCmdExamples UpCmdFiles TransFiles.
From Coq Require Import ZArith Lia.
Import DbInv.

(** ** decision procedures for the hypotheses *)
Definition soundb (a : archive) : bool := tidyb a && norejb a.
Definition avoidsb (b : archive) (x : str) : bool :=
  forallb (fun e => negb (pfxb (comps x) (comps (fst e))) && (is_dir (snd e) || negb (belowb (comps (fst e)) (comps x)))) b && forallb (fun y => negb (peqb (comps y) (comps x))) (shipped b).
Lemma avoidsb_avoids b x nm r : open_archive false mach rt b = Ok (nm, r) -> avoidsb b x = true -> avoids b x.
Proof.
  intros Eo H. apply andb_true_iff in H as [A B]. rewrite forallb_forall in A, B. split.
  - intros y k J. specialize (A _ J). cbn [fst snd] in A. apply andb_true_iff in A as [A1 A2]. split.
    + intro P. apply pfxb_prefix in P. rewrite P in A1. discriminate A1.
    + intros K Bl. apply is_dir_false in K. apply belowb_below in Bl. rewrite K, Bl in A2. discriminate A2.
  - intros y Sy Ec. apply (ships_shipped b nm r y Eo) in Sy. specialize (B _ Sy). rewrite Ec, peqb_refl in B. discriminate B.
Qed.
Definition one_nameb (a : archive) (x : str) : bool := forallb (fun y => negb (peqb (comps y) (comps x)) || seqb y x) (shipped a).
Lemma one_nameb_spec a x nm r : open_archive false mach rt a = Ok (nm, r) -> one_nameb a x = true -> one_name a x.
Proof.
  intros Eo H y Sy Ec. apply (ships_shipped a nm r y Eo) in Sy. unfold one_nameb in H. rewrite forallb_forall in H. specialize (H _ Sy). rewrite Ec, peqb_refl in H. apply seqb_eq. exact H.
Qed.
Definition onceb (d : disk) (x : str) : bool :=
  forallb (fun e : str * dbdir => match mget (L "files") (snd e) with Some c => forallb (fun y => negb (peqb (comps y) (comps x)) || seqb y x) (getlines c) | None => true end) d.
Lemma onceb_once d x : onceb d x = true -> once d x.
Proof.
  intros H n y (dir & c & G & Gf & J & _) Ec. unfold onceb in H. rewrite forallb_forall in H. specialize (H (n, dir) (mget_In _ _ _ G)). cbn [snd] in H. rewrite Gf in H.
  rewrite forallb_forall in H. specialize (H y J). rewrite Ec, peqb_refl in H. apply seqb_eq. exact H.
Qed.
Definition fileb (x : str) : bool := nondot x && plainb x && negb (ends_slash x) && negb (pfxb (comps x) reject_comps) && negb (pfxb reject_comps (comps x)).
Lemma fileb_file x : fileb x = true -> file_name x.
Proof.
  intro H. unfold fileb in H. apply andb_true_iff in H as [H H5]. apply andb_true_iff in H as [H H4]. apply andb_true_iff in H as [H H3]. apply andb_true_iff in H as [H1 H2].
  split; [exact (proj1 (nondot_spec _) H1)|]. split; [apply plainb_plain, H2|]. split; [apply negb_true_iff, H3|]. split; intro P; apply pfxb_prefix in P; rewrite P in *; discriminate.
Qed.
Definition listsb (d : disk) (n x : str) : bool := match mget n d with Some dir => match mget (L "files") dir with Some c => smem x (getlines c) | None => false end | None => false end.
Lemma listsb_lists d n x : listsb d n x = true -> x <> [] -> lists d n x.
Proof.
  intros H Nx. unfold listsb in H. unfold lists. destruct (mget n d) as [dir|]; [|discriminate H]. destruct (mget (L "files") dir) as [c|] eqn:Gf; [|discriminate H]. exists dir, c.
  split; [reflexivity|]. split; [exact Gf|]. split; [apply smem_In, H|exact Nx].
Qed.

Lemma no_rules e x : ~ verdict pfx e [] x false.
Proof. intro V. assert (D : verdict pfx e [] x true) by (apply verdict_default; intros r []). pose proof (verdict_det _ _ _ _ _ _ V D) as Z. discriminate Z. Qed.

(** ** the upgrade of C77's example: foo's new file is there, and the file of mine, which no repository has, is what it was *)
Lemma u_which files net n a : certified u_repo t_sha unit t_pem t_verify u_unpack (Fs files net) n a -> (n = L "foo" /\ a = b_foo) \/ (n = L "bar" /\ a = b_bar) \/ (n = L "bar.fr" /\ a = b_fr).
Proof.
  intros (e & c & pk & k & sg & He & _ & _ & Hd & Hv & Hu). destruct k. destruct (u_cert n e c sg He Hd Hv) as [[-> ->]|[[-> ->]|[-> ->]]]; vm_compute in Hu; injection Hu as <-; auto.
Qed.
Lemma u_sound files net n a : certified u_repo t_sha unit t_pem t_verify u_unpack (Fs files net) n a -> sound a.
Proof.
  intro Ca. split; [destruct (u_tidy _ _ n a Ca) as (nd & ls & z & H1 & _); exists nd; exact H1|]. destruct (u_which _ _ n a Ca) as [[_ ->]|[[_ ->]|[_ ->]]];
    (split; [apply tidyb_tidy; vm_compute; reflexivity|apply norejb_spec; vm_compute; reflexivity]).
Qed.
Lemma u_avoids files net n x q b : forallb (fun p => seqb (fst p) n || avoidsb (snd p) x) [(L "foo", b_foo); (L "bar", b_bar); (L "bar.fr", b_fr)] = true ->
  q <> n -> certified u_repo t_sha unit t_pem t_verify u_unpack (Fs files net) q b -> avoids b x.
Proof.
  intros H Nq Cb. rewrite forallb_forall in H. destruct (u_which _ _ q b Cb) as [[-> ->]|[[-> ->]|[-> ->]]].
  - specialize (H (L "foo", b_foo) (or_introl eq_refl)). cbn [fst snd] in H. apply seqb_neq in Nq. rewrite Nq in H. eapply avoidsb_avoids; [opened|exact H].
  - specialize (H (L "bar", b_bar) (or_intror (or_introl eq_refl))). cbn [fst snd] in H. apply seqb_neq in Nq. rewrite Nq in H. eapply avoidsb_avoids; [opened|exact H].
  - specialize (H (L "bar.fr", b_fr) (or_intror (or_intror (or_introl eq_refl)))). cbn [fst snd] in H. apply seqb_neq in Nq. rewrite Nq in H. eapply avoidsb_avoids; [opened|exact H].
Qed.
Lemma up_foo_wanted m : load false (w_db w_up) = Ok m -> UpCmdProps.wanted u_repo u_junk 0 u_arch [] m (L "foo").
Proof.
  intro El. exists (L "foo"). split; [|constructor]. vm_compute in El. injection El as <-. split; [vm_compute; discriminate|]. split; [|left; vm_compute; discriminate].
  intros (r & b & G & (e & Ge & ->) & _ & H). vm_compute in G. injection G as <-. vm_compute in Ge. injection Ge as <-. vm_compute in H. apply H. reflexivity.
Qed.
Example C95_upgrade_case : u_upgrade [] u_start w_up = Some (None, w_upped) /\
  fget (w_fs w_up) (comps (L "usr/foo")) = Some (reg (L "f")) /\ fget (w_fs w_upped) (comps (L "usr/foo")) = Some (reg (L "foo")).
Proof.
  split; [exact u_run|]. split; [vm_compute; reflexivity|].
  destruct (C95_upgrade_content false mach pfx quiet rt t_url u_repo t_sha unit t_pem t_verify u_unpack u_junk 0 u_arch 20 false None [] u_start w_up w_upped (u_trusted _ _) up_tidy eq_refl eq_refl eq_refl eq_refl (u_sound _ _) u_run) as (m & El & H).
  destruct (H (L "foo") (up_foo_wanted m El)) as (a & Ca & An & X). clear H.
  assert (Ea : a = b_foo) by (destruct (u_which _ _ _ _ Ca) as [[_ ->]|[[Z _]|[Z _]]]; [reflexivity|discriminate Z|discriminate Z]). subst a.
  apply X.
  - vm_compute. tauto.
  - vm_compute. discriminate.
  - apply fileb_file. vm_compute. reflexivity.
  - apply listsb_lists; [vm_compute; reflexivity|discriminate].
  - apply onceb_once. vm_compute. reflexivity.
  - eapply one_nameb_spec; [opened|vm_compute; reflexivity].
  - intros k b _ Nk Cb. refine (u_avoids _ _ (L "foo") (L "usr/foo") k b _ Nk Cb). vm_compute. reflexivity.
  - intros rules _ Er V. vm_compute in Er. injection Er as <-. exact (no_rules _ _ V).
  - apply wayb_way. vm_compute. reflexivity.
  - intros [z [Z1 Z2]]. vm_compute in Z1. injection Z1 as <-. discriminate Z2.
Qed.
Lemma no_mine n t : ~ In (L "mine", t) (a_deps (u_arch n)).
Proof.
  unfold u_arch. destruct (seqb n (L "foo")); [|destruct (seqb n (L "bar")); [|destruct (seqb n (L "bar.fr"))]]; vm_compute; intro H; repeat (destruct H as [H|H]; [discriminate H|]); exact H.
Qed.
Example C95_untouched_case : ~ obsolete u_repo w_up (L "mine") /\ lists (w_db w_upped) (L "mine") (L "usr/mine") /\
  fget (w_fs w_up) (comps (L "usr/mine")) = Some (reg (L "m")) /\ fget (w_fs w_upped) (comps (L "usr/mine")) = Some (reg (L "m")).
Proof.
  assert (No : ~ obsolete u_repo w_up (L "mine")) by (intros (_ & A & _); revert A; apply has_no_meta; vm_compute; reflexivity).
  assert (Li : lists (w_db w_upped) (L "mine") (L "usr/mine")) by (apply listsb_lists; [vm_compute; reflexivity|discriminate]).
  assert (G : fget (w_fs w_up) (comps (L "usr/mine")) = Some (reg (L "m"))) by (vm_compute; reflexivity).
  split; [exact No|]. split; [exact Li|]. split; [exact G|].
  refine (C95_upgrade_untouched false mach pfx quiet rt t_url u_repo t_sha unit t_pem t_verify u_unpack u_junk 0 u_arch 20 false None [] u_start w_up w_upped (L "mine") (L "usr/mine") _ (u_trusted _ _) up_tidy eq_refl eq_refl eq_refl eq_refl (u_sound _ _) u_run _ No _ _ Li G _).
  - intros m El. split.
    + intros [r [(Gr & _) W]]. assert (N : forall n, wants (m_pkgs m) 0 u_arch r n -> n <> L "mine").
      { intros n Wn. induction Wn as [|n k Wn IH Mk]; [intros ->; apply Gr; vm_compute; reflexivity|]. destruct Mk as (t & J & _). intros ->. exact (no_mine n t J). }
      exact (N _ W eq_refl).
    + intros k b _ Cb. apply avoids_spares. destruct (u_which _ _ _ _ Cb) as [[_ ->]|[[_ ->]|[_ ->]]]; (eapply avoidsb_avoids; [opened|vm_compute; reflexivity]).
  - apply fileb_file. vm_compute. reflexivity.
  - apply onceb_once. vm_compute. reflexivity.
  - vm_compute. discriminate.
Qed.
(** ** the installation of C76's example, on an empty system *)
Lemma t_which files net n a : certified t_repo t_sha unit t_pem t_verify t_unpack (Fs files net) n a -> (n = L "foo" /\ a = a_foo) \/ (n = L "bar" /\ a = a_bar) \/ (n = L "foo.fr" /\ a = a_fr).
Proof.
  intros (e & c & pk & k & sg & He & _ & _ & Hd & Hv & Hu). destruct k. destruct (t_cert n e c sg He Hd Hv) as [[-> ->]|[[-> ->]|[-> ->]]]; vm_compute in Hu; injection Hu as <-; auto.
Qed.
Lemma t_sound files net n a : certified t_repo t_sha unit t_pem t_verify t_unpack (Fs files net) n a -> sound a.
Proof.
  intro Ca. split; [destruct (t_tidy _ _ n a Ca) as (nd & ls & H1 & _); exists nd; exact H1|]. destruct (t_which _ _ n a Ca) as [[_ ->]|[[_ ->]|[_ ->]]];
    (split; [apply tidyb_tidy; vm_compute; reflexivity|apply norejb_spec; vm_compute; reflexivity]).
Qed.
Example C95_install_case : t_install false false None [Package (L "foo")] [L "fr"] t_start w_empty = Some (None, w_inst) /\
  fget (w_fs w_inst) (comps (L "usr/bar")) = Some (reg (L "bar")).
Proof.
  assert (E : t_install false false None [Package (L "foo")] [L "fr"] t_start w_empty = Some (None, w_inst)) by (vm_compute; reflexivity). split; [exact E|].
  destruct (C95_install_content false mach pfx quiet rt t_url t_repo t_sha unit t_pem t_verify t_unpack 0 t_arch 20 (w_db w_empty) false false None [Package (L "foo")] [L "fr"] t_start w_empty w_inst
    (t_trusted _ _) empty_tidy eq_refl eq_refl eq_refl eq_refl (t_sound _ _) E) as (m & El & H).
  assert (Wb : InstallProps.wanted t_repo 0 t_arch [Package (L "foo")] [L "fr"] w_empty m (L "bar")).
  { vm_compute in El. injection El as <-. exists (L "foo"). split; [left; left; left; reflexivity|]. apply wants_dep with (L "foo"); [constructor|]. exists 1700000000%Z. split; [vm_compute; tauto|]. split; [discriminate|].
    split; [intros (_ & r & G & _); discriminate G|intros (r & G & _); discriminate G]. }
  destruct (H (L "bar") Wb) as (a & Ca & An & X). clear H.
  assert (Ea : a = a_bar) by (destruct (t_which _ _ _ _ Ca) as [[Z _]|[[_ ->]|[Z _]]]; [discriminate Z|reflexivity|discriminate Z]). subst a. apply X.
  - vm_compute. tauto.
  - vm_compute. discriminate.
  - apply fileb_file. vm_compute. reflexivity.
  - apply listsb_lists; [vm_compute; reflexivity|discriminate].
  - apply onceb_once. vm_compute. reflexivity.
  - eapply one_nameb_spec; [opened|vm_compute; reflexivity].
  - intros k b _ Nk Cb. destruct (t_which _ _ _ _ Cb) as [[_ ->]|[[-> _]|[_ ->]]]; [|congruence|]; (eapply avoidsb_avoids; [opened|vm_compute; reflexivity]).
  - intros rules _ Er V. vm_compute in Er. injection Er as <-. exact (no_rules _ _ V).
  - apply wayb_way. vm_compute. reflexivity.
  - intros [z [Z1 Z2]]. vm_compute in Z1. discriminate Z1.
Qed.
