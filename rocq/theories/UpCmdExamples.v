(** C77: a concrete repository and system that meet the hypotheses, and three expectations that fail. *)
From Verif Require Import Base BaseProofs StrModel StrSpec StrProofs RulesModel RulesSpec RulesProofs FsModel FsSpec FsProofs MetaModel MetaSpec MetaProofs
  DbModel DbSpec DbLoad DbOps DbRun DbInv EngineFs DbFacts DbProps DbExamples RemoveProps AddRun AddProps RootProps GenDeps GenDepsProofs GenDepsProps HexModel HexProps IndexModel FetchModel FetchProps FetchExamples
  ManyRun ManyMeta RemoveCmd RemoveCmdProofs RemoveCmdExamples DiffModel DiffProps InstallModel InstallRun InstallProps InstallClosed InstallExamples QueryProps UpCmdModel UpCmdProps UpCmdMore.
From Coq Require Import ZArith Lia.
Import DbInv.

(** the repository: foo, which now needs bar; bar; the group package bar.fr *)
Definition u_foo : list str := [L "Nfoo"; L "V2"; L "ax86_64"; L "r1"; L "B1700000000"; L "Rbar1700000000"].
Definition u_bar : list str := [L "Nbar"; L "V1"; L "ax86_64"; L "r1"; L "B1700000000"].
Definition u_fr : list str := [L "Nbar.fr"; L "V1"; L "ax86_64"; L "r1"; L "B1700000000"; L "gfr"].
Definition b_foo : archive := pkg u_foo [(L "usr/", dirn); (L "usr/foo", reg (L "foo"))].
Definition b_bar : archive := pkg u_bar [(L "usr/", dirn); (L "usr/bar", reg (L "bar"))].
Definition b_fr : archive := pkg u_fr [(L "usr/", dirn); (L "usr/bar.fr", reg (L "bar"))].
Definition u_unpack (c : str) : option archive := if seqb c (L "FOO") then Some b_foo else if seqb c (L "BAR") then Some b_bar else if seqb c (L "BFR") then Some b_fr else None.
Definition u_ent (n content : str) (ds : list dep) : str * ent :=
  (n, Ent (L "/depot/c") (IRec (n ++ L ".cards-zst") (put "B" (L "1700000000") (put "H" (hex content) (put "I" (hex content) (fun _ => None)))) [] no_many ds)).
Definition u_repo : list (str * ent) := [u_ent (L "foo") (L "FOO") [(L "bar", 1700000000%Z)]; u_ent (L "bar") (L "BAR") []; u_ent (L "bar.fr") (L "BFR") []].
Definition u_start : fstate := Fs [(L "/depot/c/.PKEY", L "key"); (L "/depot/c/bar.fr.cards-zst", L "BFR")] [Some (Some (L "FOO")); Some (Some (L "BAR"))].
Definition u_arch (n : str) : apkg :=
  if seqb n (L "foo") then of_archive b_foo else if seqb n (L "bar") then of_archive b_bar else if seqb n (L "bar.fr") then of_archive b_fr else APkg n [] 0 0 [] [].
Definition u_junk : DiffModel.junk := Junk (fun _ => 0%Z) (fun _ => 0%N) (fun _ => 0%Z) (fun _ => 0%N) (fun _ => 0%N).
Lemma u_cert n e c sg : mget n u_repo = Some e -> decode (i_text "I" (e_rec e)) = Ok sg -> t_verify tt sg (t_sha c) = true ->
  (n = L "foo" /\ c = L "FOO") \/ (n = L "bar" /\ c = L "BAR") \/ (n = L "bar.fr" /\ c = L "BFR").
Proof.
  intros He H5 H6. apply (proj1 (seqb_eq sg c)) in H6. subst sg. apply mget_In in He. cbn [u_repo In] in He.
  destruct He as [He|[He|[He|[]]]]; injection He as <- <-; vm_compute in H5; injection H5 as <-; auto.
Qed.
Lemma u_trusted files net : trusted t_url u_repo t_sha unit t_pem t_verify u_unpack u_arch (Fs files net).
Proof.
  constructor.
  - discriminate.
  - split; intros n m e f He Hf K; apply mget_In in He, Hf; cbn [u_repo In] in He, Hf; (destruct He as [He|[He|[He|[]]]]); inversion He; subst; (destruct Hf as [Hf|[Hf|[Hf|[]]]]); inversion Hf; subst; try reflexivity; discriminate K.
  - intros n e pk k sg c He _ _ Hd Hv. destruct k. destruct (u_cert n e c sg He Hd Hv) as [[-> ->]|[[-> ->]|[-> ->]]]; (eexists; split; [vm_compute; reflexivity|vm_compute; reflexivity]).
  - intro n. unfold u_arch. destruct (seqb n (L "foo")) eqn:B1; [apply seqb_eq in B1; subst n; vm_compute; reflexivity|]. destruct (seqb n (L "bar")) eqn:B2; [apply seqb_eq in B2; subst n; vm_compute; reflexivity|].
    destruct (seqb n (L "bar.fr")) eqn:B3; [apply seqb_eq in B3; subst n; vm_compute; reflexivity|reflexivity].
  - intros n e He. apply mget_In in He. cbn [u_repo In] in He. destruct He as [He|[He|[He|[]]]]; injection He as <- <-; vm_compute; reflexivity.
  - intros n Hn v ->. apply Hn. reflexivity.
Qed.
Lemma u_tidy files net n a : certified u_repo t_sha unit t_pem t_verify u_unpack (Fs files net) n a ->
  exists nd ls z, tidy_archive a nd /\ well_formed nd ls /\ read_arch a = Ok (u_arch n) /\ field "B" ls (fun v => Some (epoch v)) None (Some z) /\ z <> 0%Z /\ offered u_repo u_junk n z.
Proof.
  assert (Fb : forall ls, In ("B"%char :: L "1700000000") ls -> forallb (fun l => match l with c :: v => negb (ceqb c "B") || seqb v (L "1700000000") | [] => true end) ls = true ->
    field "B" ls (fun v => Some (epoch v)) None (Some 1700000000%Z)).
  { intros ls J H. change (Some 1700000000%Z) with ((fun v => Some (epoch v)) (L "1700000000")). apply field_line; [exact J|]. intros v K. rewrite forallb_forall in H. specialize (H _ K). cbn [ceqb] in H. left.
    apply seqb_eq. rewrite ceqb_refl in H. exact H. }
  intros (e & c & pk & k & sg & He & _ & _ & Hd & Hv & Hu). destruct k. destruct (u_cert n e c sg He Hd Hv) as [[-> ->]|[[-> ->]|[-> ->]]]; vm_compute in Hu; injection Hu as <-.
  - exists (reg (text_of u_foo)), u_foo, 1700000000%Z. split; [change (tidy_archive b_foo (reg (text_of u_foo))); unfold b_foo; eapply pkg_tidy; vm_compute; reflexivity|].
    split; [apply pkg_well; [discriminate|vm_compute; reflexivity]|]. split; [vm_compute; reflexivity|]. split; [apply Fb; [vm_compute; tauto|vm_compute; reflexivity]|]. split; [discriminate|]. eexists. split; [vm_compute; reflexivity|vm_compute; reflexivity].
  - exists (reg (text_of u_bar)), u_bar, 1700000000%Z. split; [change (tidy_archive b_bar (reg (text_of u_bar))); unfold b_bar; eapply pkg_tidy; vm_compute; reflexivity|].
    split; [apply pkg_well; [discriminate|vm_compute; reflexivity]|]. split; [vm_compute; reflexivity|]. split; [apply Fb; [vm_compute; tauto|vm_compute; reflexivity]|]. split; [discriminate|]. eexists. split; [vm_compute; reflexivity|vm_compute; reflexivity].
  - exists (reg (text_of u_fr)), u_fr, 1700000000%Z. split; [change (tidy_archive b_fr (reg (text_of u_fr))); unfold b_fr; eapply pkg_tidy; vm_compute; reflexivity|].
    split; [apply pkg_well; [discriminate|vm_compute; reflexivity]|]. split; [vm_compute; reflexivity|]. split; [apply Fb; [vm_compute; tauto|vm_compute; reflexivity]|]. split; [discriminate|]. eexists. split; [vm_compute; reflexivity|vm_compute; reflexivity].
Qed.
(** the system: an older foo; old, installed automatically and no longer in the repository; mine, of no repository, which needs old *)
Definition old_foo : list str := [L "Nfoo"; L "V1"; L "ax86_64"; L "r1"; L "B1600000000"].
Definition old_old : list str := [L "Nold"; L "V1"; L "ax86_64"; L "r1"; L "B1600000000"].
Definition old_mine : list str := [L "Nmine"; L "V1"; L "ax86_64"; L "r1"; L "B1600000000"; L "Rold1600000000"].
Definition c_foo : archive := pkg old_foo [(L "usr/", dirn); (L "usr/foo", reg (L "f"))].
Definition c_old : archive := pkg old_old [(L "usr/", dirn); (L "usr/old", reg (L "o"))].
Definition c_mine : archive := pkg old_mine [(L "usr/", dirn); (L "usr/mine", reg (L "m"))].
Definition before : list (bool * archive) := [(false, c_foo); (true, c_old); (false, c_mine)].
Definition w_up : world := match run_all false mach pfx quiet rt false false None before w_empty (Mem [] [] false) with Ret _ w _ => w | Stop _ w => w end.
Lemma up_tidy : tidy_world w_up.
Proof.
  assert (Ti : tidies before).
  { intros sd a [H|[H|[H|[]]]]; injection H as <- <-.
    - exists (reg (text_of old_foo)). unfold c_foo. eapply pkg_tidy; vm_compute; reflexivity.
    - exists (reg (text_of old_old)). unfold c_old. eapply pkg_tidy; vm_compute; reflexivity.
    - exists (reg (text_of old_mine)). unfold c_mine. eapply pkg_tidy; vm_compute; reflexivity. }
  destruct (run_all false mach pfx quiet rt false false None before w_empty (Mem [] [] false)) as [[] w m|e w] eqn:E.
  - assert (Ew : w = w_up) by (unfold w_up; rewrite E; reflexivity). rewrite <- Ew.
    refine (proj1 (run_keeps false mach pfx quiet rt eq_refl eq_refl false None before Ti w_empty (Mem [] [] false) w m empty_tidy _ E)). split; [constructor|]. intro n. reflexivity.
  - exfalso. assert (X : match run_all false mach pfx quiet rt false false None before w_empty (Mem [] [] false) with Ret _ _ _ => true | Stop _ _ => false end = true) by (vm_compute; reflexivity). rewrite E in X. discriminate X.
Qed.
Notation u_upgrade := (cards_upgrade false mach pfx quiet rt t_url u_repo t_sha unit t_pem t_verify u_unpack u_junk 0 20 false false None).
Definition w_upped : world := after (u_upgrade [] u_start w_up).
Lemma u_run : u_upgrade [] u_start w_up = Some (None, w_upped).
Proof. vm_compute. reflexivity. Qed.
Example C77_case : trusted t_url u_repo t_sha unit t_pem t_verify u_unpack u_arch u_start /\ tidy_world w_up /\ u_upgrade [] u_start w_up = Some (None, w_upped) /\
  map fst (w_db w_up) = [L "foo"; L "mine"; L "old"] /\ map fst (w_db w_upped) = [L "bar"; L "foo"; L "mine"] /\
  obsolete u_repo w_up (L "old") /\ fget (w_fs w_up) [L "usr"; L "old"] <> None /\ fget (w_fs w_upped) [L "usr"; L "old"] = None /\ meta_has (w_db w_upped) (L "foo") (L "V2").
Proof.
  split; [apply u_trusted|]. split; [exact up_tidy|]. split; [exact u_run|]. split; [vm_compute; reflexivity|]. split; [vm_compute; reflexivity|].
  split; [split; [apply is_installed; vm_compute; reflexivity|]; split; [apply has_meta; vm_compute; reflexivity|vm_compute; reflexivity]|].
  split; [vm_compute; discriminate|]. split; [vm_compute; reflexivity|]. apply has_meta. vm_compute. reflexivity.
Qed.
(** the second upgrade *)
Example C77_settled_case : exists w2, u_upgrade [] (Fs [] []) w_upped = Some (None, w2) /\ w_db w2 = w_db w_upped.
Proof.
  destruct (load false (w_db w_upped)) as [m'| |] eqn:El.
  - exists (World (cleanup_meta (w_fs w_upped) rt) (w_db w_upped)). split; [|reflexivity].
    refine (C77_settled false mach pfx quiet rt t_url u_repo t_sha unit t_pem t_verify u_unpack u_junk 0 u_arch 20 false None u_start w_up 20 None false (Fs [] []) w_upped m' (u_trusted _ _) up_tidy eq_refl eq_refl eq_refl eq_refl _ u_run El).
    intros n a Ca. destruct (u_tidy _ _ n a Ca) as (nd & ls & z & H1 & H2 & _ & H3). exists nd, ls, z. auto.
  - exfalso. assert (X : match load false (w_db w_upped) with Ok _ => true | _ => false end = true) by (vm_compute; reflexivity). rewrite El in X. discriminate X.
  - exfalso. assert (X : match load false (w_db w_upped) with Ok _ => true | _ => false end = true) by (vm_compute; reflexivity). rewrite El in X. discriminate X.
Qed.
(** bar comes in as a dependency of the new foo, but is recorded as if it had been asked for: 'cards remove foo' leaves it behind *)
Theorem C77_new_dependency_refuted : ~ installed (w_db w_up) (L "bar") /\ installed (w_db w_upped) (L "bar") /\ ~ automatic (w_db w_upped) (L "bar") /\
  exists w', rmc true [] [L "foo"] w_upped = (None, w') /\ ~ installed (w_db w') (L "foo") /\ installed (w_db w') (L "bar").
Proof.
  split; [intros [_ H]; apply H; vm_compute; reflexivity|]. split; [apply is_installed; vm_compute; reflexivity|]. split; [apply has_no_meta; vm_compute; reflexivity|].
  eexists. split; [vm_compute; reflexivity|]. split; [intros [_ H]; apply H; vm_compute; reflexivity|apply is_installed; vm_compute; reflexivity].
Qed.
Lemma listed_name (d : disk) n : mget n d <> None -> In n (map fst d).
Proof. intro H. destruct (mget n d) as [dir|] eqn:G; [|contradiction]. apply mget_In in G. apply (in_map fst) in G. exact G. Qed.
(** old is removed because no repository has it, although mine, installed by hand, needs it *)
Theorem C77_needed_removed_refuted : closed (w_db w_up) /\ installed (w_db w_upped) (L "mine") /\ ~ automatic (w_db w_upped) (L "mine") /\ needs (w_db w_upped) (L "mine") (L "old") /\ ~ installed (w_db w_upped) (L "old").
Proof.
  split.
  { intros n k [Hd Hi] [x [Hx Dl]]. assert (Jn : In n [L "foo"; L "mine"; L "old"]).
    { assert (Ek : [L "foo"; L "mine"; L "old"] = map fst (w_db w_up)) by (vm_compute; reflexivity). rewrite Ek. exact (listed_name (w_db w_up) n Hi). }
    assert (Ck : forall n, In n [L "foo"; L "mine"; L "old"] -> forallb (fun l => match l with c :: v => negb (ceqb c "R") || seqb v (L "old1600000000") | [] => true end) (disk_lines (w_db w_up) n) = true).
    { intros q [<-|[<-|[<-|[]]]]; vm_compute; reflexivity. }
    specialize (Ck n Jn). rewrite forallb_forall in Ck. apply disk_lines_In in Hx. specialize (Ck x Hx).
    assert (Ek : k = L "old").
    { destruct Dl as [[t [Lt ->]]|[Ln ->]]; cbn [negb] in Ck; rewrite ceqb_refl in Ck; cbn [negb orb] in Ck; apply seqb_eq in Ck.
      - change (L "old1600000000") with (L "old" ++ L "1600000000") in Ck. assert (Ll : length k = 3) by (apply (f_equal (@List.length ascii)) in Ck; rewrite !app_length, Lt in Ck; cbn in Ck; lia).
        apply (f_equal (firstn 3)) in Ck. rewrite firstn_app, Ll, Nat.sub_diag, firstn_all2 in Ck by lia. cbn [firstn] in Ck. rewrite app_nil_r in Ck. exact Ck.
      - subst k. cbn in Ln. lia. }
    subst k. apply is_installed. vm_compute. reflexivity. }
  split; [apply is_installed; vm_compute; reflexivity|]. split; [apply has_no_meta; vm_compute; reflexivity|].
  split; [apply needs_line with (t := L "1600000000"); [reflexivity|vm_compute; reflexivity]|]. intros [_ H]. apply H. vm_compute. reflexivity.
Qed.
(** with a group configured one upgrade is not enough: bar.fr, the group package of the new bar, only comes with the second *)
Definition w_fr1 : world := after (u_upgrade [L "fr"] u_start w_up).
Definition w_fr2 : world := after (u_upgrade [L "fr"] u_start w_fr1).
Theorem C77_group_later_refuted : u_upgrade [L "fr"] u_start w_up = Some (None, w_fr1) /\ u_upgrade [L "fr"] u_start w_fr1 = Some (None, w_fr2) /\
  ~ installed (w_db w_fr1) (L "bar.fr") /\ installed (w_db w_fr2) (L "bar.fr").
Proof.
  split; [vm_compute; reflexivity|]. split; [vm_compute; reflexivity|]. split; [intros [_ H]; apply H; vm_compute; reflexivity|apply is_installed; vm_compute; reflexivity].
Qed.
