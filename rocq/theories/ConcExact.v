(** C15: what protects an add from the others, for any number of processes and any schedule. *)
From Verif Require Import Base BaseProofs StrModel RulesModel RulesSpec RulesProofs RulesProps FsModel FsSpec FsProofs MetaModel MetaSpec MetaProofs DbModel DbSpec DbInv DbFacts DbLoad DbOps DbRun DbProps LockModel LockProps ConcModel DbExamples AddProps ConcProps UpgradeExamples.

Section Others.
  Variables (junk : bool) (machine : str) (re : str -> str -> option bool) (sh : str -> fs -> fs * bool) (root : str).
  Hypothesis Rs : ends_slash root = true.
  Notation act := (act junk machine re sh root).
  Notation exec := (run act).
  (** ** the processes do not touch each other's memory *)
  Definition of_proc (c : choice) : nat := match c with Run p | Kill p => p end.
  Lemma step_other c s p : of_proc c <> p -> procs (step act c s) p = procs s p.
  Proof.
    intro N. assert (U : forall f x, upd action local f (of_proc c) x p = f p) by (intros f x; apply upd_other; congruence). destruct c as [q|q]; cbn [of_proc] in *; cbn [LockModel.step].
    - destruct (p_status (procs s q)); try reflexivity. destruct (p_todo (procs s q)) as [|[e| |a] t]; cbn [procs]; try apply U.
      + destruct (compatible e (table s)); cbn [procs leave]; apply U.
      + destruct (p_held (procs s q)); cbn [procs]; [reflexivity|apply U].
      + destruct (act a (p_loc (procs s q)) (data s)) as [[l|] d]; cbn [procs leave]; apply U.
    - destruct (p_status (procs s q)); cbn [procs leave]; try reflexivity. apply U.
  Qed.
  (** ended processes stay as they are *)
  Lemma ended_stays cs : forall s p, p_status (procs s p) <> Running -> p_status (procs (exec cs s) p) = p_status (procs s p).
  Proof.
    induction cs as [|c cs IH]; intros s p E; [reflexivity|]. cbn [LockModel.run fold_left]. change (fold_left _ cs (step act c s)) with (exec cs (step act c s)).
    assert (X : p_status (procs (step act c s) p) = p_status (procs s p)).
    { destruct (Nat.eq_dec (of_proc c) p) as [Y|N]; [|rewrite (step_other c s p N); reflexivity].
      destruct c as [q|q]; cbn [of_proc] in Y; subst q; cbn [LockModel.step]; destruct (p_status (procs s p)) eqn:Q; try (rewrite Q; reflexivity); congruence. }
    rewrite IH; [exact X|rewrite X; exact E].
  Qed.
  (** a process whose next action throws, whatever the disk, never finishes *)
  Lemma doomed_fails p a t loc : (forall w, fst (act a loc w) = None) -> forall cs s, procs s p = Proc Running (Act a :: t) (p_held (procs s p)) loc \/ p_status (procs s p) = Failed \/ p_status (procs s p) = Killed ->
    p_status (procs (exec cs s) p) <> Finished.
  Proof.
    intros D cs. induction cs as [|c cs IH]; intros s [E|E].
    - cbn. rewrite E. discriminate.
    - cbn. destruct E as [E|E]; rewrite E; discriminate.
    - cbn [LockModel.run fold_left]. change (fold_left _ cs (step act c s)) with (exec cs (step act c s)). apply IH.
      destruct (Nat.eq_dec (of_proc c) p) as [Y|N].
      2:{ left. rewrite (step_other c s p N). exact E. }
      right. destruct c as [q|q]; cbn [of_proc] in Y; subst q; cbn [LockModel.step]; rewrite E; cbn [p_status p_todo p_loc].
      + specialize (D (data s)). destruct (act a loc (data s)) as [[l|] d]; [discriminate D|]. cbn [leave procs]. rewrite upd_same. left. reflexivity.
      + cbn [leave procs]. rewrite upd_same. right. reflexivity.
    - cbn [LockModel.run fold_left]. change (fold_left _ cs (step act c s)) with (exec cs (step act c s)). apply IH. right.
      destruct (Nat.eq_dec (of_proc c) p) as [Y|N].
      + destruct c as [q|q]; cbn [of_proc] in Y; subst q; cbn [LockModel.step]; destruct E as [E|E]; rewrite E; auto.
      + rewrite (step_other c s p N). exact E.
  Qed.

  (** the add of [j] would put the file [x], in conflict with a database that [holds] *)
  Definition would_install (j : job) (name x : str) : Prop :=
    archive_name (j_arch j) name /\ ships (j_arch j) x /\ ~ (exists y, x = y ++ [slash]) /\ o_force (j_opts j) = false /\
    forall rules, read_rules_file (j_conf j) = inl rules -> verdict re INSTALL rules x true.
  (** the check of an add that has read the database [d] *)
  Lemma check_throws j d m w name x : load junk d = Ok m -> would_install j name x -> ~ lists d name x ->
    (exists n, n <> name /\ (forall v, n <> "."%char :: v) /\ lists d n x) ->
    fst (act (ACheck j) (Loaded (set_dep (j_dep j) m)) w) = None.
  Proof.
    intros Lo (An & Sh & Sl & Fo & V) NL (n & Nn & Ins & Ln). cbn [ConcModel.act]. destruct (open_archive junk machine root (j_arch j)) as [[nm info]| |] eqn:Op; [|reflexivity|reflexivity].
    destruct (read_rules_file (j_conf j)) as [rules|] eqn:Ru; [|reflexivity]. specialize (V rules eq_refl).
    destruct (_ && _); [reflexivity|]. destruct (_ && _); [reflexivity|].
    destruct (apply_install_rules re rules (r_files info)) as [[[ins non] post]|] eqn:Ap; [|reflexivity].
    pose proof (open_name _ _ _ _ _ _ Op) as [An' Sh']. assert (nm = name) by (eapply archive_name_unique; eauto). subst nm.
    assert (Ix : forall f, In x (conflicts root name ins f (m_pkgs (set_dep (j_dep j) m)))).
    { intro f. rewrite set_dep_pkgs. apply conflicts_In. pose proof (install_rules_spec _ _ _ _ _ _ Ap) as [Ai _].
      rewrite <- ends_slash_iff, not_true_iff_false in Sl. apply Sh' in Sh. split; [apply Ai; auto|]. split; [exact Sl|]. split.
      - left. assert (Mn : mget n d <> None) by (destruct Ln as (dir & c & G & _); rewrite G; discriminate).
        pose proof (load_complete junk d m n Lo (proj2 (nondot_spec n) Ins) Mn) as P. destruct (mget n (m_pkgs m)) as [r|] eqn:G; [|congruence].
        exists n, r. split; [apply mget_In, G|]. split; [exact Nn|]. apply (load_lists junk d m n r x Lo G). exact Ln.
      - intros r G Ir. apply NL. apply (load_lists junk d m name r x Lo G). exact Ir. }
    destruct (if o_scripts (j_opts j) then pre_run sh root (j_arch j) w else inr w) as [w1|w1]; [reflexivity|]. cbv zeta. specialize (Ix (w_fs w1)).
    destruct (conflicts root name ins (w_fs w1) (m_pkgs (set_dep (j_dep j) m))); [destruct Ix|]. rewrite Fo. reflexivity.
  Qed.
  Lemma add_starts j : exists t, compile_all (add_prog j) = Act (ALoad j) :: Act (ACheck j) :: t.
  Proof. eexists. reflexivity. Qed.
  (** processes that have not been scheduled yet *)
  Definition idle (p : nat) (cs : list choice) : Prop := forall c, In c cs -> of_proc c <> p.
  Lemma idle_start p cs : idle p cs -> forall s, procs (exec cs s) p = procs s p.
  Proof.
    induction cs as [|c cs IH]; intros I s; [reflexivity|]. cbn [LockModel.run fold_left]. change (fold_left _ cs (step act c s)) with (exec cs (step act c s)).
    rewrite IH; [|intros d H; apply I; right; exact H]. apply step_other, I. left. reflexivity.
  Qed.
  (** ** when the add reads the database, another package records a file it would install: it fails, whatever the other processes
      (any number, any programs) do before and after *)
  Theorem C15_recorded (prog : nat -> list (stmt action)) w before after p j name x : prog p = add_prog j -> idle p before ->
    would_install j name x -> let s := exec before (initial prog (fun _ => Fresh) w) in let d := w_db (data s) in
    ~ lists d name x -> (exists n, n <> name /\ (forall v, n <> "."%char :: v) /\ lists d n x) ->
    p_status (procs (exec (before ++ Run p :: after) (initial prog (fun _ => Fresh) w)) p) <> Finished.
  Proof.
    intros Pr Id Wi s d NL Ex. unfold LockModel.run. rewrite fold_left_app. change (fold_left _ before _) with s. cbn [fold_left].
    change (fold_left _ after (step act (Run p) s)) with (exec after (step act (Run p) s)).
    destruct (add_starts j) as [t T].
    assert (Sp : procs s p = Proc Running (Act (ALoad j) :: Act (ACheck j) :: t) [] Fresh).
    { unfold s. rewrite (idle_start p before Id). cbn [initial procs]. rewrite Pr, T. reflexivity. }
    destruct (load junk d) as [m| |] eqn:Lo.
    - apply (doomed_fails p (ACheck j) t (Loaded (set_dep (j_dep j) m))); [intro w1; apply (check_throws j d m w1 name x Lo Wi NL Ex)|].
      left. cbn [LockModel.step]. rewrite Sp. cbn [p_status p_todo p_loc p_held ConcModel.act]. fold d. rewrite Lo. cbn [procs]. rewrite upd_same. reflexivity.
    - rewrite ended_stays; cbn [LockModel.step]; rewrite Sp; cbn [p_status p_todo p_loc p_held ConcModel.act]; fold d; rewrite Lo; cbn [procs leave]; rewrite upd_same; discriminate.
    - rewrite ended_stays; cbn [LockModel.step]; rewrite Sp; cbn [p_status p_todo p_loc p_held ConcModel.act]; fold d; rewrite Lo; cbn [procs leave]; rewrite upd_same; discriminate.
  Qed.
  (** ** when the add makes its check, a file it would install is on the disk and not its own package's: it fails *)
  Theorem C15_on_disk (prog : nat -> list (stmt action)) w before between after p j name x : prog p = add_prog j -> idle p before -> idle p between ->
    would_install j name x -> no_dot_name (j_arch j) -> o_scripts (j_opts j) = false -> let s := exec before (initial prog (fun _ => Fresh) w) in
    let s1 := exec (before ++ Run p :: between) (initial prog (fun _ => Fresh) w) in
    ~ lists (w_db (data s)) name x -> fget (w_fs (data s1)) (comps root ++ comps x) <> None ->
    p_status (procs (exec (before ++ Run p :: between ++ Run p :: after) (initial prog (fun _ => Fresh) w)) p) <> Finished.
  Proof.
    intros Pr I0 I1 Wi ND Sc s s1 NL Fx.
    assert (Eq : exec (before ++ Run p :: between ++ Run p :: after) (initial prog (fun _ => Fresh) w) = exec after (step act (Run p) s1)).
    { unfold s1, LockModel.run. rewrite !fold_left_app. cbn [fold_left]. rewrite fold_left_app. reflexivity. }
    rewrite Eq. clear Eq. destruct (add_starts j) as [t T].
    assert (Sp : procs s p = Proc Running (Act (ALoad j) :: Act (ACheck j) :: t) [] Fresh).
    { unfold s. rewrite (idle_start p before I0). cbn [initial procs]. rewrite Pr, T. reflexivity. }
    assert (S1 : procs s1 p = procs (step act (Run p) s) p).
    { unfold s1, LockModel.run. rewrite fold_left_app. cbn [fold_left]. change (fold_left _ before _) with s. apply (idle_start p between I1). }
    assert (St : p_status (procs (step act (Run p) s1) p) = Failed).
    { destruct (load junk (w_db (data s))) as [m| |] eqn:Lo.
      - assert (S2 : procs s1 p = Proc Running (Act (ACheck j) :: t) [] (Loaded (set_dep (j_dep j) m))).
        { rewrite S1. cbn [LockModel.step]. rewrite Sp. cbn [p_status p_todo p_loc p_held ConcModel.act]. rewrite Lo. cbn [procs]. rewrite upd_same. reflexivity. }
        destruct Wi as (An & Sh & Sl & Fo & V). cbn [LockModel.step]. rewrite S2. cbn [p_status p_todo p_loc p_held].
        assert (Ck : fst (act (ACheck j) (Loaded (set_dep (j_dep j) m)) (data s1)) = None).
        { destruct (read_rules_file (j_conf j)) as [rules|] eqn:Ru.
          - rewrite (C15_stale_database_partial junk machine re sh root Rs j (w_db (data s)) m (data s1) name rules x Lo ND An Ru Fo Sc Sh (V rules eq_refl) Sl NL Fx). reflexivity.
          - cbn [ConcModel.act]. destruct (open_archive junk machine root (j_arch j)) as [[nm info]| |]; [rewrite Ru; reflexivity|reflexivity|reflexivity]. }
        destruct (act (ACheck j) (Loaded (set_dep (j_dep j) m)) (data s1)) as [[l|] d1]; [discriminate Ck|]. cbn [leave procs]. rewrite upd_same. reflexivity.
      - assert (S2 : p_status (procs s1 p) = Failed) by (rewrite S1; cbn [LockModel.step]; rewrite Sp; cbn [p_status p_todo p_loc p_held ConcModel.act]; rewrite Lo; cbn [procs leave]; rewrite upd_same; reflexivity).
        cbn [LockModel.step]. rewrite S2. exact S2.
      - assert (S2 : p_status (procs s1 p) = Failed) by (rewrite S1; cbn [LockModel.step]; rewrite Sp; cbn [p_status p_todo p_loc p_held ConcModel.act]; rewrite Lo; cbn [procs leave]; rewrite upd_same; reflexivity).
        cbn [LockModel.step]. rewrite S2. exact S2. }
    rewrite ended_stays; rewrite St; discriminate.
  Qed.
  (** ** two adds that share a file: if the second begins when the first has finished, it fails *)
  Definition acts (l : list (instr action)) : list action := flat_map (fun i => match i with Act a => [a] | _ => [] end) l.
  Lemma solo r q : forall cs s, (forall c, In c cs -> c <> Run q /\ (of_proc c = 0 \/ of_proc c = q)) -> q <> 0 ->
    match p_status (procs s 0) with Running => alone junk machine re sh root (acts (p_todo (procs s 0))) (p_loc (procs s 0)) (data s) = r | Finished => exists l, r = (Some l, data s) | _ => True end ->
    let s' := exec cs s in
    match p_status (procs s' 0) with Running => alone junk machine re sh root (acts (p_todo (procs s' 0))) (p_loc (procs s' 0)) (data s') = r | Finished => exists l, r = (Some l, data s') | _ => True end.
  Proof.
    induction cs as [|c cs IH]; intros s Cs Q H; [exact H|]. cbv zeta. cbn [LockModel.run fold_left]. change (fold_left _ cs (step act c s)) with (exec cs (step act c s)).
    apply IH; [intros d Hd; apply Cs; right; exact Hd|exact Q|]. destruct (Cs c (or_introl eq_refl)) as [Nq O]. destruct c as [p|p]; cbn [of_proc] in O.
    - destruct O as [-> | ->]; [|congruence]. cbn [LockModel.step]. destruct (p_status (procs s 0)) eqn:St; try (rewrite St; exact H).
      destruct (p_todo (procs s 0)) as [|[e| |a] t] eqn:T.
      + cbn [procs data]. rewrite upd_same. cbn [p_status]. exists (p_loc (procs s 0)). symmetry. exact H.
      + destruct (compatible e (table s)); cbn [procs data leave]; rewrite upd_same; cbn [p_status p_todo p_loc]; [exact H|exact Logic.I].
      + destruct (p_held (procs s 0)) as [|h hs]; [rewrite St, T; exact H|]. cbn [procs data]. rewrite upd_same. cbn [p_status p_todo p_loc]. exact H.
      + cbn [acts flat_map app alone] in H. destruct (act a (p_loc (procs s 0)) (data s)) as [[l|] d]; cbn [procs data leave]; rewrite upd_same; cbn [p_status p_todo p_loc]; [exact H|exact Logic.I].
    - cbn [LockModel.step]. destruct (p_status (procs s p)) eqn:St; [|exact H|exact H|exact H]. cbn [leave procs data]. destruct O as [-> | ->].
      + rewrite upd_same. exact Logic.I.
      + rewrite upd_other by congruence. exact H.
  Qed.
  (** the first step of process 1 in a schedule *)
  Lemma first_of cs : (forall c, In c cs -> of_proc c = 0 \/ of_proc c = 1) -> (forall c, In c cs -> of_proc c = 0) \/
    exists a c b, cs = a ++ c :: b /\ of_proc c = 1 /\ forall d, In d a -> of_proc d = 0.
  Proof.
    induction cs as [|c cs IH]; intro H; [left; intros c []|]. destruct (H c (or_introl eq_refl)) as [O|O].
    - destruct IH as [A|(a & d & b & -> & Od & Z)]; [intros d Hd; apply H; right; exact Hd| |].
      + left. intros d [<-|Hd]; [exact O|apply A, Hd].
      + right. exists (c :: a), d, b. split; [reflexivity|]. split; [exact Od|]. intros e [<-|He]; [exact O|apply Z, He].
    - right. exists [], c, cs. split; [reflexivity|]. split; [exact O|]. intros d [].
  Qed.
  Lemma acts_actions j : acts (compile_all (add_prog j)) = flat_map actions (add_prog j).
  Proof. unfold add_prog. destruct (o_force (j_opts j)), (o_upgrade (j_opts j)); reflexivity. Qed.
  Theorem C15_one_after_the_other w before after ja jb na nb x : would_install ja na x -> would_install jb nb x -> na <> nb -> (forall v, na <> "."%char :: v) ->
    ~ lists (w_db w) nb x -> (forall c, In c before -> of_proc c = 0) -> (forall c, In c after -> of_proc c = 0 \/ of_proc c = 1) ->
    let start := initial (two (add_prog ja) (add_prog jb)) (fun _ => Fresh) w in
    p_status (procs (exec before start) 0) = Finished -> p_status (procs (exec (before ++ after) start) 1) <> Finished.
  Proof.
    intros Wa Wb Nab Nd NL Hb Ha start Fin.
    assert (Sol : forall cs, (forall c, In c cs -> of_proc c = 0) -> p_status (procs (exec cs start) 0) = Finished -> lists (w_db (data (exec cs start))) na x /\ ~ lists (w_db (data (exec cs start))) nb x).
    { intros cs Hc F. pose proof (solo (alone junk machine re sh root (flat_map actions (add_prog ja)) Fresh w) 1 cs start) as P.
      assert (Z : forall c, In c cs -> c <> Run 1 /\ (of_proc c = 0 \/ of_proc c = 1)) by (intros c Ic; pose proof (Hc c Ic) as Q; split; [intros -> ; discriminate Q|left; exact Q]).
      specialize (P Z (Nat.neq_succ_0 0)). cbv zeta in P. rewrite F in P. destruct P as [l El].
      { change (p_status (procs start 0)) with Running. cbv match. change (p_todo (procs start 0)) with (compile_all (add_prog ja)). rewrite acts_actions. reflexivity. }
      pose proof (C15_alone_is_session junk machine re sh root ja w) as Al. rewrite El in Al. unfold seen, seen' in Al. cbn [fst snd] in Al.
      destruct (session junk machine re sh root (Add (j_opts ja) (j_dep ja) (j_conf ja) (j_arch ja)) w) as [[e|] w1] eqn:Se; cbn [fst snd] in Al; injection Al as Al; [discriminate Al|].
      subst w1. destruct Wa as (An & Sh & _ & Fo & V). destruct (C01_add_records junk machine re sh root _ _ _ _ _ _ Fo Se) as (name & rules & An' & Ru & Li & Ot).
      assert (name = na) by (eapply archive_name_unique; eauto). subst name. split; [apply Li; split; [exact Sh|apply V, Ru]|].
      intros (dir & c & G & Re). apply NL. exists dir, c. rewrite <- (Ot nb); [|congruence]. split; [exact G|exact Re]. }
    destruct (first_of after Ha) as [A|(a1 & c & a2 & -> & Oc & Za)].
    - assert (I1 : idle 1 (before ++ after)) by (intros c Ic; apply in_app_or in Ic as [Ic|Ic]; [rewrite (Hb c Ic)|rewrite (A c Ic)]; discriminate).
      rewrite (idle_start 1 _ I1). discriminate.
    - assert (I1 : idle 1 (before ++ a1)) by (intros d Id; apply in_app_or in Id as [Id|Id]; [rewrite (Hb d Id)|rewrite (Za d Id)]; discriminate).
      assert (F1 : p_status (procs (exec (before ++ a1) start) 0) = Finished).
      { unfold LockModel.run. rewrite fold_left_app. change (fold_left _ before start) with (exec before start). change (fold_left _ a1 (exec before start)) with (exec a1 (exec before start)).
        rewrite ended_stays; rewrite Fin; [reflexivity|discriminate]. }
      destruct (Sol (before ++ a1)) as [La Lb]; [intros d Id; apply in_app_or in Id as [Id|Id]; [apply Hb, Id|apply Za, Id]|exact F1|].
      rewrite app_assoc. destruct c as [p|p]; cbn [of_proc] in Oc; subst p.
      + refine (C15_recorded (two (add_prog ja) (add_prog jb)) w (before ++ a1) a2 1 jb nb x eq_refl I1 Wb Lb _). exists na. split; [exact Nab|]. split; [exact Nd|exact La].
      + unfold LockModel.run. rewrite fold_left_app. change (fold_left _ (before ++ a1) start) with (exec (before ++ a1) start). cbn [fold_left].
        change (fold_left _ a2 (step act (Kill 1) (exec (before ++ a1) start))) with (exec a2 (step act (Kill 1) (exec (before ++ a1) start))).
        assert (K : p_status (procs (step act (Kill 1) (exec (before ++ a1) start)) 1) = Killed).
        { cbn [LockModel.step]. rewrite (idle_start 1 _ I1). change (p_status (procs start 1)) with Running. cbv match. cbn [leave procs]. rewrite upd_same. reflexivity. }
        rewrite ended_stays; rewrite K; discriminate.
  Qed.
End Others.
(** the hypotheses: foo and bar both ship usr/bin/tool *)
Example C15_shared : (would_install pfx (job_of foo) (L "foo") (L "usr/bin/tool")) /\ (would_install pfx (job_of bar) (L "bar") (L "usr/bin/tool")) /\
  (p_status (procs (exe (repeat (Run 0) 9) (initial (two (add_prog (job_of foo)) (add_prog (job_of bar))) (fun _ => Fresh) w_empty)) 0) = Finished).
Proof.
  assert (R : forall rules x, read_rules_file None = inl rules -> verdict pfx INSTALL rules x true).
  { intros rules x E. assert (N : rules = []) by (vm_compute in E; congruence). subst rules. apply verdict_default. intros r []. }
  assert (Nb : forall y, L "usr/bin/tool" <> y ++ [slash]) by (intros y E; apply (f_equal (@rev ascii)) in E; rewrite rev_app_distr in E; discriminate E).
  split; [|split; [|vm_compute; reflexivity]].
  - split; [erewrite called_name by opened; vm_compute; reflexivity|]. split; [erewrite ships_shipped by opened; vm_compute; tauto|].
    split; [intros [y E]; exact (Nb y E)|]. split; [reflexivity|]. intros rules E. apply R, E.
  - split; [erewrite called_name by opened; vm_compute; reflexivity|]. split; [erewrite ships_shipped by opened; vm_compute; tauto|].
    split; [intros [y E]; exact (Nb y E)|]. split; [reflexivity|]. intros rules E. apply R, E.
Qed.
