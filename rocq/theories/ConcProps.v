(** C15, and the tools as users of the lock (C14). *)
From Verif Require Import Base BaseProofs StrModel StrSpec StrProofs RulesModel RulesSpec RulesProofs RulesProps FsModel FsSpec FsProofs MetaModel MetaSpec MetaProofs DbModel DbSpec DbInv DbFacts DbLoad DbOps DbRun DbProps LockModel LockProps ConcModel DbExamples AddProps.

(** *** a process that runs alone does what the session of DbModel does *)
Section Alone.
  Variables (junk : bool) (machine : str) (re : str -> str -> option bool) (sh : str -> fs -> fs * bool) (root : str).
  Definition seen {X} (r : option X * world) : bool * world := (match fst r with Some _ => true | None => false end, snd r).
  Definition seen' (r : option stop * world) : bool * world := (match fst r with Some _ => false | None => true end, snd r).
  Theorem C15_alone_is_session j w :
    seen (alone junk machine re sh root (flat_map actions (add_prog j)) Fresh w) =
    seen' (session junk machine re sh root (Add (j_opts j) (j_dep j) (j_conf j) (j_arch j)) w).
  Proof.
    destruct j as [o sd conf a]. unfold add_prog, session. cbn [j_opts j_dep j_conf j_arch]. cbn [flat_map actions app alone act]. unfold w_clean. cbn [w_db].
    destruct (load junk (w_db w)) as [m| |]; [|reflexivity|reflexivity]. unfold add_run. cbn [alone act j_opts j_dep j_conf j_arch].
    set (w0 := World (cleanup_meta (w_fs w) root) (w_db w)). set (m0 := set_dep sd m).
    destruct (open_archive junk machine root a) as [[name info0]| |]; [|reflexivity|reflexivity].
    destruct (read_rules_file conf) as [rules|]; [|reflexivity].
    destruct (name_exists m0 name && negb (o_upgrade o)); [reflexivity|]. destruct (negb (name_exists m0 name) && o_upgrade o); [reflexivity|].
    destruct (apply_install_rules re rules (r_files info0)) as [[[ins non] post]|]; [|reflexivity].
    destruct (if o_scripts o then pre_run sh root a w0 else inr w0) as [w1|w1]; [reflexivity|].
    cbv zeta. set (cf := conflicts root name ins (w_fs w1) (m_pkgs m0)).
    assert (TailEq : forall w2 m2,
      seen (alone junk machine re sh root (flat_map actions ((if o_upgrade o then [Scope true [Do (ADrop (Job o sd conf a))]] else []) ++ [Scope true [Do (AUnpack (Job o sd conf a)); Do (AMove (Job o sd conf a)); Do (ARefs (Job o sd conf a))]; Do (APost (Job o sd conf a))]))
              (Planned (Plan name (with_files ins info0) ins non rules cf [] m2)) w2) =
      seen' (finish (match (if o_upgrade o then
             let m3 := mark_auto junk name m2 in
             match get_keep_list re rules ins with
             | None => inl (BadRules, w2)
             | Some kl => let wm := remove_files root name kl (w2, m3) in
                          match remove_refs junk name wm with
                          | None => inl (Exception, fst wm)
                          | Some wm' => inr (wm', kl)
                          end
             end
           else inr ((w2, m2), [])) with
    | inl (e, w3) => Stop e w3
    | inr ((w3, m3), kl) =>
    let w4 := World (install_archive root a kl non (w_fs w3)) (w_db w3) in
    match move_meta root name (w4, m3) with
    | UB => Stop Undefined w4
    | Throw => Stop Exception (World (removeFile (w_fs w4) root (L "/.MTREE")) (w_db w4))
    | Ok wm5 =>
    let '(w6, m6) := add_files_refs name (with_files ins info0) wm5 in
    Ret name (post_run sh root (o_scripts o) w6) m6
    end end))).
    { intros w2 m2. assert (Put : forall w3 m3 kl,
        seen (alone junk machine re sh root [AUnpack (Job o sd conf a); AMove (Job o sd conf a); ARefs (Job o sd conf a); APost (Job o sd conf a)] (Planned (Plan name (with_files ins info0) ins non rules cf kl m3)) w3) =
        seen' (finish (let w4 := World (install_archive root a kl non (w_fs w3)) (w_db w3) in
          match move_meta root name (w4, m3) with
          | UB => Stop Undefined w4
          | Throw => Stop Exception (World (removeFile (w_fs w4) root (L "/.MTREE")) (w_db w4))
          | Ok wm5 => let '(w6, m6) := add_files_refs name (with_files ins info0) wm5 in Ret name (post_run sh root (o_scripts o) w6) m6
          end))).
      { intros w3 m3 kl. cbn [alone act j_opts j_arch pl_name pl_info pl_ins pl_non pl_rules pl_cf pl_kl pl_mem]. cbv zeta.
        destruct (move_meta root name _) as [[w5 m5]| |]; reflexivity. }
      destruct (o_upgrade o).
      - cbn [app flat_map actions alone act pl_name pl_info pl_ins pl_non pl_rules pl_cf pl_kl pl_mem j_opts]. cbv zeta.
        destruct (get_keep_list re rules ins) as [kl|]; [|reflexivity].
        destruct (remove_files root name kl (w2, mark_auto junk name m2)) as [wr mr] eqn:Er.
        destruct (remove_refs junk name (wr, mr)) as [[w3 m3]|]; [|reflexivity]. apply Put.
      - cbn [app flat_map actions]. apply Put. }
    rewrite flat_map_app. destruct cf as [|x cf'] eqn:Ec.
    - subst cf. destruct (o_force o).
      + cbn [app flat_map actions alone act j_opts pl_cf]. apply (TailEq w1 m0).
      + cbn [app flat_map]. apply (TailEq w1 m0).
    - destruct (o_force o); [|reflexivity]. cbn [app flat_map actions alone act pl_cf pl_rules pl_mem pl_name pl_info pl_ins pl_non pl_kl j_opts].
      destruct (if o_upgrade o then get_keep_list re rules (x :: cf') else Some []) as [kl|]; [|reflexivity].
      destruct (strip_refs root (x :: cf') kl (w1, m0)) as [w2 m2]. apply (TailEq w2 m2).
  Qed.
End Alone.

(** *** what protects two overlapping adds: the second check looks at the disk, not only at the database in memory *)
Section Overlap.
  Variables (junk : bool) (machine : str) (re : str -> str -> option bool) (sh : str -> fs -> fs * bool) (root : str).
  Hypothesis Rs : ends_slash root = true.
  (** however old the database [d0] that the process has read, its check fails when a file it would install is already there *)
  Theorem C15_stale_database_partial j d0 m w name rules x :
    load junk d0 = Ok m -> no_dot_name (j_arch j) -> archive_name (j_arch j) name -> read_rules_file (j_conf j) = inl rules ->
    o_force (j_opts j) = false -> o_scripts (j_opts j) = false ->
    ships (j_arch j) x -> verdict re INSTALL rules x true -> ~ (exists y, x = y ++ [slash]) -> ~ lists d0 name x ->
    fget (w_fs w) (comps root ++ comps x) <> None ->
    act junk machine re sh root (ACheck j) (Loaded (set_dep (j_dep j) m)) w = (None, w).
  Proof.
    intros Lo ND An Ru Fo Sc Sh V Sl NL P. cbn [act]. destruct (open_archive junk machine root (j_arch j)) as [[nm info]| |] eqn:Op; [|reflexivity|reflexivity].
    rewrite Ru. destruct (_ && _); [reflexivity|]. destruct (_ && _); [reflexivity|].
    destruct (apply_install_rules re rules (r_files info)) as [[[ins non] post]|] eqn:Ap; [|reflexivity]. rewrite Sc, Fo. cbv zeta.
    pose proof (open_name _ _ _ _ _ _ Op) as [An' Sh']. assert (nm = name) by (eapply archive_name_unique; eauto). subst nm.
    pose proof (archive_files_ok _ _ _ _ _ _ Op) as [_ FO]. rewrite Forall_forall in FO.
    assert (Ix : In x (conflicts root name ins (w_fs w) (m_pkgs (set_dep (j_dep j) m)))).
    { rewrite set_dep_pkgs. apply conflicts_In. pose proof (install_rules_spec _ _ _ _ _ _ Ap) as [Ai _].
      rewrite <- ends_slash_iff, not_true_iff_false in Sl. apply Sh' in Sh. split; [apply Ai; auto|]. split; [exact Sl|]. split.
      - right. apply (exists_present root Rs); auto. apply FO, Sh.
      - intros r G Ir. apply NL. apply (load_lists junk d0 m name r x Lo G). exact Ir. }
    destruct (conflicts root name ins (w_fs w) (m_pkgs (set_dep (j_dep j) m))); [destruct Ix|reflexivity].
  Qed.
End Overlap.

(** *** REFUTED: two adds that both check before either installs *)
Definition two (p q : list (stmt action)) : nat -> list (stmt action) := fun n => match n with 0 => p | 1 => q | _ => [] end.
Notation exe := (run (act false mach pfx quiet rt)).
Definition job_of (a : archive) : job := Job simple false None a.
Definition race : list choice := [Run 0; Run 0; Run 1; Run 1] ++ repeat (Run 0) 7 ++ repeat (Run 1) 7.
Theorem C15_both_own_refuted :
  let s := exe race (initial (two (add_prog (job_of foo)) (add_prog (job_of bar))) (fun _ => Fresh) w_empty) in
  p_status (procs s 0) = Finished /\ p_status (procs s 1) = Finished /\
  lists (w_db (data s)) (L "foo") (L "usr/bin/tool") /\ lists (w_db (data s)) (L "bar") (L "usr/bin/tool").
Proof.
  cbv zeta. split; [vm_compute; reflexivity|]. split; [vm_compute; reflexivity|].
  split; eexists _, _; (split; [vm_compute; reflexivity|]); (split; [vm_compute; reflexivity|]); (split; [|discriminate]); vm_compute; tauto.
Qed.
(** the same two adds one after the other: the second one fails *)
Example C15_serial_witness :
  let s := exe (repeat (Run 0) 9 ++ repeat (Run 1) 9) (initial (two (add_prog (job_of foo)) (add_prog (job_of bar))) (fun _ => Fresh) w_empty) in
  p_status (procs s 0) = Finished /\ p_status (procs s 1) = Failed.
Proof. split; vm_compute; reflexivity. Qed.
(** an add that meets a removal in progress fails and changes nothing more *)
Example C14_witness :
  let s := exe [Run 0; Run 0; Run 1; Run 1; Run 0] (initial (two (add_prog (job_of bar0)) (rm_prog false None (L "foo"))) (fun _ => Fresh) w_foo) in
  holds _ _ _ s 1 true /\ p_status (procs s 0) = Failed.
Proof. split; [exists 0; split; vm_compute; auto|vm_compute; reflexivity]. Qed.
(** REFUTED for cards create: the lock object is destroyed at once, the database is written while another process holds the lock *)
Theorem C53_create_unlocked_refuted :
  let before := exe [Run 0; Run 0; Run 0; Run 0; Run 1; Run 1; Run 0] (initial (two (create_prog (job_of bar0)) (rm_prog false None (L "foo"))) (fun _ => Fresh) w_foo) in
  let after := exe [Run 0] before in
  holds _ _ _ before 1 true /\ holds _ _ _ after 1 true /\ mget (L "bar") (w_db (data before)) = None /\ mget (L "bar") (w_db (data after)) <> None.
Proof.
  cbv zeta. split; [exists 1; split; vm_compute; auto|]. split; [exists 1; split; vm_compute; auto|]. split; [vm_compute; reflexivity|vm_compute; discriminate].
Qed.

(** *** C53: pkgadd and pkgrm write the database only while holding the lock exclusively *)
Lemma Forall2_impl {A B} (P Q : A -> B -> Prop) l k : (forall x y, P x y -> Q x y) -> Forall2 P l k -> Forall2 Q l k.
Proof. intros H F. induction F; constructor; auto. Qed.
Section Guarded.
  Variables (A Loc D : Type) (act : A -> Loc -> D -> option Loc * D) (writes : A -> bool).
  Fixpoint guarded (modes : list bool) (l : list (instr A)) : Prop :=
    match l with
    | [] => True
    | Act a :: t => (writes a = true -> In true modes) /\ guarded modes t
    | Lock e :: t => guarded (e :: modes) t
    | Unlock :: t => guarded (tl modes) t
    end.
  Definition ginv (s : state A Loc D) : Prop := forall p, p_status (procs s p) = Running ->
    exists modes, Forall2 (fun h e => In (h, e) (table s)) (p_held (procs s p)) modes /\ guarded modes (p_todo (procs s p)).
  Lemma ginv_leave why p s d : why <> Running -> inv A Loc D s -> ginv s -> ginv (leave why p (procs s p) d s).
  Proof.
    intros W I G q H. unfold leave in *. cbn [procs table] in *. destruct (Nat.eq_dec q p) as [->|N]; [rewrite upd_same in H; cbn in H; congruence|].
    rewrite upd_other in * by auto. destruct (G q H) as [modes [F K]]. exists modes. split; [|exact K].
    assert (X : forall h, In h (p_held (procs s q)) -> ~ In h (p_held (procs s p))) by (intros h Hh Z; apply N; exact (i_owner A Loc D s I q p h Hh Z)).
    clear K. induction F as [|h e hs es F1 F2 IH]; constructor; [apply release_In; split; [exact F1|apply X; left; reflexivity]|]. apply IH. intros h' Hh. apply X. right. exact Hh.
  Qed.
  Lemma ginv_step c s : inv A Loc D s -> ginv s -> ginv (step act c s).
  Proof.
    intros I G. destruct c as [p|p]; cbn [LockModel.step].
    2:{ destruct (p_status (procs s p)); auto. apply ginv_leave; auto. discriminate. }
    destruct (p_status (procs s p)) eqn:S; auto. destruct (G p S) as [modes [F K]]. destruct (p_todo (procs s p)) as [|[e| |a] t] eqn:T.
    - intros q H. cbn [procs table] in *. destruct (Nat.eq_dec q p) as [->|N]; [rewrite upd_same in H; discriminate|]. rewrite upd_other in * by auto. apply G, H.
    - destruct (compatible e (table s)); [|apply ginv_leave; auto; discriminate]. intros q H. cbn [procs table] in *. destruct (Nat.eq_dec q p) as [->|N].
      + rewrite upd_same in *. cbn [p_held p_todo] in *. exists (e :: modes). split; [|exact K]. constructor; [left; reflexivity|]. eapply Forall2_impl; [|exact F]. intros; right; assumption.
      + rewrite upd_other in * by auto. destruct (G q H) as [ms [F' K']]. exists ms. split; [|exact K']. eapply Forall2_impl; [|exact F']. intros; right; assumption.
    - destruct (p_held (procs s p)) as [|h hs] eqn:Hh; auto. inversion F as [|? e ? es F1 F2]; subst. intros q H. cbn [procs table] in *. destruct (Nat.eq_dec q p) as [->|N].
      + rewrite upd_same in *. cbn [p_held p_todo] in *. exists es. split; [|exact K].
        pose proof (i_once A Loc D s I p) as ND. rewrite Hh in ND. inversion ND as [|? ? Nh _]; subst. clear -F2 Nh.
        induction F2; constructor; [apply release_In; split; [assumption|]; intros [->|[]]; apply Nh; left; reflexivity|]. apply IHF2. intro Z. apply Nh. right. exact Z.
      + rewrite upd_other in * by auto. destruct (G q H) as [ms [F' K']]. exists ms. split; [|exact K'].
        assert (X : forall h', In h' (p_held (procs s q)) -> h' <> h). { intros h' H' ->. apply N. apply (i_owner A Loc D s I q p h H'). rewrite Hh. left. reflexivity. }
        clear -F' X. induction F'; constructor; [apply release_In; split; [assumption|]; intros [Z|[]]; apply (X x); [left; reflexivity|congruence]|]. apply IHF'. intros h' H'. apply X. right. exact H'.
    - destruct (act a (p_loc (procs s p)) (data s)) as [[l|] d]; [|apply ginv_leave; auto; discriminate].
      intros q H. cbn [procs table] in *. destruct (Nat.eq_dec q p) as [->|N]; [|rewrite upd_other in * by auto; apply G, H].
      rewrite upd_same in *. cbn [p_held p_todo] in *. exists modes. split; [exact F|apply K].
  Qed.
  Lemma ginv_run cs : forall s, inv A Loc D s -> ginv s -> ginv (run act cs s).
  Proof. induction cs as [|c cs IH]; intros s I G; [exact G|]. cbn. apply IH; [apply step_inv, I|apply ginv_step; auto]. Qed.
  Lemma ginv_initial prog loc d : (forall p, guarded [] (compile_all (prog p))) -> ginv (initial prog loc d).
  Proof. intros H p _. exists []. split; [constructor|apply H]. Qed.
  (** a step that runs a writing action is made by a process holding the lock exclusively *)
  Lemma guarded_write prog loc d cs p a t : (forall p, guarded [] (compile_all (prog p))) -> let s := run act cs (initial prog loc d) in
    p_status (procs s p) = Running -> p_todo (procs s p) = Act a :: t -> writes a = true -> holds A Loc D s p true.
  Proof.
    intros Gd s S T W. assert (G : ginv s) by (apply ginv_run; [apply initial_inv|apply ginv_initial, Gd]). destruct (G p S) as [modes [F K]]. rewrite T in K.
    destruct K as [K _]. specialize (K W). unfold holds. clear -F K. induction F as [|h e hs es F1 F2 IH]; [destruct K|].
    destruct K as [->|K]; [exists h; split; [left; reflexivity|exact F1]|]. destruct (IH K) as [o [O1 O2]]. exists o. split; [right; exact O1|exact O2].
  Qed.
End Guarded.

Section Writers.
  Variables (junk : bool) (machine : str) (re : str -> str -> option bool) (sh : str -> fs -> fs * bool) (root : str).
  Definition writes_db (a : action) : bool := match a with AStrip _ | ADrop _ | AMove _ | ARefs _ | RRun _ _ _ => true | _ => false end.
  Lemma pre_run_db a w : match pre_run sh root a w with inl w1 | inr w1 => w_db w1 = w_db w end.
  Proof.
    unfold pre_run. set (f1 := match member a (L ".PRE") with None => _ | Some n => _ end). destruct f1 as [g|g]; [reflexivity|].
    destruct (exists_file g (pre_path root)); [|reflexivity]. destruct (sh (pre_path root) g) as [g' [|]]; reflexivity.
  Qed.
  Lemma no_write a l w : writes_db a = false -> w_db (snd (act junk machine re sh root a l w)) = w_db w.
  Proof.
    destruct a; intro H; try discriminate; cbn [act].
    - destruct (load junk (w_db w)); reflexivity.
    - destruct l; try reflexivity. destruct (open_archive junk machine root (j_arch j)) as [[name info0]| |]; try reflexivity. destruct (read_rules_file (j_conf j)); try reflexivity.
      destruct (_ && _); [reflexivity|]. destruct (_ && _); [reflexivity|]. destruct (apply_install_rules re l (r_files info0)) as [[[ins non] post]|]; [|reflexivity].
      destruct (o_scripts (j_opts j)).
      + pose proof (pre_run_db (j_arch j) w) as P. destruct (pre_run sh root (j_arch j) w) as [w1|w1]; [exact P|]. cbv zeta.
        destruct (conflicts root name ins (w_fs w1) (m_pkgs m)); [exact P|]. destruct (o_force (j_opts j)); exact P.
      + cbv zeta. destruct (conflicts root name ins (w_fs w) (m_pkgs m)); [reflexivity|]. destruct (o_force (j_opts j)); reflexivity.
    - destruct l; reflexivity.
    - reflexivity.
    - destruct (load junk (w_db w)); reflexivity.
    - destruct (load junk (w_db w)); reflexivity.
  Qed.
  (** the tools *)
  Inductive tool : list (stmt action) -> Prop :=
  | t_add j : tool (add_prog j)
  | t_rm s conf n : tool (rm_prog s conf n)
  | t_info : tool info_prog
  | t_number : tool number_prog
  | t_none : tool [].
  Lemma tool_guarded l : tool l -> guarded action writes_db [] (compile_all l).
  Proof.
    intros [j|s conf n| | |]; [|cbn; intuition discriminate|cbn; split; [discriminate|exact Logic.I]|cbn; split; [discriminate|exact Logic.I]|exact Logic.I].
    unfold add_prog. destruct (o_force (j_opts j)), (o_upgrade (j_opts j)); cbn; intuition discriminate.
  Qed.
  (** any number of adds, upgrades, removals and queries, any schedule: a step that changes the database is made by a process
      that holds the lock exclusively *)
  Theorem C53_written_under_lock (prog : nat -> list (stmt action)) w cs p : (forall p, tool (prog p)) ->
    let s := run (act junk machine re sh root) cs (initial prog (fun _ => Fresh) w) in
    w_db (data (step (act junk machine re sh root) (Run p) s)) <> w_db (data s) -> holds action local world s p true.
  Proof.
    intros Tl s Ch. cbn [LockModel.step] in Ch. destruct (p_status (procs s p)) eqn:S; try (exfalso; apply Ch; reflexivity).
    destruct (p_todo (procs s p)) as [|[e| |a] t] eqn:T.
    - exfalso. apply Ch. reflexivity.
    - exfalso. apply Ch. destruct (compatible e (table s)); reflexivity.
    - exfalso. apply Ch. destruct (p_held (procs s p)); reflexivity.
    - destruct (writes_db a) eqn:W.
      + apply (guarded_write _ _ _ (act junk machine re sh root) writes_db prog (fun _ => Fresh) w cs p a t); auto. intro q. apply tool_guarded, Tl.
      + exfalso. apply Ch. pose proof (no_write a (p_loc (procs s p)) (data s) W) as N.
        destruct (act junk machine re sh root a (p_loc (procs s p)) (data s)) as [[l|] d]; exact N.
  Qed.
End Writers.
Example C53_witness :
  let s := exe [Run 0; Run 0; Run 0; Run 0] (initial (two (add_prog (job_of foo)) (rm_prog false None (L "x"))) (fun _ => Fresh) w_empty) in
  w_db (data (exe [Run 0] s)) <> w_db (data s).
Proof. vm_compute. discriminate. Qed.
