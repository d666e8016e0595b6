(** C55: tools that only query the database while another one installs. *)
From Verif Require Import Base BaseProofs StrModel StrSpec StrProofs RulesModel RulesSpec RulesProofs FsModel FsSpec FsProofs FsOps FsExtract MetaModel MetaSpec MetaProofs
  DbModel DbSpec DbInv DbFacts DbLoad DbOps DbRun DbProps LockModel LockProps ConcModel ConcProps DbExamples EngineFs.

(** REFUTED: 'pkginfo -n' (no lock), or a second pkgadd or pkgrm that is only starting (the database is opened before the lock is
    taken), deletes the metadata file that a running install has just unpacked: the install dies, its files are on disk and belong to
    no package. *)
Theorem C55_number_refuted :
  let s := exe ([Run 0; Run 0; Run 0; Run 0] ++ [Run 1] ++ [Run 0]) (initial (two (add_prog (job_of foo)) number_prog) (fun _ => Fresh) w_empty) in
  p_status (procs s 0) = Failed /\ fget (w_fs (data s)) [L "usr"; L "bin"; L "tool"] = Some (reg (L "foo tool")) /\
  forall n x, ~ lists (w_db (data s)) n x.
Proof.
  cbv zeta. split; [vm_compute; reflexivity|]. split; [vm_compute; reflexivity|].
  intros n x [dir [c [G _]]]. assert (E : w_db (data (exe ([Run 0; Run 0; Run 0; Run 0] ++ [Run 1] ++ [Run 0]) (initial (two (add_prog (job_of foo)) number_prog) (fun _ => Fresh) w_empty))) = []) by (vm_compute; reflexivity).
  rewrite E in G. discriminate G.
Qed.
Theorem C55_start_refuted :
  let s := exe ([Run 0; Run 0; Run 0; Run 0] ++ [Run 1] ++ [Run 0]) (initial (two (add_prog (job_of foo)) (rm_prog false None (L "x"))) (fun _ => Fresh) w_empty) in
  p_status (procs s 0) = Failed /\ fget (w_fs (data s)) [L "usr"; L "bin"; L "tool"] = Some (reg (L "foo tool")) /\
  mget (L "foo") (w_db (data s)) = None.
Proof. split; [vm_compute; reflexivity|]. split; vm_compute; reflexivity. Qed.

(** *** what the shared lock guarantees *)
Section Shared.
  Variables (junk : bool) (machine : str) (re : str -> str -> option bool) (sh : str -> fs -> fs * bool) (root : str).
  Hypothesis Rs : ends_slash root = true.
  Notation act := (act junk machine re sh root).
  Notation clean := (w_clean root).
  (** no left-over metadata file at the top of the root *)
  Definition no_leftover (f : fs) : Prop := forall m, In m meta_files -> fget f (comps root ++ comps m) = None.

  Lemma leftover_clean w : no_leftover (w_fs w) -> clean w = w.
  Proof.
    intro H. unfold w_clean. destruct w as [f d]. cbn [w_fs w_db] in *. f_equal. unfold cleanup_meta.
    assert (G : forall ms, (forall m, In m ms -> In m meta_files) -> fold_left (fun f m => if exists_file f (root ++ m) then removeFile f root m else f) ms f = f).
    { induction ms as [|m ms IH]; intro Hm; [reflexivity|]. cbn [fold_left].
      assert (E : exists_file f (root ++ m) = false).
      { unfold exists_file, lstat. rewrite comps_app by auto. rewrite H by (apply Hm; left; reflexivity). reflexivity. }
      rewrite E. apply IH. intros; apply Hm; right; assumption. }
    apply G. auto.
  Qed.
  Lemma leftover_del xs f : no_leftover f -> no_leftover (del_files root xs f).
  Proof. intros H m I. destruct (del_files_sub root Rs xs f (comps root ++ comps m)) as [E|E]; [rewrite E; auto|exact E]. Qed.

  Variable j : job.
  Hypothesis Off : o_scripts (j_opts j) = false.

  Definition tail3 : list (instr action) := [Act (AMove j); Act (ARefs j); Unlock; Act (APost j)].
  Definition head : list (instr action) := compile_all ([Do (ALoad j); Do (ACheck j)] ++
    (if o_force (j_opts j) then [Scope true [Do (AStrip j)]] else []) ++ (if o_upgrade (j_opts j) then [Scope true [Do (ADrop j)]] else [])) ++ [Lock true].
  Lemma prog_eq : compile_all (add_prog j) = head ++ Act (AUnpack j) :: tail3.
  Proof. unfold head, add_prog. destruct (o_force (j_opts j)), (o_upgrade (j_opts j)); reflexivity. Qed.
  (** actions of the first part *)
  Definition early (i : instr action) : Prop := match i with Act (ALoad x) | Act (ACheck x) | Act (AStrip x) | Act (ADrop x) => x = j | Act _ => False | Lock e => e = true | Unlock => True end.
  Lemma head_early : Forall early head.
  Proof. unfold head. destruct (o_force (j_opts j)), (o_upgrade (j_opts j)); cbn; repeat constructor. Qed.

  Lemma early_leftover a l w l' w' : early (Act a) -> no_leftover (w_fs w) -> act a l w = (Some l', w') -> no_leftover (w_fs w').
  Proof.
    intros E H X. destruct a; cbn [early] in E; try contradiction; subst; cbn [ConcModel.act] in X.
    - destruct (load junk (w_db w)) as [m| |]; [|discriminate|discriminate]. inversion X; subst. rewrite leftover_clean; auto.
    - destruct l; try discriminate. destruct (open_archive junk machine root (j_arch j)) as [[name info0]| |]; try discriminate. destruct (read_rules_file (j_conf j)) as [rules|]; try discriminate.
      destruct (_ && _); [discriminate|]. destruct (_ && _); [discriminate|]. destruct (apply_install_rules re rules (r_files info0)) as [[[ins non] post]|]; [|discriminate].
      rewrite Off in X. cbv zeta in X. destruct (conflicts root name ins (w_fs w) (m_pkgs m)); [inversion X; subst; auto|]. destruct (o_force (j_opts j)); inversion X; subst; auto.
    - destruct l as [| |p]; try discriminate. destruct (pl_cf p) as [|c cf] eqn:Ec; [inversion X; subst; auto|].
      destruct (if o_upgrade (j_opts j) then get_keep_list re (pl_rules p) (c :: cf) else Some []) as [kl|]; [|discriminate].
      destruct (strip_refs root (c :: cf) kl (w, pl_mem p)) as [w2 m2] eqn:S. inversion X; subst. apply strip_refs_parts in S as [S _]. rewrite S. apply leftover_del, H.
    - destruct l as [| |p]; try discriminate. destruct (get_keep_list re (pl_rules p) (pl_ins p)) as [kl|]; [|discriminate]. cbv zeta in X.
      destruct (remove_files root (pl_name p) kl (w, mark_auto junk (pl_name p) (pl_mem p))) as [wr mr] eqn:Er.
      assert (Hr : no_leftover (w_fs wr)). { unfold remove_files in Er. inversion Er; subst. cbn [w_fs]. apply leftover_del, H. }
      destruct (remove_refs junk (pl_name p) (wr, mr)) as [[w2 m2]|] eqn:Rr; [|discriminate]. inversion X; subst.
      unfold remove_refs in Rr. destruct (mget (pl_name p) (w_db wr)); [|discriminate]. inversion Rr; subst. exact Hr.
  Qed.

  (** the run of the process when it is alone: what is left to do, its memory, the disk *)
  Inductive reach (w : world) : list (instr action) -> local -> world -> Prop :=
  | r_start : reach w (compile_all (add_prog j)) Fresh w
  | r_act a t l d l' d' : reach w (Act a :: t) l d -> act a l d = (Some l', d') -> reach w t l' d'
  | r_lock e t l d : reach w (Lock e :: t) l d -> reach w t l d
  | r_unlock t l d : reach w (Unlock :: t) l d -> reach w t l d.
  Definition acts (l : list (instr action)) : list action := flat_map (fun i => match i with Act a => [a] | _ => [] end) l.
  Lemma reach_alone w todo l d : reach w todo l d ->
    alone junk machine re sh root (acts (compile_all (add_prog j))) Fresh w = alone junk machine re sh root (acts todo) l d.
  Proof.
    unfold acts. induction 1 as [|a t l d l' d' R IH E|e t l d R IH|t l d R IH]; [reflexivity| |exact IH|exact IH].
    rewrite IH. cbn [flat_map app alone]. rewrite E. reflexivity.
  Qed.
  Lemma acts_prog : acts (compile_all (add_prog j)) = flat_map actions (add_prog j).
  Proof. unfold add_prog. destruct (o_force (j_opts j)), (o_upgrade (j_opts j)); reflexivity. Qed.
  Definition tail2 : list (instr action) := [Act (ARefs j); Unlock; Act (APost j)].
  Lemma early_tree a l w l' w' : early (Act a) -> tree (w_fs w) -> act a l w = (Some l', w') -> tree (w_fs w').
  Proof.
    intros E H X. destruct a; cbn [early] in E; try contradiction; subst; cbn [ConcModel.act] in X.
    - destruct (load junk (w_db w)) as [m| |]; [|discriminate|discriminate]. inversion X; subst. apply cleanup_spec, H.
    - destruct l; try discriminate. destruct (open_archive junk machine root (j_arch j)) as [[name info0]| |]; try discriminate. destruct (read_rules_file (j_conf j)) as [rules|]; try discriminate.
      destruct (_ && _); [discriminate|]. destruct (_ && _); [discriminate|]. destruct (apply_install_rules re rules (r_files info0)) as [[[ins non] post]|]; [|discriminate].
      rewrite Off in X. cbv zeta in X. destruct (conflicts root name ins (w_fs w) (m_pkgs m)); [inversion X; subst; auto|]. destruct (o_force (j_opts j)); inversion X; subst; auto.
    - destruct l as [| |p]; try discriminate. destruct (pl_cf p) as [|c cf] eqn:Ec; [inversion X; subst; auto|].
      destruct (if o_upgrade (j_opts j) then get_keep_list re (pl_rules p) (c :: cf) else Some []) as [kl|]; [|discriminate].
      destruct (strip_refs root (c :: cf) kl (w, pl_mem p)) as [w2 m2] eqn:S. inversion X; subst. apply strip_refs_parts in S as [S _]. rewrite S. apply del_files_tree, H.
    - destruct l as [| |p]; try discriminate. destruct (get_keep_list re (pl_rules p) (pl_ins p)) as [kl|]; [|discriminate]. cbv zeta in X.
      destruct (remove_files root (pl_name p) kl (w, mark_auto junk (pl_name p) (pl_mem p))) as [wr mr] eqn:Er.
      assert (Hr : tree (w_fs wr)). { unfold remove_files in Er. inversion Er; subst. cbn [w_fs]. apply del_files_tree, H. }
      destruct (remove_refs junk (pl_name p) (wr, mr)) as [[w2 m2]|] eqn:Rr; [|discriminate]. inversion X; subst.
      unfold remove_refs in Rr. destruct (mget (pl_name p) (w_db wr)); [|discriminate]. inversion Rr; subst. exact Hr.
  Qed.
  Definition top (f : fs) : Prop := dir_at f [].
  Lemma tree_top f : tree f -> top f. Proof. intro T. apply T. Qed.
  Lemma top_fdel f c cs : top f -> top (fdel (cs ++ [c]) f).
  Proof. intros [n [G K]]. exists n. split; [|exact K]. rewrite fget_fdel_other; [exact G|]. destruct cs; discriminate. Qed.
  Lemma top_move name x w : (exists cs c, comps (root ++ x) = cs ++ [c]) -> top (w_fs w) -> top (w_fs (move_one root name x w)).
  Proof. intros [cs [c E]] T. unfold move_one. destruct (fget (w_fs w) (comps (root ++ x))); [|exact T]. cbn [w_fs]. rewrite E. apply top_fdel, T. Qed.
  Lemma top_move_meta name w m w' m' : tree (w_fs w) -> move_meta root name (w, m) = Ok (w', m') -> top (w_fs w').
  Proof.
    intros T E. unfold move_meta in E. cbv zeta in E. set (f0 := removeFile (w_fs w) root (L "/.MTREE")) in *.
    assert (T0 : top f0) by (apply tree_top; apply removeFile_gen, T). clearbody f0.
    destruct (fget f0 (comps (root ++ L ".META"))) as [n|]; [|discriminate]. destruct (is_dir n); [discriminate|]. destruct (parse_set (n_data n)) as [ls|]; [|discriminate].
    match type of E with context [fold_left ?g ?l ?z] => set (wf := fold_left g l z) in E end.
    assert (Tf : top (w_fs wf)).
    { unfold wf. set (ex := (if exists_file f0 (root ++ L ".POSTR") then [L ".POSTR"] else []) ++ (if exists_file f0 (root ++ L ".PRER") then [L ".PRER"] else [])).
      assert (Z : Forall (fun x => exists cs c, comps (root ++ x) = cs ++ [c]) (L ".META" :: ex)).
      { assert (Z1 : forall s, comp (L s) -> exists cs c, comps (root ++ L s) = cs ++ [c]) by (intros s C; exists (comps root), (L s); apply comps_root_lit; auto).
        constructor; [apply Z1; lit|]. unfold ex. destruct (exists_file f0 (root ++ L ".POSTR")), (exists_file f0 (root ++ L ".PRER")); cbn [app];
          repeat (constructor; [apply Z1; lit|]); constructor. }
      revert Z. generalize (L ".META" :: ex). intros l Z. assert (W0 : top (w_fs (World f0 (w_db w)))) by exact T0. revert W0. generalize (World f0 (w_db w)).
      induction Z as [|x l Hx Z IH]; intros w1 W1; [exact W1|]. cbn [fold_left]. apply IH, top_move; auto. }
    clearbody wf. destruct (m_dep m); inversion E; subst; exact Tf.
  Qed.
  (** before the unpacking the disk holds no left-over; afterwards the rest of the program is short *)
  Lemma reach_phase w todo l d : tree (w_fs w) -> no_leftover (w_fs w) -> reach w todo l d ->
    (exists h, Forall early h /\ todo = h ++ Act (AUnpack j) :: tail3 /\ no_leftover (w_fs d) /\ tree (w_fs d)) \/
    (todo = tail3 /\ tree (w_fs d)) \/ ((exists k, tail2 = k ++ todo) /\ top (w_fs d)).
  Proof.
    intros T N R. induction R as [|a t l d l' d' R IH E|e t l d R IH|t l d R IH].
    - left. exists head. split; [exact head_early|]. split; [exact prog_eq|]. split; [exact N|exact T].
    - destruct IH as [[h [F [Q [K1 K2]]]]|[[Q K]|[[k Q] K]]].
      + destruct h as [|i h]; cbn in Q; inversion Q; subst.
        * right. left. split; [reflexivity|]. cbn [ConcModel.act] in E. destruct l as [| |p]; try discriminate. inversion E; subst. apply install_tree, K2.
        * left. exists h. inversion F; subst. split; [assumption|]. split; [reflexivity|]. split; [eapply early_leftover; eauto|eapply early_tree; eauto].
      + right. right. injection Q as -> ->. split; [exists []; reflexivity|]. cbn [ConcModel.act] in E. destruct l as [| |p]; try discriminate.
        destruct (move_meta root (pl_name p) (d, pl_mem p)) as [[w5 m5]| |] eqn:M; try discriminate. inversion E; subst. eapply top_move_meta; eauto.
      + right. right. split; [exists (k ++ [Act a]); rewrite <- app_assoc; exact Q|].
        destruct k as [|k0 [|k1 [|k2 k]]]; cbn in Q; inversion Q; subst.
        * cbn [ConcModel.act] in E. destruct l as [| |p]; try discriminate. unfold add_files_refs in E. inversion E; subst. exact K.
        * cbn [ConcModel.act] in E. inversion E; subst. destruct K as [n [G Kd]]. exists n. split; [|exact Kd].
          rewrite Off, post_run_frame; auto; intro Z; symmetry in Z; apply app_eq_nil in Z as [_ Z]; discriminate Z.
        * exfalso. match goal with H : [] = _ ++ _ :: _ |- _ => exact (app_cons_not_nil _ _ _ H) end.
    - destruct IH as [[h [F [Q K]]]|[[Q K]|[[k Q] K]]].
      + destruct h as [|i h]; cbn in Q; inversion Q; subst. left. exists h. inversion F; subst. auto.
      + discriminate Q.
      + right. right. split; [exists (k ++ [Lock e]); rewrite <- app_assoc; exact Q|exact K].
    - destruct IH as [[h [F [Q K]]]|[[Q K]|[[k Q] K]]].
      + destruct h as [|i h]; cbn in Q; inversion Q; subst. left. exists h. inversion F; subst. auto.
      + discriminate Q.
      + right. right. split; [exists (k ++ [Unlock]); rewrite <- app_assoc; exact Q|exact K].
  Qed.

  (** the same disk up to the metadata files at the top *)
  Definition alike (a b : world) : Prop := w_db a = w_db b /\ forall q, ~ In q meta_comps -> q <> comps root ++ [L ".PRE"] -> q <> comps root ++ [L ".POST"] ->
    fget (w_fs a) q = fget (w_fs b) q.
  Lemma alike_refl a : alike a a. Proof. split; auto. Qed.
  Lemma alike_trans a b c : alike a b -> alike b c -> alike a c.
  Proof. intros [A1 A2] [B1 B2]. split; [congruence|]. intros q N1 N2 N3. rewrite A2, B2; auto. Qed.
  Lemma single_top f base c : top f -> comps (slash :: c) = [c] -> dirname (slash :: c) = L "/" ->
    top (removeFile f base (slash :: c)) /\ forall q, q <> [c] -> fget (removeFile f base (slash :: c)) q = fget f q.
  Proof.
    intros T C D. unfold removeFile. replace (length (slash :: c) + 2) with (S (S (S (length c)))) by (cbn [length]; lia). cbn [remove_file]. rewrite D.
    destruct (seqb (slash :: c) base); [split; auto|]. destruct (rm f (slash :: c)) as [b g] eqn:R. apply rm_spec in R as [[-> ->]|[-> [-> _]]]; [split; auto|].
    rewrite C. assert (T' : top (fdel [c] f)) by (change [c] with ([] ++ [c]); apply top_fdel, T).
    assert (Fr : forall q, q <> [c] -> fget (fdel [c] f) q = fget f q) by (intros; apply fget_fdel_other; assumption).
    destruct (seqb (L "/") base); [split; auto|]. pose proof (rm_root_fails (fdel [c] f) (L "/") (or_introl eq_refl) T') as X.
    destruct (rm (fdel [c] f) (L "/")) as [b g] eqn:R. apply rm_spec in R as [[-> ->]|[-> _]]; [split; auto|]. discriminate X.
  Qed.
  Lemma clean_top w : top (w_fs w) -> top (w_fs (clean w)) /\ alike (clean w) w.
  Proof.
    intro T. unfold w_clean, alike. cbn [w_fs w_db]. 
    assert (G : forall ms f, Forall (fun m => exists c, m = slash :: c /\ comps (slash :: c) = [c] /\ dirname (slash :: c) = L "/" /\ In [c] meta_comps) ms -> top f ->
      let g := fold_left (fun f m => if exists_file f (root ++ m) then removeFile f root m else f) ms f in
      top g /\ forall q, ~ In q meta_comps -> fget g q = fget f q).
    { clear T w. induction ms as [|m ms IH]; intros f F T; cbn [fold_left]; [auto|]. inversion F as [|? ? [c [-> [C [D I]]]] F2]; subst.
      destruct (exists_file f (root ++ slash :: c)); [|apply IH; auto]. destruct (single_top f root c T C D) as [T1 F1]. destruct (IH _ F2 T1) as [A B]. split; [exact A|].
      intros q N. rewrite B by auto. apply F1. intros ->. contradiction. }
    destruct (G meta_files (w_fs w)) as [A B]; [|exact T|split; [exact A|split; auto]].
    unfold meta_files, meta_comps.
    constructor; [exists (L ".INFO"); split; [reflexivity|split; [reflexivity|split; [reflexivity|]]]; left; reflexivity|].
    constructor; [exists (L ".META"); split; [reflexivity|split; [reflexivity|split; [reflexivity|]]]; right; left; reflexivity|].
    constructor; [exists (L ".PRE"); split; [reflexivity|split; [reflexivity|split; [reflexivity|]]]; right; right; left; reflexivity|].
    constructor; [exists (L ".POST"); split; [reflexivity|split; [reflexivity|split; [reflexivity|]]]; right; right; right; left; reflexivity|].
    constructor; [exists (L ".MTREE"); split; [reflexivity|split; [reflexivity|split; [reflexivity|]]]; right; right; right; right; left; reflexivity|].
    constructor; [exists (L ".README"); split; [reflexivity|split; [reflexivity|split; [reflexivity|]]]; right; right; right; right; right; left; reflexivity|].
    constructor.
  Qed.
  Lemma post_alike w : alike (post_run sh root false w) w /\ (top (w_fs w) -> top (w_fs (post_run sh root false w))).
  Proof.
    assert (F : forall q, q <> comps root ++ [L ".PRE"] -> q <> comps root ++ [L ".POST"] -> fget (w_fs (post_run sh root false w)) q = fget (w_fs w) q) by (intros; apply post_run_frame; assumption).
    split; [split; [apply post_run_db|intros; apply F; assumption]|]. intros [n [G K]]. exists n. split; [|exact K].
    rewrite F; [exact G| |]; intro Z; symmetry in Z; apply app_eq_nil in Z as [_ Z]; discriminate Z.
  Qed.

  (** *** any schedule *)
  Variable prog : nat -> list (stmt action).
  Hypothesis P0 : prog 0 = add_prog j.
  Hypothesis Pq : forall q, q <> 0 -> prog q = info_prog \/ prog q = [].
  Variable w : world.
  Hypothesis Tw : tree (w_fs w).
  Hypothesis Nw : no_leftover (w_fs w).
  Notation st := (state action local world).
  Definition late (todo : list (instr action)) : Prop := todo = [Act (APost j)] \/ todo = [].
  Definition goes (s : st) : Prop :=
    match p_status (procs s 0) with
    | Running => exists d, reach w (p_todo (procs s 0)) (p_loc (procs s 0)) d /\ (data s = d \/ (late (p_todo (procs s 0)) /\ alike (data s) d /\ top (w_fs (data s))))
    | Finished => exists d l, reach w [] l d /\ alike (data s) d /\ top (w_fs (data s))
    | _ => True
    end.
  Record around (s : st) : Prop := Around {
    a_inv : inv action local world s;
    a_excl : forall o, In o (p_held (procs s 0)) -> In (o, true) (table s);
    a_other : forall q, q <> 0 -> p_status (procs s q) = Running ->
      (exists k, [Lock false; Act ILoad; Unlock] = k ++ p_todo (procs s q)) /\
      (forall a t, p_todo (procs s q) = Act a :: t -> a = ILoad /\ p_held (procs s q) <> []);
    a_goes : goes s }.
  Lemma reach_lock e t l d : reach w (Lock e :: t) l d -> e = true.
  Proof.
    intro R. destruct (reach_phase w _ l d Tw Nw R) as [[h [F [Q _]]]|[[Q _]|[[k Q] _]]].
    - destruct h as [|i h]; cbn in Q; inversion Q; subst. inversion F; subst. assumption.
    - discriminate Q.
    - destruct k as [|k0 [|k1 [|k2 k]]]; cbn in Q; inversion Q. exfalso. match goal with H : [] = _ ++ _ :: _ |- _ => exact (app_cons_not_nil _ _ _ H) end.
  Qed.
  (** outside of the locked blocks *)
  Lemma reach_outside todo l d : reach w todo l d -> closes action 0 todo -> (no_leftover (w_fs d)) \/ (late todo /\ top (w_fs d)).
  Proof.
    intros R C. destruct (reach_phase w _ l d Tw Nw R) as [[h [F [Q [K _]]]]|[[Q K]|[[k Q] K]]]; [left; exact K| |].
    - subst todo. exfalso. unfold tail3 in C. inversion C as [|? ? ? C1| |]; subst. inversion C1 as [|? ? ? C2| |]; subst. inversion C2.
    - right. split; [|exact K]. unfold late. destruct k as [|k0 [|k1 [|k2 [|k3 k]]]]; cbn in Q; unfold tail2 in Q.
      + exfalso. subst todo. inversion C as [|? ? ? C1| |]; subst. inversion C1.
      + exfalso. injection Q as _ Q. subst todo. inversion C.
      + left. injection Q as _ _ Q. subst todo. reflexivity.
      + right. injection Q as _ _ _ Q. subst todo. reflexivity.
      + exfalso. discriminate Q.
  Qed.
  Lemma late_alike_act a t l d l' d' dd : late (Act a :: t) -> act a l dd = (Some l', d') -> alike dd d -> top (w_fs dd) ->
    t = [] /\ exists e, act a l d = (Some l', e) /\ alike d' e /\ top (w_fs d').
  Proof.
    intros [Q|Q] E A T; inversion Q; subst. split; [reflexivity|]. cbn [ConcModel.act] in *. rewrite Off in *. inversion E; subst. eexists. split; [reflexivity|].
    destruct (post_alike dd) as [P1 P2]. destruct (post_alike d) as [P3 _]. split; [|auto].
    apply (alike_trans _ dd); [exact P1|]. apply (alike_trans _ d); [exact A|]. destruct P3 as [Z1 Z2]. split; [auto|]. intros q N1 N2 N3. symmetry. apply Z2; auto.
  Qed.
  Lemma others_excl s q hs : inv action local world s -> q <> 0 -> (forall h, In h hs -> In h (p_held (procs s q))) ->
    (forall o, In o (p_held (procs s 0)) -> In (o, true) (table s)) -> forall o, In o (p_held (procs s 0)) -> In (o, true) (release hs (table s)).
  Proof.
    intros I N Hs E o Ho. apply release_In. split; [apply E, Ho|]. intro Z. apply N. exact (i_owner _ _ _ s I q 0 o (Hs o Z) Ho).
  Qed.
  Lemma goes_ext (s s' : st) : procs s' 0 = procs s 0 -> data s' = data s -> goes s -> goes s'.
  Proof. unfold goes. intros -> ->. auto. Qed.
  Lemma goes_clean (s s' : st) : inv action local world s -> procs s' 0 = procs s 0 -> p_held (procs s 0) = [] -> data s' = clean (data s) -> goes s -> goes s'.
  Proof.
    unfold goes. intros I -> H0 -> G. destruct (p_status (procs s 0)) eqn:S; auto.
    - destruct G as [d [R D]]. exists d. split; [exact R|]. pose proof (i_close _ _ _ s I 0 S) as C. rewrite H0 in C. cbn [length] in C.
      destruct D as [D|[L [A T]]].
      + rewrite D. destruct (reach_outside _ _ _ R C) as [K|[L T]]; [left; apply leftover_clean, K|]. right. split; [exact L|]. destruct (clean_top d T). auto.
      + right. split; [exact L|]. destruct (clean_top _ T) as [T1 A1]. split; [eapply alike_trans; eauto|exact T1].
    - destruct G as [d [l [R [A T]]]]. exists d, l. split; [exact R|]. destruct (clean_top _ T) as [T1 A1]. split; [eapply alike_trans; eauto|exact T1].
  Qed.
  Lemma others_idle s q : around s -> q <> 0 -> p_held (procs s q) <> [] -> (exists o e, In o (p_held (procs s q)) /\ In (o, e) (table s)) -> p_held (procs s 0) = [].
  Proof.
    intros A N Hq [o [e [Ho He]]]. destruct (p_held (procs s 0)) as [|h hs] eqn:H0; [reflexivity|]. exfalso. assert (Hh : In h (p_held (procs s 0))) by (rewrite H0; left; reflexivity).
    pose proof (a_excl s A h Hh) as X. pose proof (i_excl _ _ _ s (a_inv s A) h X) as Y. rewrite Y in He. destruct He as [He|[]]. injection He as -> _.
    apply N. exact (i_owner _ _ _ s (a_inv s A) q 0 o Ho Hh).
  Qed.
  Lemma around_step c s : around s -> around (step act c s).
  Proof.
    intro A. pose proof (step_inv _ _ _ act c s (a_inv s A)) as I'. pose proof (a_inv s A) as I. destruct A as [_ Ex Ot Go]. pose proof (Around s I Ex Ot Go) as A.
    destruct c as [p|p]; cbn [LockModel.step] in *.
    2:{ destruct (p_status (procs s p)) eqn:S; auto. destruct (Nat.eq_dec p 0) as [->|Np].
        - constructor; [exact I'| | |].
          + unfold leave. cbn [procs]. rewrite upd_same. intros o [].
          + intros q Nq. unfold leave. cbn [procs]. rewrite upd_other by auto. apply Ot, Nq.
          + unfold goes, leave. cbn [procs]. rewrite upd_same. cbn [p_status]. exact Logic.I.
        - constructor; [exact I'| | |].
          + unfold leave. cbn [procs table]. rewrite upd_other by auto. apply (others_excl s p); auto.
          + intros q Nq. unfold leave. cbn [procs]. destruct (Nat.eq_dec q p) as [->|Nqp]; [rewrite upd_same; cbn; discriminate|]. rewrite upd_other by auto. apply Ot, Nq.
          + apply (goes_ext s); [unfold leave; cbn [procs]; apply upd_other; auto|reflexivity|exact Go]. }
    destruct (p_status (procs s p)) eqn:S; auto. destruct (Nat.eq_dec p 0) as [->|Np].
    - (* the installing process *)
      unfold goes in Go. rewrite S in Go. destruct Go as [d [R D]].
      assert (Oth : forall x tb fr (dd : world) q, q <> 0 -> p_status (procs (State (upd action local (procs s) 0 x) tb fr dd) q) = Running ->
        (exists k, [Lock false; Act ILoad; Unlock] = k ++ p_todo (procs (State (upd action local (procs s) 0 x) tb fr dd) q)) /\
        (forall a t, p_todo (procs (State (upd action local (procs s) 0 x) tb fr dd) q) = Act a :: t -> a = ILoad /\ p_held (procs (State (upd action local (procs s) 0 x) tb fr dd) q) <> [])).
      { intros x tb fr dd q Nq. cbn [procs]. rewrite upd_other by auto. apply Ot, Nq. }
      destruct (p_todo (procs s 0)) as [|[e| |a] t] eqn:T.
      + constructor; [exact I'| |intros q; apply Oth|].
        * cbn [procs table]. rewrite upd_same. exact Ex.
        * unfold goes. cbn [procs]. rewrite upd_same. cbn [p_status data]. exists d, (p_loc (procs s 0)). split; [exact R|].
          destruct D as [D|[_ [D1 D2]]]; [|split; assumption]. rewrite D. split; [apply alike_refl|].
          destruct (reach_phase w _ _ _ Tw Nw R) as [[h [_ [Q _]]]|[[Q _]|[_ K]]]; [exfalso; destruct h; discriminate Q|discriminate Q|exact K].
      + pose proof (reach_lock _ _ _ _ R) as ->. destruct (compatible true (table s)).
        * constructor; [exact I'| |intros q; apply Oth|].
          -- cbn [procs table]. rewrite upd_same. cbn [p_held]. intros o [<-|Ho]; [left; reflexivity|right; apply Ex, Ho].
          -- unfold goes. cbn [procs]. rewrite upd_same. cbn [p_status p_todo p_loc data]. exists d. split; [eapply r_lock; exact R|].
             destruct D as [D|[[L|L] _]]; [left; exact D|discriminate L|discriminate L].
        * constructor; [exact I'| |intros q; unfold leave; apply Oth|].
          -- unfold leave. cbn [procs]. rewrite upd_same. intros o [].
          -- unfold goes, leave. cbn [procs]. rewrite upd_same. exact Logic.I.
      + destruct (p_held (procs s 0)) as [|h hs] eqn:Hh; [exact A|]. constructor; [exact I'| |intros q; apply Oth|].
        * cbn [procs table]. rewrite upd_same. cbn [p_held]. intros o Ho. apply release_In. split; [apply Ex; right; exact Ho|]. intros [<-|[]].
          pose proof (i_once _ _ _ s I 0) as ND. rewrite Hh in ND. inversion ND; subst. contradiction.
        * unfold goes. cbn [procs]. rewrite upd_same. cbn [p_status p_todo p_loc data]. exists d. split; [eapply r_unlock; exact R|].
          destruct D as [D|[[L|L] _]]; [left; exact D|discriminate L|discriminate L].
      + destruct (act a (p_loc (procs s 0)) (data s)) as [[l|] d'] eqn:E.
        * constructor; [exact I'| |intros q; apply Oth|].
          -- cbn [procs table]. rewrite upd_same. cbn [p_held]. exact Ex.
          -- unfold goes. cbn [procs]. rewrite upd_same. cbn [p_status p_todo p_loc data]. destruct D as [D|[L [D1 D2]]].
             ++ exists d'. split; [|left; reflexivity]. rewrite D in E. eapply r_act; eauto.
             ++ destruct (late_alike_act a t _ d l d' (data s) L E D1 D2) as [Tn [e [E2 [A2 T2]]]]. exists e. split; [eapply r_act; eauto|]. right. subst t. split; [right; reflexivity|auto].
        * constructor; [exact I'| |intros q; unfold leave; apply Oth|].
          -- unfold leave. cbn [procs]. rewrite upd_same. intros o [].
          -- unfold goes, leave. cbn [procs]. rewrite upd_same. exact Logic.I.
    - (* another process *)
      destruct (Ot p Np S) as [[k Q] Hd]. destruct (p_todo (procs s p)) as [|[e| |a] t] eqn:T.
      + constructor; [exact I'| | |].
        * cbn [procs table]. rewrite upd_other by auto. exact Ex.
        * intros q Nq. cbn [procs]. destruct (Nat.eq_dec q p) as [->|Nqp]; [rewrite upd_same; cbn; discriminate|]. rewrite upd_other by auto. apply Ot, Nq.
        * apply (goes_ext s); [cbn [procs]; apply upd_other; auto|reflexivity|exact Go].
      + destruct (compatible e (table s)).
        * constructor; [exact I'| | |].
          -- cbn [procs table]. rewrite upd_other by auto. intros o Ho. right. apply Ex, Ho.
          -- intros q Nq. cbn [procs]. destruct (Nat.eq_dec q p) as [->|Nqp]; [|rewrite upd_other by auto; apply Ot, Nq]. rewrite upd_same. cbn [p_status p_todo p_held]. intros _.
             split; [exists (k ++ [Lock e]); rewrite <- app_assoc; exact Q|]. intros a0 t0 Z. subst t. split; [|discriminate].
             destruct k as [|k0 [|k1 [|k2 k]]]; cbn in Q; inversion Q; [reflexivity|]. exfalso. match goal with H : [] = _ ++ _ :: _ |- _ => exact (app_cons_not_nil _ _ _ H) end.
          -- apply (goes_ext s); [cbn [procs]; apply upd_other; auto|reflexivity|exact Go].
        * constructor; [exact I'| | |].
          -- unfold leave. cbn [procs table]. rewrite upd_other by auto. apply (others_excl s p); auto.
          -- intros q Nq. unfold leave. cbn [procs]. destruct (Nat.eq_dec q p) as [->|Nqp]; [rewrite upd_same; cbn; discriminate|]. rewrite upd_other by auto. apply Ot, Nq.
          -- apply (goes_ext s); [unfold leave; cbn [procs]; apply upd_other; auto|reflexivity|exact Go].
      + destruct (p_held (procs s p)) as [|h hs] eqn:Hh; [exact A|]. constructor; [exact I'| | |].
        * cbn [procs table]. rewrite upd_other by auto. apply (others_excl s p); auto. intros h' [<-|[]]. rewrite Hh. left. reflexivity.
        * intros q Nq. cbn [procs]. destruct (Nat.eq_dec q p) as [->|Nqp]; [|rewrite upd_other by auto; apply Ot, Nq]. rewrite upd_same. cbn [p_status p_todo p_held]. intros _.
          split; [exists (k ++ [Unlock]); rewrite <- app_assoc; exact Q|]. intros a0 t0 Z. subst t. exfalso.
          destruct k as [|k0 [|k1 [|k2 k]]]; cbn in Q; inversion Q. match goal with H : [] = _ ++ _ :: _ |- _ => exact (app_cons_not_nil _ _ _ H) end.
        * apply (goes_ext s); [cbn [procs]; apply upd_other; auto|reflexivity|exact Go].
      + destruct (Hd a t eq_refl) as [-> Hne].
        assert (H0 : p_held (procs s 0) = []).
        { apply (others_idle s p A Np Hne). destruct (p_held (procs s p)) as [|h hs] eqn:Hh; [congruence|]. destruct (i_held _ _ _ s I p h) as [e Z]; [rewrite Hh; left; reflexivity|].
          exists h, e. split; [left; reflexivity|exact Z]. }
        assert (D : snd (act ILoad (p_loc (procs s p)) (data s)) = clean (data s)) by (cbn [ConcModel.act]; destruct (load junk (w_db (data s))); reflexivity).
        destruct (act ILoad (p_loc (procs s p)) (data s)) as [[l|] d'] eqn:E; cbn [snd] in D; subst d'.
        * constructor; [exact I'| | |].
          -- cbn [procs table]. rewrite upd_other by auto. exact Ex.
          -- intros q Nq. cbn [procs]. destruct (Nat.eq_dec q p) as [->|Nqp]; [|rewrite upd_other by auto; apply Ot, Nq]. rewrite upd_same. cbn [p_status p_todo p_held]. intros _.
             split; [exists (k ++ [Act ILoad]); rewrite <- app_assoc; exact Q|]. intros a0 t0 Z. subst t. exfalso.
             destruct k as [|k0 [|k1 [|k2 k]]]; cbn in Q; inversion Q. match goal with H : [] = _ ++ _ :: _ |- _ => exact (app_cons_not_nil _ _ _ H) end.
          -- apply (goes_clean s); [exact I|cbn [procs]; apply upd_other; auto|exact H0|reflexivity|exact Go].
        * constructor; [exact I'| | |].
          -- unfold leave. cbn [procs table]. rewrite upd_other by auto. apply (others_excl s p); auto.
          -- intros q Nq. unfold leave. cbn [procs]. destruct (Nat.eq_dec q p) as [->|Nqp]; [rewrite upd_same; cbn; discriminate|]. rewrite upd_other by auto. apply Ot, Nq.
          -- apply (goes_clean s); [exact I|unfold leave; cbn [procs]; apply upd_other; auto|exact H0|reflexivity|exact Go].
  Qed.
  Lemma around_initial : around (initial prog (fun _ => Fresh) w).
  Proof.
    constructor; [apply initial_inv| | |].
    - intros o [].
    - intros q Nq _. cbn [initial procs p_todo p_held]. destruct (Pq q Nq) as [->| ->]; cbn.
      + split; [exists []; reflexivity|]. discriminate.
      + split; [exists [Lock false; Act ILoad; Unlock]; reflexivity|]. discriminate.
    - unfold goes. cbn [initial procs p_status p_todo p_loc data]. rewrite P0. exists w. split; [constructor|left; reflexivity].
  Qed.
  Lemma around_run cs : forall s, around s -> around (run act cs s).
  Proof. induction cs as [|c cs IH]; intros s A; [exact A|]. cbn. apply IH, around_step, A. Qed.
  (** an install without scripts among any number of queries that take the shared lock, any schedule: when the install finishes, the
      database is exactly what it is after the install alone, and so is every file except the metadata files at the top *)
  Theorem C55_locked_queries_partial cs :
    let s := run act cs (initial prog (fun _ => Fresh) w) in
    let alone := session junk machine re sh root (Add (j_opts j) (j_dep j) (j_conf j) (j_arch j)) w in
    p_status (procs s 0) = Finished ->
    fst alone = None /\ w_db (data s) = w_db (snd alone) /\
    forall q, ~ In q meta_comps -> q <> comps root ++ [L ".PRE"] -> q <> comps root ++ [L ".POST"] -> fget (w_fs (data s)) q = fget (w_fs (snd alone)) q.
  Proof.
    intros s al Fi. pose proof (a_goes s (around_run cs _ around_initial)) as G. unfold goes in G. rewrite Fi in G. destruct G as [d [l [R [[A1 A2] _]]]].
    pose proof (reach_alone w [] l d R) as E. rewrite acts_prog in E. cbn [acts flat_map ConcModel.alone] in E.
    pose proof (C15_alone_is_session junk machine re sh root j w) as S. rewrite E in S. unfold seen, seen' in S. cbn [fst snd] in S. fold al in S.
    assert (S1 : fst al = None) by (destruct (fst al); [discriminate S|reflexivity]). assert (S2 : d = snd al) by (injection S; auto). split; [exact S1|]. rewrite <- S2. split; [exact A1|exact A2].
  Qed.
End Shared.
(** the hypotheses hold: an install of foo, two queries *)
Example C55_witness :
  let prog := fun n => match n with 0 => add_prog (job_of foo) | 1 | 2 => info_prog | _ => [] end in
  let s := exe ([Run 0; Run 1; Run 1; Run 1; Run 0; Run 0; Run 2; Run 0; Run 0; Run 0; Run 0; Run 0; Run 0]) (initial prog (fun _ => Fresh) w_empty) in
  no_leftover rt (w_fs w_empty) /\ tree (w_fs w_empty) /\ p_status (procs s 0) = Finished /\ p_status (procs s 1) = Running /\ p_status (procs s 2) = Failed.
Proof.
  cbv zeta. split; [|split; [apply treeb_tree; vm_compute; reflexivity|split; [|split]; vm_compute; reflexivity]].
  intros m H. cbn in H. repeat (destruct H as [<-|H]; [vm_compute; reflexivity|]). destruct H.
Qed.
