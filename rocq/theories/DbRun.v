(** Decomposition of a successful run, and what each phase does to the database. *)
From Verif Require Import Base BaseProofs StrModel StrSpec StrProofs RulesModel FsModel FsSpec FsProofs FsOps FsExtract
  MetaModel MetaSpec MetaProofs DbModel DbLoad DbOps.

Section Run.
  Variables (junk : bool) (machine : str) (re : str -> str -> option bool) (sh : str -> fs -> fs * bool) (root : str).

  Definition phase_conflicts (o : opts) rules name ins (w1 : world) (m : mem) (w2 : world) (m2 : mem) : Prop :=
    let cf := conflicts root name ins (w_fs w1) (m_pkgs m) in
    (cf = [] /\ w2 = w1 /\ m2 = m) \/
    (cf <> [] /\ o_force o = true /\ exists kl0, (if o_upgrade o then get_keep_list re rules cf else Some []) = Some kl0 /\
       strip_refs root cf kl0 (w1, m) = (w2, m2)).
  Definition phase_upgrade (o : opts) rules name ins (w2 : world) (m2 : mem) kl (w3 : world) (m3 : mem) : Prop :=
    (o_upgrade o = false /\ kl = [] /\ w3 = w2 /\ m3 = m2) \/
    (o_upgrade o = true /\ get_keep_list re rules ins = Some kl /\
       remove_refs junk name (remove_files root name kl (w2, mark_auto junk name m2)) = Some (w3, m3)).

  Lemma add_run_ret o conf a w m name w' m' : add_run junk machine re sh root o conf a w m = Ret name w' m' ->
    exists info rules ins non post w1 w2 m2 kl w3 m3 w5 m5,
      open_archive junk machine root a = Ok (name, info) /\ read_rules_file conf = inl rules /\
      name_exists m name = o_upgrade o /\
      apply_install_rules re rules (r_files info) = Some (ins, non, post) /\
      (if o_scripts o then pre_run sh root a w else inr w) = inr w1 /\
      phase_conflicts o rules name ins w1 m w2 m2 /\
      phase_upgrade o rules name ins w2 m2 kl w3 m3 /\
      move_meta root name (World (install_archive root a kl non (w_fs w3)) (w_db w3), m3) = Ok (w5, m5) /\
      w' = post_run sh root (o_scripts o) (fst (add_files_refs name (with_files ins info) (w5, m5))) /\
      m' = snd (add_files_refs name (with_files ins info) (w5, m5)).
  Proof.
    unfold add_run. intro E.
    destruct (open_archive junk machine root a) as [[nm info]| |] eqn:Eo; [|discriminate|discriminate].
    destruct (read_rules_file conf) as [rules|] eqn:Err; [|discriminate].
    destruct (name_exists m nm && negb (o_upgrade o)) eqn:B1; [discriminate|].
    destruct (negb (name_exists m nm) && o_upgrade o) eqn:B2; [discriminate|].
    assert (B : name_exists m nm = o_upgrade o) by (destruct (name_exists m nm), (o_upgrade o); cbn in *; congruence).
    destruct (apply_install_rules re rules (r_files info)) as [[[ins non] post]|] eqn:Ei; [|discriminate].
    destruct (if o_scripts o then pre_run sh root a w else inr w) as [w1|w1] eqn:Ep; [discriminate|].
    set (cf := conflicts root nm ins (w_fs w1) (m_pkgs m)) in *.
    match type of E with (match ?x with _ => _ end) = _ => destruct x as [e|[w2 m2]] eqn:Ec; [discriminate|] end.
    match type of E with (match ?x with _ => _ end) = _ => destruct x as [[e w3]|[[w3 m3] kl]] eqn:Eu; [discriminate|] end.
    destruct (move_meta root nm (World (install_archive root a kl non (w_fs w3)) (w_db w3), m3)) as [[w5 m5]| |] eqn:Em; [|discriminate|discriminate].
    assert (En : nm = name) by (unfold add_files_refs in E; inversion E; reflexivity). subst nm.
    exists info, rules, ins, non, post, w1, w2, m2, kl, w3, m3, w5, m5.
    split; [reflexivity|]. split; [reflexivity|]. split; [exact B|]. split; [exact Ei|]. split; [first [exact Ep|reflexivity]|].
    split; [|split; [|split; [exact Em|]]].
    - unfold phase_conflicts. fold cf. destruct cf as [|c cf'] eqn:Ecf; [left; inversion Ec; auto|]. right.
      split; [discriminate|]. destruct (o_force o); [|discriminate]. split; auto.
      destruct (if o_upgrade o then get_keep_list re rules (c :: cf') else Some []) as [kl0|]; [|discriminate].
      exists kl0. split; auto. inversion Ec; reflexivity.
    - unfold phase_upgrade. destruct (o_upgrade o); [|left; inversion Eu; auto]. right. split; auto.
      destruct (get_keep_list re rules ins) as [k|]; [|discriminate].
      destruct (remove_refs junk name (remove_files root name k (w2, mark_auto junk name m2))) as [wm|] eqn:Er; [|discriminate].
      inversion Eu; subst. split; auto.
    - unfold add_files_refs in *. inversion E. auto.
  Qed.

  (** *** what the phases do to the database on disk *)
  Lemma pre_run_db a w w1 : pre_run sh root a w = inr w1 \/ pre_run sh root a w = inl w1 -> w_db w1 = w_db w.
  Proof.
    unfold pre_run. destruct (member a (L ".PRE")) as [n|].
    - destruct (extract (w_fs w) (pre_path root) n) as [[|] g].
      + destruct (exists_file g (pre_path root)); [|intros [H|H]; inversion H; auto].
        destruct (sh (pre_path root) g) as [g' [|]]; intros [H|H]; inversion H; auto.
      + intros [H|H]; inversion H; auto.
    - destruct (exists_file (w_fs w) (pre_path root)); [|intros [H|H]; inversion H; auto].
      destruct (sh (pre_path root) (w_fs w)) as [g' [|]]; intros [H|H]; inversion H; auto.
  Qed.
  Lemma strip_refs_parts files keep w m w2 m2 : strip_refs root files keep (w, m) = (w2, m2) ->
    w_fs w2 = del_files root (sminus files keep) (w_fs w) /\
    w_db w2 = w_db (fst (fold_left (strip_one files) (m_pkgs m) (w, m))) /\
    m2 = snd (fold_left (strip_one files) (m_pkgs m) (w, m)).
  Proof.
    unfold strip_refs. cbn [snd]. pose proof (strip_fold_fs files (m_pkgs m) (w, m)) as F.
    destruct (fold_left (strip_one files) (m_pkgs m) (w, m)) as [wx mx]. cbn in F. intro E. inversion E; subst. cbn. rewrite F. auto.
  Qed.
  Lemma move_one_db name x w n : n <> name -> mget n (w_db (move_one root name x w)) = mget n (w_db w).
  Proof.
    intro N. unfold move_one. destruct (fget (w_fs w) (comps (root ++ x))); auto. cbn. unfold put_file. rewrite mget_mset.
    rewrite (proj2 (seqb_neq n name)) by auto. reflexivity.
  Qed.
  Lemma move_fold_db name xs n : n <> name -> forall w, mget n (w_db (fold_left (fun w x => move_one root name x w) xs w)) = mget n (w_db w).
  Proof. intro N. induction xs as [|x xs IH]; intro w; cbn; auto. rewrite IH. apply move_one_db, N. Qed.
  Lemma move_meta_db name w m w' m' n : move_meta root name (w, m) = Ok (w', m') -> n <> name -> mget n (w_db w') = mget n (w_db w).
  Proof.
    unfold move_meta. intros E N. destruct (fget _ (comps (root ++ L ".META"))) as [nd|]; [|discriminate].
    destruct (is_dir nd); [discriminate|]. destruct (parse_set (n_data nd)) as [ls|]; [|discriminate].
    cbv zeta in E. match type of E with context [fold_left ?g ?l ?w0] => set (wf := fold_left g l w0) in E end.
    assert (H : mget n (w_db wf) = mget n (w_db w)) by (unfold wf; rewrite move_fold_db; auto). clearbody wf.
    destruct (m_dep m); inversion E; subst; clear E; [cbn; unfold put_file; rewrite mget_mset, (proj2 (seqb_neq n name)) by auto|]; exact H.
  Qed.
  Lemma post_run_db s w : w_db (post_run sh root s w) = w_db w. Proof. reflexivity. Qed.
End Run.
