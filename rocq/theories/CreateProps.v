(** C66-C68: what 'cards create' does to the database and to the files. *)
From Verif Require Import Base BaseProofs StrModel StrSpec StrProofs RulesModel RulesSpec RulesProofs FsModel FsSpec FsProofs FsOps FsExtract
  MetaModel MetaSpec MetaProofs DbModel DbSpec DbLoad DbOps DbRun DbInv EngineFs EngineRoot DbFacts DbProps DbExamples RemoveProps RemoveCmdProofs CreateModel.

Section CreateInv.
  Variables (junk : bool) (machine : str) (re : str -> str -> option bool) (sh : str -> fs -> fs * bool) (root : str).
  Notation create_run := (create_run junk machine re sh root).
  (** [fine], where the memory matters only when metadata is written *)
  Definition cfine {A} (meta : bool) (r : out A) : Prop :=
    inv (w_db (world_of r)) /\ (forall m, mem_of r = Some m -> meta = true -> agree (w_db (world_of r)) m).
  Lemma cfine_stop {A} meta e w : inv (w_db w) -> @cfine A meta (Stop e w).
  Proof. intro H. split; [exact H|]. discriminate. Qed.
  Lemma inv_mdel n (d : disk) : inv d -> inv (mdel n d).
  Proof. intros [I1 I2]. split; [apply db_ok_mdel, I1|]. eapply no_share_sub; [|exact I2]. intros k x H. apply lists_mdel in H. tauto. Qed.

  Lemma refs_files_agree_but name keep (w : world) m w' m' : db_ok (w_db w) -> agree_but name (w_db w) m ->
    remove_refs junk name (w, m) = Some (w', m') ->
    let wm := remove_files root name keep (w', m') in agree_but name (w_db (fst wm)) (snd wm) /\ w_db (fst wm) = mdel name (w_db w) /\ mget name (m_pkgs (snd wm)) = None.
  Proof.
    intros OK [Ss AG] R. cbv zeta. pose proof (remove_refs_disk junk name w m w' m' OK R) as [_ [D _]].
    assert (P : forall n, n <> name -> mget n (m_pkgs m') = mget n (m_pkgs m)).
    { intros n N. unfold remove_refs in R. destruct (mget name (w_db w)); [|discriminate R]. injection R as <- <-. cbn [m_pkgs].
      destruct (mget name (m_pkgs m)); [reflexivity|]. rewrite mget_mset, (proj2 (seqb_neq n name)) by exact N. reflexivity. }
    assert (Q : ssorted (keys (m_pkgs m'))).
    { unfold remove_refs in R. destruct (mget name (w_db w)); [|discriminate R]. injection R as <- <-. cbn [m_pkgs].
      destruct (mget name (m_pkgs m)); [exact Ss|]. apply mset_keys_sorted, Ss. }
    unfold remove_files. cbn [fst snd w_db m_pkgs]. split; [split|].
    - cbn [m_pkgs]. apply mdel_keys_sorted, Q.
    - intros n N. cbn [m_pkgs]. rewrite D, !mget_mdel, (proj2 (seqb_neq n name)) by exact N. rewrite P by exact N. apply AG, N.
    - split; [exact D|]. rewrite mget_mdel, seqb_refl. reflexivity.
  Qed.

  Lemma create_fine meta upgrade rules a w m : inv (w_db w) -> (meta = true -> agree (w_db w) m) -> named junk machine root a ->
    cfine meta (create_run meta upgrade rules a w m).
  Proof.
    intros IV AG NM. unfold CreateModel.create_run.
    destruct (open_archive junk machine root a) as [[name info]| |] eqn:Eo; [|apply cfine_stop, IV|apply cfine_stop, IV].
    specialize (NM name info Eo).
    destruct (apply_install_rules re rules (r_files info)) as [[[ins non] post]|] eqn:Ei; [|apply cfine_stop, IV].
    assert (FO : files_ok ins) by (eapply ins_files_ok; eauto; eapply archive_files_ok; eauto).
    destruct (pre_run sh root a w) as [w1|w1] eqn:Ep.
    { apply cfine_stop. rewrite (pre_run_db sh root a w w1) by auto. exact IV. }
    assert (D1 : w_db w1 = w_db w) by (eapply pre_run_db; eauto).
    destruct (conflicts root name ins (w_fs w1) (m_pkgs m)) as [|c cf] eqn:Ec; [|apply cfine_stop; rewrite D1; exact IV].
    assert (P3 : forall w3 m3 kl, (if upgrade then
             match remove_refs junk name (w1, mark_auto junk name m) with
             | None => inl (Exception, w1)
             | Some wm => match get_keep_list re rules ins with
                          | None => inl (BadRules, fst wm)
                          | Some kl => inr (remove_files root name kl wm, kl)
                          end
             end
           else inr ((w1, m), [])) = inr (w3, m3, kl) ->
        inv (w_db w3) /\ (forall n x, lists (w_db w3) n x -> lists (w_db w) n x) /\ (meta = true -> agree_but name (w_db w3) m3)).
    { intros w3 m3 kl E. destruct upgrade.
      - destruct (remove_refs junk name (w1, mark_auto junk name m)) as [[wx mx]|] eqn:R; [|discriminate E].
        destruct (get_keep_list re rules ins) as [k|]; [|discriminate E]. injection E as E1 E2 _.
        assert (OK1 : db_ok (w_db w1)) by (rewrite D1; apply IV).
        pose proof (remove_refs_disk junk name _ _ _ _ OK1 R) as [_ [D _]].
        assert (D3 : w_db w3 = mdel name (w_db w)) by (rewrite <- E1; cbn [w_db]; rewrite D, D1; reflexivity).
        rewrite D3. split; [apply inv_mdel, IV|]. split; [intros n x H; apply lists_mdel in H; tauto|].
        intro Me. specialize (AG Me). assert (AB : agree_but name (w_db w1) (mark_auto junk name m)).
        { destruct AG as [Ss A]. split; [apply mark_auto_sorted, Ss|]. intros n N. rewrite mark_auto_other by exact N. rewrite D1. apply A. }
        destruct (refs_files_agree_but name k w1 _ wx mx OK1 AB R) as [H [H' _]].
        unfold remove_files in H. cbn [fst snd] in H. rewrite E1, E2 in H. rewrite <- E1 in H. cbn [w_db] in H. rewrite D, D1 in H. exact H.
      - injection E as <- <- _. rewrite D1. split; [exact IV|]. split; [auto|]. intro Me. destruct (AG Me) as [Ss A]. split; [exact Ss|]. intros n _. apply A. }
    match goal with |- context [match ?x with _ => _ end] =>
      match type of x with (stop * world + world * mem * list str)%type => destruct x as [[e w3]|[[w3 m3] kl]] eqn:Eu end end.
    { apply cfine_stop. destruct upgrade; [|discriminate Eu].
      destruct (remove_refs junk name (w1, mark_auto junk name m)) as [[wx mx]|] eqn:R; [|injection Eu as _ <-; rewrite D1; exact IV].
      destruct (get_keep_list re rules ins) as [k|]; [discriminate Eu|]. injection Eu as _ <-. cbn [fst].
      assert (OK1 : db_ok (w_db w1)) by (rewrite D1; apply IV). pose proof (remove_refs_disk junk name _ _ _ _ OK1 R) as [_ [D _]].
      rewrite D, D1. apply inv_mdel, IV. }
    destruct (P3 w3 m3 kl eq_refl) as [IV3 [L3 AG3]]. clear P3 Eu. destruct IV3 as [OK3 NS3]. destruct IV as [OK NS].
    destruct meta.
    2:{ split; [|intros ? ? Z; discriminate Z]. cbn [world_of]. rewrite post_run_db. split; assumption. }
    specialize (AG eq_refl). specialize (AG3 eq_refl).
    destruct (move_meta root name (World (install_archive root a kl non (w_fs w3)) (w_db w3), m3)) as [[w5 m5]| |] eqn:Em;
      [|apply cfine_stop; split; assumption|apply cfine_stop; split; assumption].
    assert (O5 : forall k, k <> name -> mget k (w_db w5) = mget k (w_db w3)) by (intros k Nk; apply (move_meta_db root name _ _ _ _ k Em Nk)).
    assert (E5 : entries_ok (w_db w5) name).
    { eapply move_meta_entries; [exact Em|]. intros dir G. cbn in G. apply (OK3 name dir G). }
    destruct (move_meta_mem _ _ _ _ _ _ Em) as [M5 _].
    unfold add_files_refs. split; cbn [world_of mem_of]; rewrite post_run_db; cbn [w_db with_files r_files].
    - split.
      + apply (final_ok name ins w5 (w_db w3)); auto. apply nondot_spec, NM.
      + assert (K : forall n x, n <> name -> In x ins -> lists (w_db w3) n x -> ends_slash x = true).
        { intros n x Nn I H1. destruct (ends_slash x) eqn:ES; auto. exfalso. apply L3 in H1.
          assert (Z : In x (conflicts root name ins (w_fs w1) (m_pkgs m))); [|rewrite Ec in Z; exact Z].
          apply conflicts_In. split; auto. split; auto. destruct AG as [ND AG].
          pose proof (AG n) as An. destruct (mget n (m_pkgs m)) as [r|] eqn:Gn.
          2:{ destruct H1 as [? [? [Z _]]]. congruence. }
          destruct An as [Fr [dir [Gd Gf]]]. assert (Ir : In x (r_files r)) by (apply (lists_text _ n dir _ x Gd Gf Fr), H1).
          split; [left; exists n, r; split; [apply mget_In, Gn|auto]|].
          intros r' Gr Ix. pose proof (AG name) as A0. rewrite Gr in A0. destruct A0 as [Fr' [dir' [Gd' Gf']]].
          assert (LN : lists (w_db w) name x) by (apply (lists_text _ name dir' _ x Gd' Gf' Fr'), Ix).
          specialize (NS n name x Nn H1 LN). congruence. }
        intros n1 n2 x N12 H1 H2.
        apply (final_lists name ins w5 (w_db w3) [] n1 x O5 FO) in H1. apply (final_lists name ins w5 (w_db w3) [] n2 x O5 FO) in H2.
        destruct H1 as [[-> I1]|[N1 H1]], H2 as [[-> I2]|[N2 H2]].
        * congruence.
        * apply (K n2); auto.
        * apply (K n1); auto.
        * apply (NS3 n1 n2); auto.
    - intros m' E _. inversion E; subst m'. clear E. destruct AG3 as [S3 A3]. split.
      + cbn [m_pkgs]. apply mset_keys_sorted. rewrite M5. exact S3.
      + intro n. cbn [m_pkgs]. unfold put_file. rewrite !mget_mset. destruct (seqb n name) eqn:B.
        * cbn [r_files with_files]. split; auto. eexists. split; [reflexivity|]. rewrite mget_mset, seqb_refl. reflexivity.
        * apply seqb_neq in B. rewrite M5, O5 by auto. apply A3, B.
  Qed.
  Lemma clear_fine meta names : forall w m, inv (w_db w) -> (meta = true -> agree (w_db w) m) -> cfine meta (clear junk root meta names w m).
  Proof.
    induction names as [|n t IH]; intros w m IV AG; cbn [clear]; [split; [exact IV|intros m' E; injection E as <-; exact AG]|]. destruct meta.
    - specialize (AG eq_refl). destruct (remove_refs junk n (w, m)) as [[w1 m1]|] eqn:R; [|apply cfine_stop, IV].
      pose proof (refs_files_agree_but n [] w m w1 m1 (proj1 IV) (conj (proj1 AG) (fun k _ => proj2 AG k)) R) as [[Ss A] [D Z]].
      destruct (remove_files root n [] (w1, m1)) as [w2 m2] eqn:E. cbn [fst snd] in *. apply IH.
      + rewrite D. apply inv_mdel, IV.
      + intros _. split; [exact Ss|]. intro k. destruct (str_eq_dec k n) as [->|N]; [|apply A, N]. rewrite Z, D, mget_mdel, seqb_refl. reflexivity.
    - cbn [remove_files]. apply IH; [exact IV|intro Z; discriminate Z].
  Qed.
  Definition step_archives (x : cstep) : list archive := match x with Put _ a | Made a => [a] | _ => [] end.
  Lemma step_fine meta rules x w m : Forall (named junk machine root) (step_archives x) -> inv (w_db w) -> (meta = true -> agree (w_db w) m) ->
    cfine meta (step junk machine re sh root meta rules x w m).
  Proof.
    intros F IV AG. assert (K : forall r : out str, cfine meta r -> cfine meta (match r with Ret _ w' m' => Ret tt w' m' | Stop e w' => Stop e w' end)).
    { intros [nm w' m'|e w'] [H1 H2]; (split; [exact H1|]); [exact H2|discriminate]. }
    destruct x as [|sd a|f|a]; cbn [step step_archives] in *.
    - apply clear_fine; assumption.
    - destruct (known_archive junk machine root a m); [split; [exact IV|intros m' E; injection E as <-; exact AG]|]. apply K, create_fine; [exact IV| |inversion F; assumption].
      intro Me. destruct sd; apply (AG Me).
    - split; [exact IV|]. intros m' E. injection E as <-. exact AG.
    - apply K, create_fine; [exact IV|exact AG|inversion F; assumption].
  Qed.
  Lemma steps_fine meta rules xs : Forall (fun x => Forall (named junk machine root) (step_archives x)) xs -> forall w m, inv (w_db w) -> (meta = true -> agree (w_db w) m) ->
    cfine meta (steps junk machine re sh root meta rules xs w m).
  Proof.
    induction 1 as [|x xs Hx F IH]; intros w m IV AG; cbn [steps]; [split; [exact IV|intros m' E; injection E as <-; exact AG]|].
    destruct (step_fine meta rules x w m Hx IV AG) as [H1 H2]. destruct (step junk machine re sh root meta rules x w m) as [u w' m'|e w']; [|apply cfine_stop, H1].
    apply IH; [exact H1|exact (H2 m' eq_refl)].
  Qed.
  Lemma create_session_inv meta conf xs w : Forall (fun x => Forall (named junk machine root) (step_archives x)) xs -> inv (w_db w) ->
    inv (w_db (snd (create_session junk machine re sh root meta conf xs w))).
  Proof.
    intros F IV. unfold create_session. cbn [w_db]. destruct (load junk (w_db w)) as [m| |] eqn:El; [|exact IV|exact IV].
    destruct (read_rules_file conf) as [rules|]; [|exact IV].
    assert (AG : agree (w_db w) m) by (eapply load_agree; eauto; apply IV).
    destruct (steps_fine meta rules xs F (World (cleanup_meta (w_fs w) root) (w_db w)) m IV (fun _ => AG)) as [H _].
    destruct (steps junk machine re sh root meta rules xs _ m); exact H.
  Qed.
End CreateInv.

(** ** removing several packages one after the other *)
Section Loop.
  Variable root : str.
  Hypothesis Rs : ends_slash root = true.
  Notation pkgs := (list (str * rec)).
  Definition own (n : str) (pk : pkgs) : list str := match mget n pk with Some r => r_files r | None => [] end.
  Definition doomed (n : str) (pk : pkgs) : list str := fold_left (fun a p => sminus a (r_files (snd p))) (mdel n pk) (own n pk).
  Fixpoint loop (names : list str) (pk : pkgs) (f : fs) : fs :=
    match names with [] => f | n :: t => loop t (mdel n pk) (del_files root (doomed n pk) f) end.
  Definition listed (pk : pkgs) (x : str) : Prop := exists n r, In (n, r) pk /\ In x (r_files r).
  Definition mdels (names : list str) (pk : pkgs) : pkgs := fold_left (fun p n => mdel n p) names pk.
  Lemma In_mdels names : forall pk n r, In (n, r) (mdels names pk) <-> In (n, r) pk /\ ~ In n names.
  Proof.
    unfold mdels. induction names as [|k t IH]; intros pk n r; cbn [fold_left]; [cbn; tauto|]. rewrite IH, In_mdel. cbn [In]. intuition congruence.
  Qed.
  Lemma doomed_In n (pk : pkgs) x : In x (doomed n pk) <-> In x (own n pk) /\ ~ listed (mdel n pk) x.
  Proof.
    unfold doomed. rewrite minus_refs_In. split; intros [A B]; (split; [exact A|]).
    - intros [k [r [I J]]]. exact (B k r I J).
    - intros k r I J. apply B. exists k, r. split; assumption.
  Qed.
  Lemma own_listed n (pk : pkgs) x : In x (own n pk) -> listed pk x.
  Proof. unfold own. destruct (mget n pk) as [r|] eqn:G; [|intros []]. intro I. exists n, r. split; [apply mget_In, G|exact I]. Qed.
  Lemma listed_mdel n (pk : pkgs) x : listed (mdel n pk) x -> listed pk x.
  Proof. intros [k [r [I J]]]. apply In_mdel in I as [I _]. exists k, r. split; assumption. Qed.
  Lemma listed_split n (pk : pkgs) x : NoDup (keys pk) -> listed pk x -> In x (own n pk) \/ listed (mdel n pk) x.
  Proof.
    intros ND [k [r [I J]]]. destruct (str_eq_dec k n) as [->|N].
    - left. unfold own. rewrite (In_mget n r pk ND I). exact J.
    - right. exists k, r. split; [apply In_mdel; split; assumption|exact J].
  Qed.
  Lemma listed_dec (pk : pkgs) x : {listed pk x} + {~ listed pk x}.
  Proof.
    destruct (existsb (fun p => smem x (r_files (snd p))) pk) eqn:E.
    - left. apply existsb_exists in E as [[n r] [I J]]. exists n, r. split; [exact I|]. apply smem_In, J.
    - right. intros [n [r [I J]]]. assert (Z : existsb (fun p => smem x (r_files (snd p))) pk = true); [|congruence]. apply existsb_exists. exists (n, r). split; [exact I|]. apply smem_In, J.
  Qed.
  Lemma loop_sub names : forall pk f q, fget (loop names pk f) q = fget f q \/ fget (loop names pk f) q = None.
  Proof. induction names as [|n t IH]; intros pk f q; cbn [loop]; [auto|]. destruct (IH (mdel n pk) (del_files root (doomed n pk) f) q) as [E|E]; [|auto]. rewrite E. apply del_files_sub, Rs. Qed.
  Lemma loop_tree names : forall pk f, tree f -> tree (loop names pk f).
  Proof. induction names as [|n t IH]; intros pk f T; cbn [loop]; [exact T|]. apply IH, del_files_tree, T. Qed.
  (** what is still listed in the end is not touched *)
  Lemma loop_frame names : forall pk f q, (forall x, listed pk x -> q = comps root ++ comps x -> listed (mdels names pk) x) -> fget (loop names pk f) q = fget f q.
  Proof.
    induction names as [|n t IH]; intros pk f q H; cbn [loop]; [reflexivity|]. rewrite IH.
    - apply del_files_frame; [exact Rs|]. intros x I E. apply doomed_In in I as [I J]. apply J. apply own_listed in I. specialize (H x I E). destruct H as [k [r [Ik Jk]]].
      apply In_mdels in Ik as [Ik Nk]. exists k, r. split; [|exact Jk]. apply In_mdel. split; [exact Ik|]. intros ->. apply Nk. left. reflexivity.
    - intros x I E. apply (H x (listed_mdel _ _ _ I) E).
  Qed.
  Definition spelled (f : fs) (pk : pkgs) : Prop := forall x, listed pk x -> (exists cs, plain x cs) /\ fits root f x.
  Definition sorted_files (pk : pkgs) : Prop := forall n r, In (n, r) pk -> ssorted (r_files r).
  Lemma doomed_sorted n (pk : pkgs) : sorted_files pk -> ssorted (doomed n pk).
  Proof. intro H. apply minus_refs_sorted. unfold own. destruct (mget n pk) as [r|] eqn:G; [|constructor]. apply (H n), mget_In, G. Qed.
  Lemma doomed_gone n (pk : pkgs) f x : tree f -> sorted_files pk -> spelled f pk -> In x (doomed n pk) -> let g := del_files root (doomed n pk) f in
    fget g (comps root ++ comps x) = None \/ (dir_at g (comps root ++ comps x) /\ exists q, below (comps root ++ comps x) q /\ fget g q <> None).
  Proof.
    intros T So Sp I. apply (del_files_gone root Rs); [exact T|apply doomed_sorted, So| | |exact I]; intros y Iy; apply doomed_In in Iy as [Iy _]; apply own_listed in Iy; apply (Sp y Iy).
  Qed.
  Lemma spelled_next n (pk : pkgs) f : spelled f pk -> spelled (del_files root (doomed n pk) f) (mdel n pk).
  Proof. intros Sp x I. destruct (Sp x (listed_mdel _ _ _ I)) as [P F]. split; [exact P|]. eapply fits_sub; [|exact F]. intro q. apply del_files_sub, Rs. Qed.
  Lemma sorted_next n (pk : pkgs) : sorted_files pk -> sorted_files (mdel n pk).
  Proof. intros So k r I. apply In_mdel in I as [I _]. exact (So k r I). Qed.
  Lemma keys_next n (pk : pkgs) : NoDup (keys pk) -> NoDup (keys (mdel n pk)).
  Proof. unfold mdel, keys. intro ND. induction pk as [|[k r] t IH]; [constructor|]. cbn [map fst] in ND. inversion ND as [|? ? N1 N2]; subst. cbn [filter fst]. destruct (negb (seqb n k)); [|apply IH, N2]. cbn [map fst]. constructor; [|apply IH, N2]. intro I. apply N1. apply in_map_iff in I as [e [Ee I]]. apply filter_In in I as [I _]. apply in_map_iff. exists e. split; assumption. Qed.
  (** what is no longer listed is gone or is a directory *)
  Lemma loop_gone names : forall pk f, tree f -> NoDup (keys pk) -> sorted_files pk -> spelled f pk -> forall x, listed pk x -> ~ listed (mdels names pk) x ->
    fget (loop names pk f) (comps root ++ comps x) = None \/ dir_at (loop names pk f) (comps root ++ comps x).
  Proof.
    induction names as [|n t IH]; intros pk f T ND So Sp x Lx Nx; cbn [loop]; [contradiction|].
    destruct (listed_dec (mdel n pk) x) as [Lm|Lm].
    - apply IH; [apply del_files_tree, T|apply keys_next, ND|apply sorted_next, So|apply spelled_next, Sp|exact Lm|exact Nx].
    - destruct (listed_split n pk x ND Lx) as [O|O]; [|contradiction]. assert (I : In x (doomed n pk)) by (apply doomed_In; split; assumption).
      destruct (doomed_gone n pk f x T So Sp I) as [G|[[nd [G K]] _]].
      + left. destruct (loop_sub t (mdel n pk) (del_files root (doomed n pk) f) (comps root ++ comps x)) as [E|E]; congruence.
      + destruct (loop_sub t (mdel n pk) (del_files root (doomed n pk) f) (comps root ++ comps x)) as [E|E]; [|left; exact E]. right. exists nd. split; [congruence|exact K].
  Qed.
  (** when every package lists the directories of its files, a directory that is left holds something of others *)
  Definition leaf (f : fs) (q : path) : Prop := fget f q <> None /\ forall q', below q q' -> fget f q' = None.
  Lemma deep_bound (f : fs) : exists k, forall q, fget f q <> None -> length q <= k.
  Proof.
    exists (list_max (map (fun e => length (fst e)) f)). intros q N. apply fget_In in N as [n N].
    destruct (list_max_le (map (fun e => length (fst e)) f) (list_max (map (fun e => length (fst e)) f))) as [Z _]. specialize (Z (le_n _)). rewrite Forall_forall in Z. apply Z. apply in_map_iff. exists (q, n). split; [reflexivity|exact N].
  Qed.
  Lemma leaf_below (f : fs) p : forall q, below p q -> fget f q <> None -> exists q', below p q' /\ leaf f q'.
  Proof.
    destruct (deep_bound f) as [k Bk]. assert (K : forall j q, k - length q <= j -> below p q -> fget f q <> None -> exists q', below p q' /\ leaf f q').
    { induction j as [|j IH]; intros q Lq B N.
      - exists q. split; [exact B|]. split; [exact N|]. intros q' B'. destruct (fget f q') eqn:G; [|reflexivity]. exfalso. pose proof (below_length _ _ B'). pose proof (Bk q' ltac:(congruence)). lia.
      - destruct (has_child f q) eqn:C.
        + apply has_child_spec in C as [q1 [B1 N1]]. apply (IH q1); [pose proof (below_length _ _ B1); pose proof (Bk q1 N1); lia|eapply below_trans; eassumption|exact N1].
        + exists q. split; [exact B|]. split; [exact N|]. intros q' B'. destruct (fget f q') eqn:G; [|reflexivity]. exfalso. assert (Z : has_child f q = true); [|congruence]. apply has_child_spec. exists q'. split; [exact B'|congruence]. }
    intros q B N. apply (K (k - length q) q (le_n _) B N).
  Qed.
  Section Closed.
    Variable pk0 : pkgs.
    (** every package lists those of the listed paths that are above its own *)
    Definition closed (names : list str) (pk : pkgs) : Prop := forall n r x y, In n names -> In (n, r) pk -> In y (r_files r) -> listed pk0 x -> below (comps x) (comps y) -> In x (r_files r).
    Definition dropped (pk : pkgs) (q : path) : Prop := exists y, listed pk0 y /\ ~ listed pk y /\ q = comps root ++ comps y.
    Definition cleaned (pk : pkgs) (f : fs) : Prop := forall x, listed pk0 x -> ~ listed pk x ->
      fget f (comps root ++ comps x) = None \/ exists q, below (comps root ++ comps x) q /\ fget f q <> None /\ ~ dropped pk q.
    Lemma loop_clean names : forall pk f, tree f -> NoDup (keys pk) -> sorted_files pk -> spelled f pk -> closed names pk -> (forall x, listed pk x -> listed pk0 x) -> cleaned pk f ->
      cleaned (mdels names pk) (loop names pk f).
    Proof.
      induction names as [|n t IH]; intros pk f T ND So Sp Cl Su Ce; [exact Ce|]. cbn [loop]. change (mdels (n :: t) pk) with (mdels t (mdel n pk)).
      apply IH; [apply del_files_tree, T|apply keys_next, ND|apply sorted_next, So|apply spelled_next, Sp| |intros x I; apply Su, (listed_mdel _ _ _ I)|].
      { intros k r x y Ik I J Lx B. apply In_mdel in I as [I _]. exact (Cl k r x y (or_intror Ik) I J Lx B). }
      set (g := del_files root (doomed n pk) f).
      (* names that the removed package lists are still listed before *)
      assert (Up : forall x y, listed pk0 x -> In y (doomed n pk) -> below (comps x) (comps y) -> listed pk x).
      { intros x y Lx Iy B. apply doomed_In in Iy as [Iy _]. unfold own in Iy. destruct (mget n pk) as [r|] eqn:G; [|destruct Iy]. apply mget_In in G. exists n, r. split; [exact G|]. exact (Cl n r x y (or_introl eq_refl) G Iy Lx B). }
      assert (Fr : forall q, (forall y, In y (doomed n pk) -> q <> comps root ++ comps y) -> fget g q = fget f q) by (intros q H; apply del_files_frame; assumption).
      (* a path dropped now is either dropped before or among the doomed *)
      assert (Dd : forall q, dropped (mdel n pk) q -> dropped pk q \/ exists y, In y (doomed n pk) /\ q = comps root ++ comps y).
      { intros q [y [L0 [Nl ->]]]. destruct (listed_dec pk y) as [Ly|Ly]; [|left; exists y; split; [exact L0|split; [exact Ly|reflexivity]]]. right. exists y. split; [|reflexivity]. apply doomed_In. split; [|exact Nl]. destruct (listed_split n pk y ND Ly) as [O|O]; [exact O|contradiction]. }
      (* something old that was left stays left *)
      assert (Old : forall x, listed pk0 x -> ~ listed pk x -> fget g (comps root ++ comps x) = None \/ exists q, below (comps root ++ comps x) q /\ fget g q <> None /\ ~ dropped (mdel n pk) q).
      { intros x L0 Nx. destruct (Ce x L0 Nx) as [G|[q [B [Nq Ndq]]]].
        - left. destruct (del_files_sub root Rs (doomed n pk) f (comps root ++ comps x)) as [E|E]; fold g in E; congruence.
        - right. assert (Nd : forall y, In y (doomed n pk) -> q <> comps root ++ comps y).
          { intros y Iy ->. apply below_app_inv in B. apply Nx, (Up x y L0 Iy B). }
          exists q. split; [exact B|]. split; [rewrite Fr by exact Nd; exact Nq|]. intro D. destruct (Dd q D) as [D1|[y [Iy E]]]; [exact (Ndq D1)|exact (Nd y Iy E)]. }
      intros x L0 Nx. destruct (listed_dec pk x) as [Lx|Lx]; [|apply Old; assumption].
      assert (I : In x (doomed n pk)) by (apply doomed_In; split; [destruct (listed_split n pk x ND Lx) as [O|O]; [exact O|contradiction]|exact Nx]).
      destruct (doomed_gone n pk f x T So Sp I) as [G|[_ [q0 [B0 N0]]]]; [left; exact G|]. fold g in N0. right.
      destruct (leaf_below g _ q0 B0 N0) as [q [B [Nq Lq]]].
      assert (Nd : forall y, In y (doomed n pk) -> q <> comps root ++ comps y).
      { intros y Iy ->. destruct (doomed_gone n pk f y T So Sp Iy) as [G|[_ [q1 [B1 N1]]]]; [fold g in G; contradiction|]. fold g in N1. apply N1, (Lq q1 B1). }
      exists q. split; [exact B|]. split; [exact Nq|]. intro D. destruct (Dd q D) as [[y [L1 [L2 ->]]]|[y [Iy E]]]; [|exact (Nd y Iy E)].
      destruct (Old y L1 L2) as [G|[q1 [B1 [N1 _]]]]; [contradiction|]. apply N1, (Lq q1 B1).
    Qed.
  End Closed.
End Loop.

(** ** C66: one owner per file, whatever commands are run, the build command included *)
Definition act_archives (x : act) : list archive := match x with Cmd o => op_archives o | Create _ _ xs => flat_map step_archives xs end.
Theorem C66_no_shared_file junk machine re sh root f0 xs n1 n2 x : Forall (fun o => Forall no_dot_name (act_archives o)) xs ->
  let d := w_db (performs junk machine re sh root xs (World f0 [])) in
  n1 <> n2 -> lists d n1 x -> lists d n2 x -> exists y, x = y ++ L "/".
Proof.
  intros F d N L1 L2. apply ends_slash_iff. assert (K : forall w, inv (w_db w) -> inv (w_db (performs junk machine re sh root xs w))).
  { clear d L1 L2. unfold performs. induction xs as [|a xs IH]; intros w H; [exact H|]. inversion F as [|? ? Fa Fx]; subst. cbn [fold_left]. apply IH; [exact Fx|].
    destruct a as [o|meta conf cs]; cbn [perform act_archives] in *; [apply session_inv; [apply op_no_dot, Fa|exact H]|]. apply create_session_inv; [|exact H].
    apply Forall_forall. intros c Ic. apply Forall_forall. intros a Ia. apply no_dot_named. rewrite Forall_forall in Fa. apply Fa, in_flat_map. exists c. split; assumption. }
  apply (proj2 (K (World f0 []) inv_empty) n1 n2 x); assumption.
Qed.

(** ** C67: what is cleared away before a build *)
(** the installed packages that are in one of the sets chroot and devel, and the others *)
Definition in_sets (d : disk) (n : str) : Prop := meta_has d n (L "schroot") \/ meta_has d n (L "sdevel").
Definition spared (d : disk) (n : str) : Prop := installed d n /\ in_sets d n.
Definition cleared (d : disk) (n : str) : Prop := installed d n /\ ~ in_sets d n.
(** listed by packages that are cleared away and by no other *)
Definition only_cleared (d : disk) (x : str) : Prop := (exists n, cleared d n /\ lists d n x) /\ forall n, spared d n -> ~ lists d n x.

Lemma load_sets junk (d : disk) m n r s : load junk d = Ok m -> mget n (m_pkgs m) = Some r -> (In s (r_sets r) <-> meta_has d n ("s"%char :: s)).
Proof.
  intros E G. apply load_spec in E as [_ [P _]]. apply P in G as [_ [dir [G Lp]]].
  apply load_pkg_ok in Lp as [ls [c [r0 [M [_ [Em ->]]]]]]. cbn [r_sets with_files].
  rewrite (meta_fold _ _ n (step_sets n) _ _ _ Em), ins_field_fold. cbn [start_rec with_auto with_release empty_rec r_sets]. unfold meta_has. split.
  - intros [[]|I]. destruct (mget (L "META") dir) as [t|] eqn:Mt; [|subst ls; destruct I]. unfold parse_set in M.
    destruct (parse_lines t) as [l|] eqn:Pt; [|discriminate M]. injection M as M. subst ls. rewrite set_of_In in I. exists dir, t, l. split; [exact G|]. split; [exact Mt|]. split; [exact Pt|exact I].
  - intros [dir' [c' [l [G' [Mt [Pt I]]]]]]. rewrite G in G'. injection G' as <-. rewrite Mt in M. unfold parse_set in M. rewrite Pt in M.
    injection M as <-. right. apply set_of_In, I.
Qed.
Lemma load_present junk (d : disk) m n : load junk d = Ok m -> ((exists r, mget n (m_pkgs m) = Some r) <-> installed d n).
Proof.
  intro E. split.
  - intros [r G]. apply load_spec in E as [_ [P _]]. apply P in G as [N [dir [G _]]]. split; [exact (proj1 (nondot_spec n) N)|congruence].
  - intros [N G]. apply (load_record junk d m n E); [exact (proj2 (nondot_spec n) N)|exact G].
Qed.

Section Clearing.
  Variables (junk : bool) (machine : str) (re : str -> str -> option bool) (sh : str -> fs -> fs * bool) (root : str).
  Notation build := (create_session junk machine re sh root).
  Lemma clear_loop meta names : forall w m w' m', clear junk root meta names w m = Ret tt w' m' -> NoDup names -> (forall n, In n names -> mget n (m_pkgs m) <> None) ->
    w_fs w' = loop root names (m_pkgs m) (w_fs w) /\ m_pkgs m' = mdels names (m_pkgs m) /\
    (meta = true -> (forall n x, In n names -> ~ lists (w_db w') n x) /\ forall n, ~ In n names -> mget n (w_db w') = mget n (w_db w)) /\ (meta = false -> w_db w' = w_db w).
  Proof.
    induction names as [|n t IH]; intros w m w' m' E ND H; cbn [clear] in E.
    - injection E as <- <-. split; [reflexivity|]. split; [reflexivity|]. split; [|reflexivity]. intros _. split; [intros n x []|reflexivity].
    - inversion ND as [|? ? N1 N2]; subst. assert (T : forall pk, (forall k, k <> n -> mget k pk = mget k (m_pkgs m)) -> forall k, In k t -> mget k (mdel n pk) <> None).
      { intros pk P k I. rewrite mget_mdel. destruct (seqb k n) eqn:B; [apply seqb_eq in B; subst k; contradiction|]. apply seqb_neq in B. rewrite P by exact B. apply H. right. exact I. }
      destruct meta.
      + destruct (remove_refs junk n (w, m)) as [[w1 m1]|] eqn:R; [|discriminate E].
        assert (M1 : m_pkgs m1 = m_pkgs m).
        { unfold remove_refs in R. destruct (mget n (w_db w)); [|discriminate R]. injection R as <- <-. cbn [m_pkgs]. destruct (mget n (m_pkgs m)) eqn:G; [reflexivity|]. destruct (H n (or_introl eq_refl) G). }
        apply remove_refs_shape in R as [R1 [R2 [R3 R4]]]. cbn [remove_files] in E. cbn [sminus fold_left] in E. rewrite M1, R1 in E.
        apply IH in E; [|exact N2|cbn [m_pkgs]; apply T; reflexivity]. cbn [w_fs w_db m_pkgs] in E. destruct E as [E1 [E2 [E3 _]]].
        split; [exact E1|]. split; [exact E2|]. split; [|intro Z; discriminate Z]. intros _. destruct (E3 eq_refl) as [E4 E5]. split.
        * intros k x [<-|I] Lk; [|exact (E4 k x I Lk)]. apply (R4 x). apply (lists_ext (w_db w') (w_db w1) n x (E5 n N1)), Lk.
        * intros k Nk. rewrite E5 by (intro I; apply Nk; right; exact I). apply R3. intros ->. apply Nk. left. reflexivity.
      + cbn [remove_files] in E. cbn [sminus fold_left] in E. apply IH in E; [|exact N2|cbn [m_pkgs]; apply T; reflexivity].
        cbn [w_fs w_db m_pkgs] in E. destruct E as [E1 [E2 [_ E3]]]. split; [exact E1|]. split; [exact E2|]. split; [intro Z; discriminate Z|]. intros _. apply E3. reflexivity.
  Qed.
  Lemma outside_In (d : disk) m n : load junk d = Ok m -> (In n (outside_sets m) <-> cleared d n).
  Proof.
    intro E. unfold outside_sets, cleared, in_sets. rewrite in_map_iff. split.
    - intros [[k r] [<- I]]. cbn [fst]. apply filter_In in I as [I B]. cbn [snd] in B. apply (In_mget k r _ (ssorted_NoDup _ (load_keys _ _ _ E))) in I. split; [apply (load_present junk d m k E); exists r; exact I|].
      rewrite negb_true_iff, orb_false_iff in B. destruct B as [B1 B2]. intros [Z|Z]; [apply (load_sets junk d m k r (L "chroot") E I) in Z|apply (load_sets junk d m k r (L "devel") E I) in Z]; apply smem_In in Z; congruence.
    - intros [I N]. apply (load_present junk d m n E) in I as [r G]. exists (n, r). split; [reflexivity|]. apply filter_In. split; [apply mget_In, G|]. cbn [snd]. rewrite negb_true_iff, orb_false_iff. split.
      + destruct (smem (L "chroot") (r_sets r)) eqn:B; [|reflexivity]. exfalso. apply N. left. apply smem_In in B. exact (proj1 (load_sets junk d m n r _ E G) B).
      + destruct (smem (L "devel") (r_sets r)) eqn:B; [|reflexivity]. exfalso. apply N. right. apply smem_In in B. exact (proj1 (load_sets junk d m n r _ E G) B).
  Qed.
  Lemma outside_NoDup m : NoDup (keys (m_pkgs m)) -> NoDup (outside_sets m).
  Proof.
    unfold outside_sets, keys. generalize (m_pkgs m) as pk. induction pk as [|[k r] t IH]; intro ND; [constructor|]. cbn [map fst] in ND. inversion ND as [|? ? N1 N2]; subst. cbn [filter].
    destruct (negb _); [|apply IH, N2]. cbn [map fst]. constructor; [|apply IH, N2]. intro I. apply N1. apply in_map_iff in I as [e [Ee I]]. apply filter_In in I as [I _]. apply in_map_iff. exists e. split; assumption.
  Qed.
  Lemma listed_lists (d : disk) m names x : load junk d = Ok m -> (listed (mdels names (m_pkgs m)) x <-> exists n, installed d n /\ ~ In n names /\ lists d n x).
  Proof.
    intro E. split.
    - intros [n [r [I J]]]. apply In_mdels in I as [I N]. apply (In_mget n r _ (ssorted_NoDup _ (load_keys _ _ _ E))) in I. exists n. split; [apply (load_present junk d m n E); exists r; exact I|]. split; [exact N|]. apply (load_lists junk d m n r x E I), J.
    - intros [n [I [N J]]]. apply (load_present junk d m n E) in I as [r G]. exists n, r. split; [apply In_mdels; split; [apply mget_In, G|exact N]|]. apply (load_lists junk d m n r x E G), J.
  Qed.
  Lemma clearing meta conf w w' : build meta conf [Clear] w = (None, w') -> exists m names, load junk (w_db w) = Ok m /\ NoDup names /\ (forall n, In n names <-> cleared (w_db w) n) /\
    w_fs w' = loop root names (m_pkgs m) (cleanup_meta (w_fs w) root) /\
    (meta = true -> (forall n x, In n names -> ~ lists (w_db w') n x) /\ forall n, ~ In n names -> mget n (w_db w') = mget n (w_db w)) /\ (meta = false -> w_db w' = w_db w).
  Proof.
    unfold create_session. cbn [w_db]. destruct (load junk (w_db w)) as [m| |] eqn:El; [|discriminate|discriminate]. destruct (read_rules_file conf) as [rules|]; [|discriminate].
    cbn [steps step base]. unfold base. destruct (clear junk root meta (outside_sets m) (World (cleanup_meta (w_fs w) root) (w_db w)) m) as [[] w1 m1|e w1] eqn:C; [|discriminate]. cbn [finish]. intro E. injection E as <-.
    apply clear_loop in C; [|apply outside_NoDup, ssorted_NoDup, (load_keys _ _ _ El)|].
    - exists m, (outside_sets m). cbn [w_fs w_db] in C. destruct C as [C1 [_ C2]]. split; [reflexivity|]. split; [apply outside_NoDup, ssorted_NoDup, (load_keys _ _ _ El)|]. split; [intro n; apply outside_In, El|]. split; [exact C1|exact C2].
    - intros n I. apply (outside_In (w_db w) m n El) in I as [I _]. apply (load_present junk (w_db w) m n El) in I as [r G]. congruence.
  Qed.

  (** *** the records *)
  Theorem C67_records conf w w' : build true conf [Clear] w = (None, w') ->
    (forall n, cleared (w_db w) n -> forall x, ~ lists (w_db w') n x) /\ (forall n, ~ cleared (w_db w) n -> mget n (w_db w') = mget n (w_db w)).
  Proof.
    intro E. apply clearing in E as (m & names & _ & _ & N & _ & E & _). destruct (E eq_refl) as [E1 E2]. split.
    - intros n C x. apply E1, N, C.
    - intros n C. apply E2. intro I. apply C, N, I.
  Qed.

  Hypothesis Rs : ends_slash root = true.
  (** *** no file is touched that is not listed by cleared packages alone *)
  Theorem C67_untouched meta conf w w' q : tree (w_fs w) -> build meta conf [Clear] w = (None, w') ->
    (forall x, only_cleared (w_db w) x -> ~ at_path root x q) -> ~ where_meta q -> fget (w_fs w') q = fget (w_fs w) q.
  Proof.
    intros T E H M. apply clearing in E as (m & names & El & ND & N & -> & _). rewrite (loop_frame root Rs).
    - destruct (cleanup_spec (w_fs w) root T) as [_ F1]. apply F1. intro J. apply M, meta_where, J.
    - intros x Lx Eq. apply (listed_lists _ _ names x El). destruct (listed_dec (mdels names (m_pkgs m)) x) as [Y|Y]; [apply (listed_lists _ _ names x El), Y|]. exfalso. apply (H x); [|exact Eq].
      apply (listed_lists _ _ [] x El) in Lx as [n [I [_ L1]]]. assert (Z : forall k, installed (w_db w) k -> lists (w_db w) k x -> cleared (w_db w) k).
      { intros k Ik Lk. apply N. destruct (in_dec str_eq_dec k names) as [J|J]; [exact J|]. exfalso. apply Y. apply (listed_lists _ _ names x El). exists k. split; [exact Ik|split; [exact J|exact Lk]]. }
      split; [exists n; split; [apply Z; assumption|exact L1]|]. intros k [Ik Sk] Lk. destruct (Z k Ik Lk) as [_ Nk]. exact (Nk Sk).
  Qed.
  (** in particular the files of the packages of the two sets, where both spell a common path in the same way *)
  Theorem C67_spared meta conf w w' n x : tree (w_fs w) -> build meta conf [Clear] w = (None, w') -> spared (w_db w) n -> lists (w_db w) n x ->
    (forall k y, cleared (w_db w) k -> lists (w_db w) k y -> comps y = comps x -> y = x) -> ~ where_meta (comps root ++ comps x) ->
    fget (w_fs w') (comps root ++ comps x) = fget (w_fs w) (comps root ++ comps x).
  Proof.
    intros T E Sn Ln Sp M. apply (C67_untouched meta conf w w' _ T E); [|exact M]. intros y [[k [Ck Lk]] A] Z. unfold at_path in Z. apply app_inv_head in Z. assert (y = x) by (apply (Sp k); auto). subst y. exact (A n Sn Ln).
  Qed.
  Lemma spelled_load (w : world) m : tree (w_fs w) -> load junk (w_db w) = Ok m -> (forall n x, installed (w_db w) n -> lists (w_db w) n x -> well_spelled root (w_fs w) x) ->
    spelled root (cleanup_meta (w_fs w) root) (m_pkgs m).
  Proof.
    intros T El W x Lx. apply (listed_lists _ _ [] x El) in Lx as [n [I [_ L1]]]. specialize (W n x I L1). split; [apply W|]. apply spelled_fits; assumption.
  Qed.
  (** *** what only cleared packages list is gone, or is a directory *)
  Theorem C67_gone meta conf w w' x : tree (w_fs w) -> build meta conf [Clear] w = (None, w') ->
    (forall n y, installed (w_db w) n -> lists (w_db w) n y -> well_spelled root (w_fs w) y) -> only_cleared (w_db w) x ->
    fget (w_fs w') (comps root ++ comps x) = None \/ dir_at (w_fs w') (comps root ++ comps x).
  Proof.
    intros T E W [[n [C L1]] A]. apply clearing in E as (m & names & El & ND & N & -> & _). apply (loop_gone root Rs).
    - apply cleanup_spec, T.
    - apply ssorted_NoDup, (load_keys _ _ _ El).
    - intros k r I. apply (In_mget k r _ (ssorted_NoDup _ (load_keys _ _ _ El))) in I. eapply load_files_sorted; eassumption.
    - apply spelled_load; assumption.
    - apply (listed_lists _ _ [] x El). exists n. split; [apply C|]. split; [intros []|exact L1].
    - intro Y. apply (listed_lists _ _ names x El) in Y as [k [Ik [Jk Lk]]]. apply (A k); [|exact Lk]. split; [exact Ik|]. destruct (load_record junk (w_db w) m k El) as [r G]; [apply nondot_spec, Ik|apply Ik|].
      destruct (smem (L "chroot") (r_sets r)) eqn:B1; [left; apply smem_In in B1; exact (proj1 (load_sets junk _ m k r _ El G) B1)|].
      destruct (smem (L "devel") (r_sets r)) eqn:B2; [right; apply smem_In in B2; exact (proj1 (load_sets junk _ m k r _ El G) B2)|].
      exfalso. apply Jk, N. split; [exact Ik|]. intros [Z|Z]; [apply (load_sets junk _ m k r (L "chroot") El G) in Z|apply (load_sets junk _ m k r (L "devel") El G) in Z]; apply smem_In in Z; congruence.
  Qed.
  (** *** when the cleared packages list the directories of their files, a directory that stays holds something else *)
  Theorem C67_emptied meta conf w w' x : tree (w_fs w) -> build meta conf [Clear] w = (None, w') ->
    (forall n y, installed (w_db w) n -> lists (w_db w) n y -> well_spelled root (w_fs w) y) ->
    (forall n k y z, cleared (w_db w) n -> lists (w_db w) n y -> installed (w_db w) k -> lists (w_db w) k z -> below (comps z) (comps y) -> lists (w_db w) n z) ->
    only_cleared (w_db w) x ->
    fget (w_fs w') (comps root ++ comps x) = None \/
    exists q, below (comps root ++ comps x) q /\ fget (w_fs w') q <> None /\ forall y, only_cleared (w_db w) y -> ~ at_path root y q.
  Proof.
    intros T E W Cl [[n [C L1]] A]. apply clearing in E as (m & names & El & ND & N & -> & _).
    assert (Dec : forall k, installed (w_db w) k -> ~ In k names -> spared (w_db w) k).
    { intros k Ik Jk. split; [exact Ik|]. destruct (load_record junk (w_db w) m k El) as [r G]; [apply nondot_spec, Ik|apply Ik|].
      destruct (smem (L "chroot") (r_sets r)) eqn:B1; [left; apply smem_In in B1; exact (proj1 (load_sets junk _ m k r _ El G) B1)|].
      destruct (smem (L "devel") (r_sets r)) eqn:B2; [right; apply smem_In in B2; exact (proj1 (load_sets junk _ m k r _ El G) B2)|].
      exfalso. apply Jk, N. split; [exact Ik|]. intros [Z|Z]; [apply (load_sets junk _ m k r (L "chroot") El G) in Z|apply (load_sets junk _ m k r (L "devel") El G) in Z]; apply smem_In in Z; congruence. }
    assert (P0 : forall y, only_cleared (w_db w) y -> listed (m_pkgs m) y /\ ~ listed (mdels names (m_pkgs m)) y).
    { intros y [[k [Ck Lk]] Ak]. split; [apply (listed_lists _ _ [] y El); exists k; split; [apply Ck|split; [intros []|exact Lk]]|]. intro Y. apply (listed_lists _ _ names y El) in Y as [j [Ij [Jj Lj]]]. exact (Ak j (Dec j Ij Jj) Lj). }
    pose proof (loop_clean root Rs (m_pkgs m) names (m_pkgs m) (cleanup_meta (w_fs w) root)) as K.
    assert (Ce : cleaned root (m_pkgs m) (mdels names (m_pkgs m)) (loop root names (m_pkgs m) (cleanup_meta (w_fs w) root))).
    { apply K; [apply cleanup_spec, T|apply ssorted_NoDup, (load_keys _ _ _ El)| |apply spelled_load; assumption| |auto|intros y Y1 Y2; contradiction].
      - intros k r I. apply (In_mget k r _ (ssorted_NoDup _ (load_keys _ _ _ El))) in I. eapply load_files_sorted; eassumption.
      - intros k r z y Jk I Iy Lz B. apply (In_mget k r _ (ssorted_NoDup _ (load_keys _ _ _ El))) in I. apply (load_lists junk _ m k r _ El I) in Iy. apply (load_lists junk _ m k r _ El I).
        apply (listed_lists _ _ [] z El) in Lz as [j [Ij [_ Lj]]]. apply N in Jk. exact (Cl k j y z Jk Iy Ij Lj B). }
    destruct (P0 x (conj (ex_intro _ n (conj C L1)) A)) as [X1 X2]. destruct (Ce x X1 X2) as [G|[q [B [Nq Nd]]]]; [left; exact G|]. right. exists q. split; [exact B|]. split; [exact Nq|].
    intros y Oy Py. apply Nd. destruct (P0 y Oy) as [Y1 Y2]. exists y. split; [exact Y1|]. split; [exact Y2|exact Py].
  Qed.
  (** *** C68: without metadata the database is not changed, as long as nothing built is already installed *)
  Lemma create_run_nometa rules a w m : w_db (world_of (create_run junk machine re sh root false false rules a w m)) = w_db w.
  Proof.
    unfold create_run. destruct (open_archive junk machine root a) as [[name info]| |]; [|reflexivity|reflexivity]. destruct (apply_install_rules re rules (r_files info)) as [[[ins non] post]|]; [|reflexivity].
    destruct (pre_run sh root a w) as [w1|w1] eqn:Ep; [eapply pre_run_db; eauto|]. assert (D1 : w_db w1 = w_db w) by (eapply pre_run_db; eauto).
    destruct (conflicts root name ins (w_fs w1) (m_pkgs m)) as [|c cf]; [|exact D1]. cbn [world_of]. rewrite post_run_db. exact D1.
  Qed.
  Lemma clear_nometa names : forall w m, w_db (world_of (clear junk root false names w m)) = w_db w.
  Proof. induction names as [|n t IH]; intros w m; cbn [clear remove_files]; [reflexivity|]. rewrite IH. reflexivity. Qed.
End Clearing.

(** ** C69: what was built is installed as 'cards install' would install it *)
Lemma mset_mset {A} k (u v : A) (m : list (str * A)) : mset k v (mset k u m) = mset k v m.
Proof.
  pose proof (sltb_irrefl k) as I.
  induction m as [|[j x] t IH]; cbn [mset].
  - rewrite I. reflexivity.
  - destruct (sltb k j) eqn:B; cbn [mset]; [rewrite I; reflexivity|]. destruct (sltb j k) eqn:B2; cbn [mset]; [rewrite B, B2, IH; reflexivity|]. rewrite I. reflexivity.
Qed.
Section AsInstall.
  Variables (junk : bool) (machine : str) (re : str -> str -> option bool) (sh : str -> fs -> fs * bool) (root : str).
  Lemma create_is_add conf rules a w m n w' m' : read_rules_file conf = inl rules ->
    let u := known_archive junk machine root a m in
    create_run junk machine re sh root true u rules a w m = Ret n w' m' <-> add_run junk machine re sh root (Opts false u true) conf a w m = Ret n w' m'.
  Proof.
    intro Er. cbv zeta. unfold create_run, add_run, known_archive. rewrite Er. destruct (open_archive junk machine root a) as [[name info]| |]; [|split; discriminate|split; discriminate].
    cbn [o_upgrade o_scripts o_force]. destruct (name_exists m name) eqn:Nx; cbn [negb andb].
    - destruct (apply_install_rules re rules (r_files info)) as [[[ins non] post]|]; [|split; discriminate]. destruct (pre_run sh root a w) as [w1|w1]; [split; discriminate|].
      destruct (conflicts root name ins (w_fs w1) (m_pkgs m)) as [|c cf]; [|split; discriminate].
      destruct (get_keep_list re rules ins) as [kl|].
      2:{ destruct (remove_refs junk name (w1, mark_auto junk name m)) as [wm|]; split; discriminate. }
      unfold remove_refs, remove_files. cbn [w_db m_pkgs w_fs m_alias m_dep]. destruct (mget name (w_db w1)) as [dir|]; [|split; discriminate]. cbn [w_db m_pkgs w_fs m_alias m_dep fst].
      assert (G : exists r, mget name (m_pkgs (mark_auto junk name m)) = Some r).
      { unfold mark_auto. destruct (mget name (m_pkgs m)) as [r|] eqn:G; [exists r; destruct (r_auto r); exact G|]. exists (empty_rec junk). cbn [m_pkgs]. rewrite mget_mset, seqb_refl. reflexivity. }
      destruct G as [r G]. rewrite !G. rewrite mget_mdel, seqb_refl.
      set (l := fold_left _ _ _). set (db := match filter _ _ with [] => _ | _ => _ end). set (w4 := World (install_archive root a kl non (del_files root l (w_fs w1))) db).
      unfold move_meta. cbn [w_fs w_db m_dep m_pkgs m_alias]. destruct (fget _ (comps (root ++ L ".META"))) as [nd|]; [|split; discriminate]. destruct (is_dir nd); [split; discriminate|]. destruct (parse_set (n_data nd)) as [ls|]; [|split; discriminate].
      cbv zeta. destruct (m_dep (mark_auto junk name m)); cbn [add_files_refs m_pkgs m_alias m_dep]; rewrite mset_mset; reflexivity.
    - destruct (apply_install_rules re rules (r_files info)) as [[[ins non] post]|]; [|split; discriminate]. destruct (pre_run sh root a w) as [w1|w1]; [split; discriminate|].
      destruct (conflicts root name ins (w_fs w1) (m_pkgs m)) as [|c cf]; [|split; discriminate]. destruct (move_meta root name _) as [[w5 m5]| |]; [reflexivity|split; discriminate|split; discriminate].
  Qed.
  (** the archives that were made: the same as one 'cards install' of them (an archive already installed is upgraded) *)
  Theorem C69_made conf rules l w w' : read_rules_file conf = inl rules ->
    create_session junk machine re sh root true conf (map Made l) w = (None, w') <-> session junk machine re sh root (Many false true conf (map (pair false) l) []) w = (None, w').
  Proof.
    intro Er. unfold create_session, session. cbn [w_db]. destruct (load junk (w_db w)) as [m| |]; [|split; discriminate|split; discriminate]. rewrite Er.
    generalize (World (cleanup_meta (w_fs w) root) (w_db w)) as w0. revert m. induction l as [|a l IH]; intros m w0; cbn [map steps run_all].
    - cbn [drop_all]. reflexivity.
    - cbn [step set_dep]. change (upgrade_flag junk machine root a m) with (known_archive junk machine root a m).
      pose proof (create_is_add conf rules a w0 m) as C. cbv zeta in C.
      destruct (create_run junk machine re sh root true (known_archive junk machine root a m) rules a w0 m) as [n1 w1 m1|e1 w1] eqn:E1.
      + rewrite (proj1 (C n1 w1 m1 Er) eq_refl). apply IH.
      + destruct (add_run junk machine re sh root (Opts false (known_archive junk machine root a m) true) conf a w0 m) as [n2 w2 m2|e2 w2] eqn:E2; [|split; discriminate].
        specialize (proj2 (C n2 w2 m2 Er) eq_refl). discriminate.
  Qed.
  (** a dependency that is not installed is added as 'pkgadd' would add it, one that is installed is left as it is *)
  Theorem C69_dependency conf rules sd a name w w' : read_rules_file conf = inl rules -> archive_name a name ->
    (known (w_db w) name -> create_session junk machine re sh root true conf [Put sd a] w = (None, w') -> w' = World (cleanup_meta (w_fs w) root) (w_db w)) /\
    (~ known (w_db w) name -> create_session junk machine re sh root true conf [Put sd a] w = (None, w') <-> session junk machine re sh root (Add (Opts false false true) sd conf a) w = (None, w')).
  Proof.
    intros Er An. unfold create_session, session. cbn [w_db]. destruct (load junk (w_db w)) as [m| |] eqn:El; [|split; [discriminate|split; discriminate]|split; [discriminate|split; discriminate]]. rewrite Er. cbn [steps step].
    assert (K : forall nm r, open_archive junk machine root a = Ok (nm, r) -> nm = name) by (intros nm r E; apply open_name in E as [E _]; exact (archive_name_unique _ _ _ E An)).
    split.
    - intro Kn. apply (name_exists_known junk _ m name El) in Kn. unfold known_archive. destruct (open_archive junk machine root a) as [[nm r]| |] eqn:Eo.
      + rewrite (K nm r eq_refl), Kn. cbn [finish]. congruence.
      + unfold create_run. rewrite Eo. discriminate.
      + unfold create_run. rewrite Eo. discriminate.
    - intro Kn. assert (F : known_archive junk machine root a m = false).
      { unfold known_archive. destruct (open_archive junk machine root a) as [[nm r]| |] eqn:Eo; [|reflexivity|reflexivity]. rewrite (K nm r eq_refl). apply not_true_iff_false. intro H. apply Kn, (name_exists_known junk _ m name El), H. }
      rewrite F. pose proof (create_is_add conf rules a (World (cleanup_meta (w_fs w) root) (w_db w)) (set_dep sd m)) as C. cbv zeta in C.
      assert (F2 : known_archive junk machine root a (set_dep sd m) = false) by (destruct sd; exact F). rewrite F2 in C.
      destruct (create_run junk machine re sh root true false rules a _ (set_dep sd m)) as [n1 w1 m1|e1 w1] eqn:E1.
      + rewrite (proj1 (C n1 w1 m1 Er) eq_refl). reflexivity.
      + destruct (add_run junk machine re sh root (Opts false false true) conf a _ (set_dep sd m)) as [n2 w2 m2|e2 w2] eqn:E2; [|split; discriminate].
        specialize (proj2 (C n2 w2 m2 Er) eq_refl). discriminate.
  Qed.

  (** ** C68: without metadata the database is left alone, as long as no package built is installed already *)
  Lemma clear_alias names : forall w m w' m', clear junk root false names w m = Ret tt w' m' -> forall k, name_exists m' k = true -> name_exists m k = true.
  Proof.
    induction names as [|n t IH]; intros w0 m0 w' m' E k Hk; cbn [clear] in E; [injection E as _ <-; exact Hk|]. cbn [remove_files] in E. specialize (IH _ _ _ _ E k Hk). unfold name_exists in *. cbn [m_alias] in IH. rewrite mget_mdel in IH. destruct (seqb k n); [discriminate IH|exact IH].
  Qed.
  Lemma alias_step rules x w m w' m' : step junk machine re sh root false rules x w m = Ret tt w' m' -> (forall a, x = Made a -> known_archive junk machine root a m = false) ->
    w_db w' = w_db w /\ (forall k, name_exists m' k = true -> name_exists m k = true).
  Proof.
    assert (Run : forall a m0 n w1 m1, create_run junk machine re sh root false false rules a w m0 = Ret n w1 m1 -> w_db w1 = w_db w /\ m_alias m1 = m_alias m0).
    { intros a m0 n w1 m1 E. split; [pose proof (create_run_nometa junk machine re sh root rules a w m0) as D; rewrite E in D; exact D|].
      unfold create_run in E. destruct (open_archive junk machine root a) as [[name info]| |]; [|discriminate E|discriminate E]. destruct (apply_install_rules re rules (r_files info)) as [[[ins non] post]|]; [|discriminate E].
      destruct (pre_run sh root a w) as [w2|w2]; [discriminate E|]. destruct (conflicts root name ins (w_fs w2) (m_pkgs m0)); [|discriminate E]. injection E as _ _ <-. reflexivity. }
    destruct x as [|sd a|f|a]; cbn [step]; intros E Mk.
    - pose proof (clear_nometa junk root (outside_sets m) w m) as D. unfold base in E. rewrite E in D. split; [exact D|]. exact (clear_alias (outside_sets m) w m w' m' E).
    - destruct (known_archive junk machine root a m); [injection E as <- <-; split; auto|]. destruct (create_run junk machine re sh root false false rules a w (set_dep sd m)) as [n w1 m1|e w1] eqn:C; [|discriminate E]. injection E as <- <-.
      apply Run in C as [C1 C2]. split; [exact C1|]. intro k. unfold name_exists. rewrite C2. destruct sd; auto.
    - injection E as <- <-. split; auto.
    - rewrite (Mk a eq_refl) in E. destruct (create_run junk machine re sh root false false rules a w m) as [n w1 m1|e w1] eqn:C; [|discriminate E]. injection E as <- <-. apply Run in C as [C1 C2]. split; [exact C1|]. intro k. unfold name_exists. rewrite C2. auto.
  Qed.
  Theorem C68_no_meta_partial conf xs w e w' : create_session junk machine re sh root false conf xs w = (e, w') ->
    (forall a name, In (Made a) xs -> archive_name a name -> ~ known (w_db w) name) -> w_db w' = w_db w.
  Proof.
    unfold create_session. cbn [w_db]. destruct (load junk (w_db w)) as [m| |] eqn:El; [|intros E _; injection E as _ <-; reflexivity|intros E _; injection E as _ <-; reflexivity].
    destruct (read_rules_file conf) as [rules|]; [|intros E _; injection E as _ <-; reflexivity]. intros E H.
    assert (S : forall xs m1 w1, (forall a name, In (Made a) xs -> archive_name a name -> ~ known (w_db w) name) -> (forall k, name_exists m1 k = true -> name_exists m k = true) -> w_db w1 = w_db w ->
      w_db (world_of (steps junk machine re sh root false rules xs w1 m1)) = w_db w).
    { clear xs E H. induction xs as [|x xs IH]; intros m1 w1 H Sub D; cbn [steps]; [exact D|].
      assert (Mk : forall a, x = Made a -> known_archive junk machine root a m1 = false).
      { intros a ->. unfold known_archive. destruct (open_archive junk machine root a) as [[nm r]| |] eqn:Eo; [|reflexivity|reflexivity]. apply not_true_iff_false. intro Nx. apply open_name in Eo as [Eo _].
        apply (H a nm (or_introl eq_refl) Eo). apply (name_exists_known junk _ m nm El), Sub, Nx. }
      destruct (step junk machine re sh root false rules x w1 m1) as [[] w2 m2|e2 w2] eqn:Es.
      - apply alias_step in Es as [Es1 Es2]; [|exact Mk]. apply IH; [intros a name I; apply H; right; exact I|intros k Hk; apply Sub, Es2, Hk|congruence].
      - cbn [world_of]. rewrite <- D. clear IH. destruct x as [|sd a|f|a]; cbn [step] in Es.
        + pose proof (clear_nometa junk root (outside_sets m1) w1 m1) as Z. unfold base in Es. rewrite Es in Z. exact Z.
        + destruct (known_archive junk machine root a m1); [discriminate Es|]. pose proof (create_run_nometa junk machine re sh root rules a w1 (set_dep sd m1)) as Z. destruct (create_run junk machine re sh root false false rules a w1 (set_dep sd m1)) as [n3 w3 m3|e3 w3]; [discriminate Es|]. injection Es as _ <-. exact Z.
        + discriminate Es.
        + rewrite (Mk a eq_refl) in Es. pose proof (create_run_nometa junk machine re sh root rules a w1 m1) as Z. destruct (create_run junk machine re sh root false false rules a w1 m1) as [n3 w3 m3|e3 w3]; [discriminate Es|]. injection Es as _ <-. exact Z. }
    specialize (S xs m (World (cleanup_meta (w_fs w) root) (w_db w)) H (fun _ X => X) eq_refl).
    destruct (steps junk machine re sh root false rules xs _ m); injection E as _ <-; exact S.
  Qed.
End AsInstall.

(** ** concrete cases *)
Notation bld := (create_session false mach pfx quiet rt).
Definition gcc : archive := pkg [L "Ngcc"; L "V1"; L "ax86_64"; L "sdevel"] [(L "usr/", dirn); (L "usr/bin/", dirn); (L "usr/bin/gcc", reg (L "compiler"))].
Definition lib : archive := pkg [L "Nlib"; L "V1"; L "ax86_64"] [(L "usr/", dirn); (L "usr/lib/", dirn); (L "usr/lib/x.so", reg (L "library"))].
Definition doc : archive := pkg [L "Ndoc"; L "V1"; L "ax86_64"] [(L "usr/", dirn); (L "usr/lib/", dirn); (L "usr/lib/x.txt", reg (L "text"))].
Definition w_three : world := performs false mach pfx quiet rt [Create true None [Put false gcc; Put true lib]; Cmd (Add simple false None doc)] w_empty.
Lemma three_lists : files_of (w_db w_three) (L "gcc") = Some [L "usr/"; L "usr/bin/"; L "usr/bin/gcc"] /\ files_of (w_db w_three) (L "lib") = Some [L "usr/"; L "usr/lib/"; L "usr/lib/x.so"] /\
  files_of (w_db w_three) (L "doc") = Some [L "usr/"; L "usr/lib/"; L "usr/lib/x.txt"] /\ keys (w_db w_three) = [L "doc"; L "gcc"; L "lib"].
Proof. split; [|split; [|split]]; vm_compute; reflexivity. Qed.
(** clearing before a build: lib and doc go, with their directory; gcc stays, with the directory they shared *)
Example C67_witness : tree (w_fs w_three) /\ fst (bld true None [Clear] w_three) = None /\ keys (w_db (snd (bld true None [Clear] w_three))) = [L "gcc"] /\
  fget (w_fs w_three) [L "usr"; L "lib"; L "x.so"] = Some (reg (L "library")) /\
  map (fget (w_fs (snd (bld true None [Clear] w_three)))) [[L "usr"; L "lib"; L "x.so"]; [L "usr"; L "lib"]; [L "usr"; L "bin"; L "gcc"]] = [None; None; Some (reg (L "compiler"))].
Proof. split; [apply treeb_tree; vm_compute; reflexivity|]. split; [|split; [|split]]; vm_compute; reflexivity. Qed.
Lemma three_names n : installed (w_db w_three) n -> n = L "doc" \/ n = L "gcc" \/ n = L "lib".
Proof.
  intros [_ G]. destruct (mget n (w_db w_three)) as [dir|] eqn:E; [|contradiction]. apply mget_In in E. apply (in_map fst) in E. change (map fst (w_db w_three)) with (keys (w_db w_three)) in E.
  rewrite (proj2 (proj2 (proj2 three_lists))) in E. cbn [fst In] in E. intuition.
Qed.
Lemma three_paths n x : installed (w_db w_three) n -> lists (w_db w_three) n x -> In x [L "usr/"; L "usr/bin/"; L "usr/bin/gcc"; L "usr/lib/"; L "usr/lib/x.so"; L "usr/lib/x.txt"].
Proof.
  intros I H. destruct three_lists as [G [Li [D _]]]. destruct (three_names n I) as [-> |[-> | ->]]; [apply (files_of_lists _ _ _ _ D) in H|apply (files_of_lists _ _ _ _ G) in H|apply (files_of_lists _ _ _ _ Li) in H];
  cbn [In] in H |- *; tauto.
Qed.
Example C67_hypotheses : (forall n y, installed (w_db w_three) n -> lists (w_db w_three) n y -> well_spelled rt (w_fs w_three) y) /\
  (forall n k y z, cleared (w_db w_three) n -> lists (w_db w_three) n y -> installed (w_db w_three) k -> lists (w_db w_three) k z -> below (comps z) (comps y) -> lists (w_db w_three) n z) /\
  only_cleared (w_db w_three) (L "usr/lib/").
Proof.
  destruct three_lists as [G [Li [D K]]]. split; [|split].
  - intros n y I H. apply (three_paths n y I) in H. destruct H as [<-|[<-|[<-|[<-|[<-|[<-|[]]]]]]]; split.
    + exists [L "usr"]. change (L "usr/") with (join slash [L "usr"] ++ [slash]). constructor; [discriminate|lits].
    + intros _ _. right. apply dirb_dir. vm_compute. reflexivity.
    + exists [L "usr"; L "bin"]. change (L "usr/bin/") with (join slash [L "usr"; L "bin"] ++ [slash]). constructor; [discriminate|lits].
    + intros _ _. right. apply dirb_dir. vm_compute. reflexivity.
    + exists [L "usr"; L "bin"; L "gcc"]. change (L "usr/bin/gcc") with (join slash [L "usr"; L "bin"; L "gcc"]). constructor; [discriminate|lits].
    + intros y E. apply (f_equal (@rev ascii)) in E. rewrite rev_app_distr in E. discriminate E.
    + exists [L "usr"; L "lib"]. change (L "usr/lib/") with (join slash [L "usr"; L "lib"] ++ [slash]). constructor; [discriminate|lits].
    + intros _ _. right. apply dirb_dir. vm_compute. reflexivity.
    + exists [L "usr"; L "lib"; L "x.so"]. change (L "usr/lib/x.so") with (join slash [L "usr"; L "lib"; L "x.so"]). constructor; [discriminate|lits].
    + intros y E. apply (f_equal (@rev ascii)) in E. rewrite rev_app_distr in E. discriminate E.
    + exists [L "usr"; L "lib"; L "x.txt"]. change (L "usr/lib/x.txt") with (join slash [L "usr"; L "lib"; L "x.txt"]). constructor; [discriminate|lits].
    + intros y E. apply (f_equal (@rev ascii)) in E. rewrite rev_app_distr in E. discriminate E.
  - intros n k y z [I C] Ly Ik Lz B. assert (Z := three_paths k z Ik Lz). assert (Y : forall p q, below p q -> exists c r, q = p ++ c :: r) by (intros p q [[|c r] [N ->]]; [contradiction|exists c, r; reflexivity]).
    apply Y in B as [c [r B]]. destruct (three_names n I) as [-> |[-> | ->]].
    + apply (files_of_lists _ _ _ _ D) in Ly. apply (files_of_lists _ _ _ _ D). cbn [In] in *. destruct Ly as [<-|[<-|[<-|[]]]]; destruct Z as [<-|[<-|[<-|[<-|[<-|[<-|[]]]]]]]; vm_compute in B; try discriminate B; tauto.
    + exfalso. apply C. right. exists (match mget (L "gcc") (w_db w_three) with Some d => d | None => [] end), (text_of [L "Ngcc"; L "V1"; L "ax86_64"; L "sdevel"]), [L "Ngcc"; L "V1"; L "ax86_64"; L "sdevel"].
      split; [vm_compute; reflexivity|]. split; [vm_compute; reflexivity|]. split; [vm_compute; reflexivity|]. cbn [In]. tauto.
    + apply (files_of_lists _ _ _ _ Li) in Ly. apply (files_of_lists _ _ _ _ Li). cbn [In] in *. destruct Ly as [<-|[<-|[<-|[]]]]; destruct Z as [<-|[<-|[<-|[<-|[<-|[<-|[]]]]]]]; vm_compute in B; try discriminate B; tauto.
  - assert (Nm : forall n s, meta_has (w_db w_three) n s -> n = L "lib" \/ n = L "doc" -> In s [L "Nlib"; L "Ndoc"; L "V1"; L "ax86_64"; L "d1"]).
    { intros n s [dir [c [ls [G1 [G2 [G3 G4]]]]]] [-> | ->]; vm_compute in G1; injection G1 as <-; vm_compute in G2; injection G2 as <-; vm_compute in G3; injection G3 as <-; cbn [In] in G4 |- *; tauto. }
    split.
    + exists (L "lib"). split; [|apply (files_of_lists _ _ _ _ Li); cbn [In]; tauto]. split; [split; [intros v H; discriminate H|vm_compute; discriminate]|].
      intros [H|H]; apply Nm in H; try (left; reflexivity); cbn [In] in H; decompose [or] H; try contradiction; match goal with X : _ = _ |- _ => discriminate X end.
    + intros n [I Sp] H. destruct (three_names n I) as [-> |[-> | ->]].
      * destruct Sp as [Sp|Sp]; apply Nm in Sp; try (right; reflexivity); cbn [In] in Sp; decompose [or] Sp; try contradiction; match goal with X : _ = _ |- _ => discriminate X end.
      * apply (files_of_lists _ _ _ _ G) in H. cbn [In] in H. decompose [or] H; try contradiction; match goal with X : _ = _ |- _ => discriminate X end.
      * destruct Sp as [Sp|Sp]; apply Nm in Sp; try (left; reflexivity); cbn [In] in Sp; decompose [or] Sp; try contradiction; match goal with X : _ = _ |- _ => discriminate X end.
Qed.
(** *** a directory that only a package removed earlier lists is left behind, empty *)
Definition p_d : archive := pkg [L "Na"; L "V1"; L "ax86_64"] [(L "d/", dirn)].
Definition p_f : archive := pkg [L "Nb"; L "V1"; L "ax86_64"] [(L "d/f", reg (L "x"))].
Theorem C67_left_refuted : let w := his [Add simple false None p_d; Add simple false None p_f] w_empty in let w' := snd (bld true None [Clear] w) in
  fst (bld true None [Clear] w) = None /\ w_db w' = [] /\ dir_at (w_fs w') [L "d"] /\ has_child (w_fs w') [L "d"] = false.
Proof. cbv zeta. split; [vm_compute; reflexivity|]. split; [vm_compute; reflexivity|]. split; [apply dirb_dir|]; vm_compute; reflexivity. Qed.
(** *** with --no-meta the records of the packages cleared away stay, although their files are deleted *)
Example C67_no_meta_stale : let w' := snd (bld false None [Clear] w_three) in
  files_of (w_db w') (L "lib") = Some [L "usr/"; L "usr/lib/"; L "usr/lib/x.so"] /\ fget (w_fs w') [L "usr"; L "lib"; L "x.so"] = None.
Proof. cbv zeta. split; vm_compute; reflexivity. Qed.
(** *** with --no-meta a package that was already installed loses its record, although its new files are there *)
Theorem C68_record_lost_refuted : let w' := snd (bld false None [Made foo2] w_foo) in
  fst (bld false None [Made foo2] w_foo) = None /\ mget (L "foo") (w_db w_foo) <> None /\ mget (L "foo") (w_db w') = None /\ fget (w_fs w') [L "usr"; L "bin"; L "tool"] = Some (reg (L "foo tool 2")).
Proof. cbv zeta. split; [vm_compute; reflexivity|]. split; [vm_compute; discriminate|]. split; vm_compute; reflexivity. Qed.
Example C68_witness : (forall a name, In (Made a) [Put false gcc; Clear; Made foo] -> archive_name a name -> ~ known (w_db w_three) name) /\
  fst (bld false None [Put false gcc; Clear; Made foo] w_three) = None /\ fget (w_fs (snd (bld false None [Put false gcc; Clear; Made foo] w_three))) [L "usr"; L "foo.txt"] = Some (reg (L "about foo")) /\
  fget (w_fs (snd (bld false None [Put false gcc; Clear; Made foo] w_three))) [L ".META"] = None.
Proof.
  split; [|split; [vm_compute; reflexivity|split; vm_compute; reflexivity]]. intros a name I An. destruct I as [I|[I|[I|[]]]]; [discriminate I|discriminate I|]. injection I as <-.
  assert (E : name = L "foo").
  { assert (O : exists r, open_archive false mach rt foo = Ok (L "foo", r)) by (eexists; vm_compute; reflexivity). destruct O as [r O]. apply open_name in O as [O _]. exact (archive_name_unique _ _ _ An O). }
  subst name. destruct (load false (w_db w_three)) as [m| |] eqn:El; [|vm_compute in El; discriminate El|vm_compute in El; discriminate El]. intro Kn. apply (name_exists_known false _ m _ El) in Kn.
  assert (Z : match load false (w_db w_three) with Ok m => name_exists m (L "foo") | _ => true end = false) by (vm_compute; reflexivity). rewrite El in Z. congruence.
Qed.
(** *** C69: a concrete upgrade by the build command *)
Example C69_witness : fst (bld true None [Made foo2] w_foo) = None /\ snd (bld true None [Made foo2] w_foo) = snd (session false mach pfx quiet rt (Many false true None [(false, foo2)] []) w_foo) /\
  fget (w_fs (snd (bld true None [Made foo2] w_foo))) [L "usr"; L "foo.txt"] = None.
Proof. split; [|split]; vm_compute; reflexivity. Qed.
(** *** a package added earlier by the same command is not recognised: the new version is laid over the old one, whose files stay, owned by nobody *)
Theorem C69_same_command_refuted : let w' := snd (bld true None [Put false foo; Made foo2] w_empty) in
  fst (bld true None [Put false foo; Made foo2] w_empty) = None /\ files_of (w_db w') (L "foo") = Some [L "usr/"; L "usr/bin/"; L "usr/bin/tool"] /\
  fget (w_fs w') [L "usr"; L "foo.txt"] = Some (reg (L "about foo")).
Proof. cbv zeta. split; [|split]; vm_compute; reflexivity. Qed.
