(** C68: which records a build without metadata can touch. *)
From Verif Require Import Base BaseProofs StrModel RulesModel FsModel MetaModel DbModel DbSpec DbFacts DbInv DbOps DbRun RemoveProps DbProps CreateModel CreateProps.

Section NoMeta.
  Variables (junk : bool) (machine : str) (re : str -> str -> option bool) (sh : str -> fs -> fs * bool) (root : str).
  Lemma remove_refs_other name (w : world) m w' m' n : n <> name -> remove_refs junk name (w, m) = Some (w', m') -> mget n (w_db w') = mget n (w_db w).
  Proof.
    intros N E. unfold remove_refs in E. destruct (mget name (w_db w)) as [dir|]; [|discriminate E]. cbv zeta in E. set (db := match filter _ dir with [] => _ | _ :: _ => _ end) in E.
    injection E as <- _. cbn [w_db]. unfold db. destruct (filter _ dir); [rewrite mget_mdel|rewrite mget_mset]; rewrite (proj2 (seqb_neq n name)) by exact N; reflexivity.
  Qed.
  Lemma create_run_other upgrade rules a w m n : ~ archive_name a n -> mget n (w_db (world_of (create_run junk machine re sh root false upgrade rules a w m))) = mget n (w_db w).
  Proof.
    intro N. unfold create_run. destruct (open_archive junk machine root a) as [[name info]| |] eqn:Eo; [|reflexivity|reflexivity].
    assert (Nn : n <> name) by (intros ->; apply N; apply open_name in Eo as [Eo _]; exact Eo). destruct (apply_install_rules re rules (r_files info)) as [[[ins non] post]|]; [|reflexivity].
    destruct (pre_run sh root a w) as [w1|w1] eqn:Ep; [cbn [world_of]; erewrite pre_run_db by eauto; reflexivity|]. assert (D1 : w_db w1 = w_db w) by (eapply pre_run_db; eauto).
    destruct (conflicts root name ins (w_fs w1) (m_pkgs m)) as [|c cf]; [|cbn [world_of]; rewrite D1; reflexivity]. destruct upgrade.
    - destruct (remove_refs junk name (w1, mark_auto junk name m)) as [[w2 m2]|] eqn:Er; [|cbn [world_of]; rewrite D1; reflexivity].
      pose proof (remove_refs_other name w1 _ w2 m2 n Nn Er) as R. rewrite D1 in R. destruct (get_keep_list re rules ins) as [kl|]; [|exact R].
      cbn [remove_files fst]. cbn [world_of]. rewrite post_run_db. exact R.
    - cbn [world_of]. rewrite post_run_db. cbn [w_db]. rewrite D1. reflexivity.
  Qed.
  (** whatever is cleared, added, made and built: without metadata a record changes only if one of the archives made is that package's *)
  Theorem C68_records conf xs w e w' n : create_session junk machine re sh root false conf xs w = (e, w') ->
    (forall a, In (Made a) xs -> ~ archive_name a n) -> mget n (w_db w') = mget n (w_db w).
  Proof.
    unfold create_session. cbn [w_db]. destruct (load junk (w_db w)) as [m| |]; [|intros E _; injection E as _ <-; reflexivity|intros E _; injection E as _ <-; reflexivity].
    destruct (read_rules_file conf) as [rules|]; [|intros E _; injection E as _ <-; reflexivity]. intros E H.
    assert (St : forall x w1 m1, (forall a, x = Made a -> ~ archive_name a n) -> mget n (w_db (world_of (step junk machine re sh root false rules x w1 m1))) = mget n (w_db w1)).
    { intros x w1 m1 Hx. destruct x as [|sd a|f|a]; cbn [step].
      - unfold base. rewrite (clear_nometa junk root). reflexivity.
      - destruct (known_archive junk machine root a m1); [reflexivity|]. pose proof (create_run_nometa junk machine re sh root rules a w1 (set_dep sd m1)) as Z.
        destruct (create_run junk machine re sh root false false rules a w1 (set_dep sd m1)); cbn [world_of] in *; rewrite Z; reflexivity.
      - reflexivity.
      - pose proof (create_run_other (known_archive junk machine root a m1) rules a w1 m1 n (Hx a eq_refl)) as Z.
        destruct (create_run junk machine re sh root false (known_archive junk machine root a m1) rules a w1 m1); exact Z. }
    assert (S : forall xs w1 m1, (forall a, In (Made a) xs -> ~ archive_name a n) -> mget n (w_db (world_of (steps junk machine re sh root false rules xs w1 m1))) = mget n (w_db w1)).
    { clear xs E H. induction xs as [|x xs IH]; intros w1 m1 H; cbn [steps]; [reflexivity|].
      pose proof (St x w1 m1 (fun a Ea => H a (or_introl Ea))) as Z. destruct (step junk machine re sh root false rules x w1 m1) as [[] w2 m2|e2 w2]; cbn [world_of] in Z; [|exact Z].
      rewrite IH; [exact Z|]. intros a Ia. apply H. right. exact Ia. }
    specialize (S xs (World (cleanup_meta (w_fs w) root) (w_db w)) m H). destruct (steps junk machine re sh root false rules xs _ m); injection E as _ <-; exact S.
  Qed.
End NoMeta.
(** foo2 is made: the record of bar stays, that of foo is lost (C68_record_lost_refuted) *)
From Verif Require Import DbExamples AddProps UpgradeExamples.
Example C68_records_case : let w := history false mach pfx quiet rt [Add simple false None foo; Add simple false None bar0] w_empty in
  (forall a, In (Made a) [Made foo2] -> ~ archive_name a (L "bar")) /\ mget (L "bar") (w_db w) <> None /\
  fst (create_session false mach pfx quiet rt false None [Made foo2] w) = None /\ mget (L "foo") (w_db w) <> None /\
  mget (L "foo") (w_db (snd (create_session false mach pfx quiet rt false None [Made foo2] w))) = None.
Proof.
  cbv zeta. split; [|vm_compute; split; [discriminate|split; [reflexivity|split; [discriminate|reflexivity]]]].
  intros a [H|[]] An. injection H as <-. apply foo2_name in An. discriminate An.
Qed.
