(** C118: installing several packages in one command, or in two commands one after the other (pkgdbh.cxx:650-1120, install.cxx:73-98, on the model
    of DbModel.v). *)
From Verif Require Import Base BaseProofs StrModel StrSpec StrProofs RulesModel RulesSpec RulesProofs FsModel FsSpec FsProofs FsOps FsExtract
  MetaModel MetaSpec MetaProofs DbModel DbSpec DbLoad DbOps DbRun DbInv EngineFs EngineRoot EngineWay DbFacts DbProps RemoveProps AddRun AddProps RootProps ManyRun ManyMeta
  DbExamples DisturbProps RemoveCmdExamples.

(** *** two memories that the engine cannot tell apart, as long as it is asked for names of [S] only *)
Section Same.
  Variable S : str -> Prop.
  Definition same_rec (p q : str * rec) : Prop := fst p = fst q /\ r_files (snd p) = r_files (snd q) /\ (S (fst p) -> r_auto (snd p) = r_auto (snd q)).
  Definition same_pkgs (l l' : list (str * rec)) : Prop := Forall2 same_rec l l'.
  Definition same_mem (m m' : mem) : Prop :=
    same_pkgs (m_pkgs m) (m_pkgs m') /\ m_dep m = m_dep m' /\ forall n, S n -> name_exists m n = name_exists m' n.

  Lemma sp_get n l l' : same_pkgs l l' ->
    match mget n l, mget n l' with
    | Some r, Some r' => r_files r = r_files r' /\ (S n -> r_auto r = r_auto r')
    | None, None => True
    | _, _ => False
    end.
  Proof.
    intro H. induction H as [|[k r] [k' r'] l l' (E & F & A) H IH]; [exact I|]. cbn [fst snd] in *. subst k'. cbn [mget].
    destruct (seqb n k) eqn:Q; [|exact IH]. apply seqb_eq in Q. subst k. split; [exact F|exact A].
  Qed.
  Lemma sp_set n r r' l l' : r_files r = r_files r' -> (S n -> r_auto r = r_auto r') -> same_pkgs l l' -> same_pkgs (mset n r l) (mset n r' l').
  Proof.
    intros F A H. assert (P : same_rec (n, r) (n, r')) by (split; [reflexivity|split; [exact F|exact A]]).
    induction H as [|[k q] [k' q'] l l' Hq H IH]; [constructor; [exact P|constructor]|]. pose proof Hq as (E & _). cbn [fst] in E. subst k'. cbn [mset].
    destruct (sltb n k); [constructor; [exact P|constructor; [exact Hq|exact H]]|]. destruct (sltb k n); constructor; try assumption.
  Qed.
  Lemma sp_del n l l' : same_pkgs l l' -> same_pkgs (mdel n l) (mdel n l').
  Proof.
    intro H. unfold mdel. induction H as [|[k q] [k' q'] l l' Hq H IH]; [constructor|]. pose proof Hq as (E & _). cbn [fst] in E. subst k'. cbn [filter fst].
    destruct (negb (seqb n k)); [constructor; assumption|exact IH].
  Qed.
  (** a fold that looks at names and files only *)
  Lemma sp_fold {A} (g : A -> str * rec -> A) : (forall a p q, same_rec p q -> g a p = g a q) -> forall l l', same_pkgs l l' -> forall a, fold_left g l a = fold_left g l' a.
  Proof. intros G l l' H. induction H as [|p q l l' Hp H IH]; intro a; [reflexivity|]. cbn [fold_left]. rewrite (G a p q Hp). apply IH. Qed.

  Variables (junk : bool) (machine : str) (re : str -> str -> option bool) (sh : str -> fs -> fs * bool) (root : str).
  Definition same_wm (x y : world * mem) : Prop := fst x = fst y /\ same_mem (snd x) (snd y).
  Lemma sm_conflicts name files f m m' : same_mem m m' -> conflicts root name files f (m_pkgs m) = conflicts root name files f (m_pkgs m').
  Proof.
    intros (H & _ & _). unfold conflicts.
    assert (C : conflicts_db name files (m_pkgs m) = conflicts_db name files (m_pkgs m')).
    { unfold conflicts_db. apply sp_fold; [|exact H]. intros a [k r] [k' r'] (E & F & _). cbn [fst snd] in *. subst k'. rewrite F. reflexivity. }
    rewrite C. pose proof (sp_get name _ _ H) as G. destruct (mget name (m_pkgs m)) as [r|], (mget name (m_pkgs m')) as [r'|]; try contradiction; [|reflexivity].
    destruct G as [-> _]. reflexivity.
  Qed.
  Lemma sm_add_refs name info info' x y : r_files info = r_files info' -> (S name -> r_auto info = r_auto info') -> same_wm x y ->
    same_wm (add_files_refs name info x) (add_files_refs name info' y).
  Proof.
    destruct x as [w m], y as [w' m']. intros F A [E (P & D & N)]. cbn [fst snd] in *. subst w'. unfold add_files_refs. split; cbn [fst snd]; [rewrite F; reflexivity|].
    split; [cbn [m_pkgs]; apply sp_set; assumption|]. split; [exact D|exact N].
  Qed.
  Lemma sm_strip files keep x y : same_wm x y -> same_wm (strip_refs root files keep x) (strip_refs root files keep y).
  Proof.
    intro H. unfold strip_refs.
    assert (G : forall l l', same_pkgs l l' -> forall x y, same_wm x y -> same_wm (fold_left (strip_one files) l x) (fold_left (strip_one files) l' y)).
    { clear x y H. intros l l' H. induction H as [|[k r] [k' r'] l l' (E & F & A) H IH]; intros x y Q; [exact Q|]. cbn [fold_left]. apply IH. cbn [fst snd] in *. subst k'.
      unfold strip_one. cbn [fst snd]. rewrite F. destruct (_ =? _); [exact Q|]. apply sm_add_refs; [reflexivity|exact A|exact Q]. }
    specialize (G _ _ (proj1 (proj2 H)) _ _ H).
    destruct (fold_left (strip_one files) (m_pkgs (snd x)) x) as [w1 m1], (fold_left (strip_one files) (m_pkgs (snd y)) y) as [w2 m2].
    destruct G as [E M]. cbn [fst snd] in *. subst w2. split; [reflexivity|exact M].
  Qed.
  Lemma sm_mark name m m' : S name -> same_mem m m' -> same_mem (mark_auto junk name m) (mark_auto junk name m').
  Proof.
    intros Sn (P & D & N). unfold mark_auto. pose proof (sp_get name _ _ P) as G.
    destruct (mget name (m_pkgs m)) as [r|], (mget name (m_pkgs m')) as [r'|]; try contradiction.
    - destruct G as [_ A]. rewrite <- (A Sn). destruct (r_auto r); [split; [exact P|split; [reflexivity|exact N]]|split; [exact P|split; [exact D|exact N]]].
    - split; [cbn [m_pkgs]; apply sp_set; [reflexivity|reflexivity|exact P]|]. split; [cbn [m_dep]; rewrite D; reflexivity|exact N].
  Qed.
  Lemma sm_remove_files name keep x y : same_wm x y -> same_wm (remove_files root name keep x) (remove_files root name keep y).
  Proof.
    destruct x as [w m], y as [w' m']. intros [E (P & D & N)]. cbn [fst snd] in *. subst w'. unfold remove_files. pose proof (sp_get name _ _ P) as G. pose proof (sp_del name _ _ P) as Q.
    assert (O : match mget name (m_pkgs m) with Some r => r_files r | None => [] end = match mget name (m_pkgs m') with Some r => r_files r | None => [] end).
    { destruct (mget name (m_pkgs m)) as [r|], (mget name (m_pkgs m')) as [r'|]; try contradiction; [exact (proj1 G)|reflexivity]. }
    rewrite O. rewrite (sp_fold (fun a p => sminus a (r_files (snd p)))) with (l' := mdel name (m_pkgs m')); [|intros a p q (_ & F & _); rewrite F; reflexivity|exact Q].
    split; cbn [fst snd]; [reflexivity|]. split; [exact Q|]. split; [exact D|]. intros n Sn. pose proof (N n Sn) as Nn. unfold name_exists in *. cbn [m_alias]. rewrite !mget_mdel.
    destruct (seqb n name); [reflexivity|exact Nn].
  Qed.
  Lemma sm_remove_refs name x y : same_wm x y ->
    match remove_refs junk name x, remove_refs junk name y with Some a, Some b => same_wm a b | None, None => True | _, _ => False end.
  Proof.
    destruct x as [w m], y as [w' m']. intros [E (P & D & N)]. cbn [fst snd] in *. subst w'. unfold remove_refs. destruct (mget name (w_db w)) as [dir|]; [|exact I].
    split; cbn [fst snd]; [reflexivity|]. split; [|split; [exact D|exact N]]. cbn [m_pkgs]. pose proof (sp_get name _ _ P) as G.
    destruct (mget name (m_pkgs m)) as [r|], (mget name (m_pkgs m')) as [r'|]; try contradiction; [exact P|]. apply sp_set; [reflexivity|reflexivity|exact P].
  Qed.
  Lemma sm_move name x y : same_wm x y ->
    match move_meta root name x, move_meta root name y with Ok a, Ok b => same_wm a b | Throw, Throw => True | UB, UB => True | _, _ => False end.
  Proof.
    destruct x as [w m], y as [w' m']. intros [E (P & D & N)]. cbn [fst snd] in *. subst w'. unfold move_meta. destruct (fget _ _) as [n|]; [|exact I].
    destruct (is_dir n); [exact I|]. destruct (parse_set (n_data n)) as [ls|]; [|exact I]. rewrite <- D. destruct (m_dep m) eqn:Dm.
    - split; cbn [fst snd]; [reflexivity|]. split; [exact P|]. split; [reflexivity|exact N].
    - split; cbn [fst snd]; [reflexivity|]. split; [exact P|]. split; [rewrite <- D; exact Dm|exact N].
  Qed.
  Definition same_out {A} (x y : out A) : Prop :=
    match x, y with
    | Ret a w m, Ret b w' m' => a = b /\ w = w' /\ same_mem m m'
    | Stop e w, Stop e' w' => e = e' /\ w = w'
    | _, _ => False
    end.
  Lemma sm_add o conf a w m m' : (forall n, archive_name a n -> S n) -> same_mem m m' ->
    same_out (add_run junk machine re sh root o conf a w m) (add_run junk machine re sh root o conf a w m').
  Proof.
    intros Sa M. unfold add_run. destruct (open_archive junk machine root a) as [[name info]| |] eqn:Eo; [|split; reflexivity|split; reflexivity].
    assert (Sn : S name) by (apply Sa; apply open_name in Eo; exact (proj1 Eo)).
    destruct (read_rules_file conf) as [rules|]; [|split; reflexivity]. rewrite <- (proj2 (proj2 M) name Sn).
    destruct (name_exists m name && negb (o_upgrade o)); [split; reflexivity|]. destruct (negb (name_exists m name) && o_upgrade o); [split; reflexivity|].
    destruct (apply_install_rules re rules (r_files info)) as [[[ins non] post]|]; [|split; reflexivity].
    destruct (if o_scripts o then pre_run sh root a w else inr w) as [w1|w1]; [split; reflexivity|]. cbv zeta.
    rewrite <- (sm_conflicts name ins (w_fs w1) m m' M). set (cf := conflicts root name ins (w_fs w1) (m_pkgs m)). clearbody cf.
    assert (M1 : same_wm (w1, m) (w1, m')) by (split; [reflexivity|exact M]).
    set (X := match cf with [] => inr (w1, m) | _ :: _ => if o_force o then match (if o_upgrade o then get_keep_list re rules cf else Some []) with None => inl BadRules | Some kl => inr (strip_refs root cf kl (w1, m)) end else inl (Conflict cf) end).
    set (Y := match cf with [] => inr (w1, m') | _ :: _ => if o_force o then match (if o_upgrade o then get_keep_list re rules cf else Some []) with None => inl BadRules | Some kl => inr (strip_refs root cf kl (w1, m')) end else inl (Conflict cf) end).
    assert (XY : match X, Y with inl e, inl e' => e = e' | inr a, inr b => same_wm a b | _, _ => False end).
    { unfold X, Y. destruct cf as [|c cs]; [exact M1|]. destruct (o_force o); [|reflexivity]. destruct (if o_upgrade o then get_keep_list re rules (c :: cs) else Some []) as [kl|]; [|reflexivity]. apply sm_strip, M1. }
    clearbody X Y. destruct X as [e|[w2 m2]], Y as [e'|[w2' m2']]; try contradiction; [subst e'; split; reflexivity|]. destruct XY as [E2 M2]. cbn [fst snd] in *. subst w2'.
    match goal with |- same_out (match ?x with _ => _ end) (match ?y with _ => _ end) => set (U := x); set (V := y) end.
    assert (UV : match U, V with inl a, inl b => a = b | inr (a, kl), inr (b, kl') => same_wm a b /\ kl = kl' | _, _ => False end).
    { unfold U, V. destruct (o_upgrade o); [|split; [split; [reflexivity|exact M2]|reflexivity]]. destruct (get_keep_list re rules ins) as [kl|]; [|reflexivity].
      assert (M3 : same_wm (w2, mark_auto junk name m2) (w2, mark_auto junk name m2')) by (split; [reflexivity|apply sm_mark; [exact Sn|exact M2]]).
      pose proof (sm_remove_files name kl _ _ M3) as M4. pose proof (sm_remove_refs name _ _ M4) as M5.
      destruct (remove_refs junk name (remove_files root name kl (w2, mark_auto junk name m2))) as [x|], (remove_refs junk name (remove_files root name kl (w2, mark_auto junk name m2'))) as [y|]; try contradiction.
      - split; [exact M5|reflexivity].
      - rewrite (proj1 M4). reflexivity. }
    clearbody U V. destruct U as [[e w3]|[[w3 m3] kl]], V as [[e' w3']|[[w3' m3'] kl']]; try contradiction.
    { apply pair_equal_spec in UV as [-> ->]. split; reflexivity. }
    destruct UV as [[E3 M3] <-]. cbn [fst snd] in *. subst w3'.
    pose proof (sm_move name (World (install_archive root a kl non (w_fs w3)) (w_db w3), m3) (World (install_archive root a kl non (w_fs w3)) (w_db w3), m3') ltac:(split; [reflexivity|exact M3])) as M4.
    destruct (move_meta root name (World (install_archive root a kl non (w_fs w3)) (w_db w3), m3)) as [x| |], (move_meta root name (World (install_archive root a kl non (w_fs w3)) (w_db w3), m3')) as [y| |]; try contradiction; [|split; reflexivity|split; reflexivity].
    pose proof (sm_add_refs name (with_files ins info) (with_files ins info) x y eq_refl (fun _ => eq_refl) M4) as M5.
    destruct (add_files_refs name (with_files ins info) x) as [w6 m6], (add_files_refs name (with_files ins info) y) as [w6' m6']. destruct M5 as [E6 M6]. cbn [fst snd] in *. subst w6'.
    split; [reflexivity|]. split; [reflexivity|exact M6].
  Qed.
  Lemma sm_set_dep b m m' : same_mem m m' -> same_mem (set_dep b m) (set_dep b m').
  Proof. intros (P & D & N). destruct b; cbn [set_dep]; split; [exact P|split; [reflexivity|exact N]|exact P|split; [exact D|exact N]]. Qed.
  Lemma sm_run force scripts conf l : (forall sd a n, In (sd, a) l -> archive_name a n -> S n) -> forall w m m', same_mem m m' ->
    same_out (run_all junk machine re sh root force scripts conf l w m) (run_all junk machine re sh root force scripts conf l w m').
  Proof.
    induction l as [|[sd a] l IH]; intros Sa w m m' M; cbn [run_all]; [split; [reflexivity|split; [reflexivity|exact M]]|].
    assert (U : upgrade_flag junk machine root a m = upgrade_flag junk machine root a m').
    { unfold upgrade_flag. destruct (open_archive junk machine root a) as [[name info]| |] eqn:Eo; [|reflexivity|reflexivity].
      apply (proj2 (proj2 M)). apply (Sa sd a name); [left; reflexivity|]. apply open_name in Eo. exact (proj1 Eo). }
    rewrite <- U. pose proof (sm_add (Opts force (upgrade_flag junk machine root a m) scripts) conf a w _ _ (fun n => Sa sd a n (or_introl eq_refl)) (sm_set_dep sd _ _ M)) as A.
    destruct (add_run _ _ _ _ _ _ _ _ _ (set_dep sd m)) as [n w1 m1|e w1], (add_run _ _ _ _ _ _ _ _ _ (set_dep sd m')) as [n' w1' m1'|e' w1']; try contradiction; [|exact A].
    destruct A as (_ & <- & M1). apply IH; [|exact M1]. intros sd' b k J. apply (Sa sd' b k). right. exact J.
  Qed.
  Lemma sm_drop names : forall w m m', same_mem m m' -> same_out (drop_all junk root names w m) (drop_all junk root names w m').
  Proof.
    induction names as [|n t IH]; intros w m m' M; cbn [drop_all]; [split; [reflexivity|split; [reflexivity|exact M]]|].
    pose proof (sm_remove_refs n (World (cleanup_meta (w_fs w) root) (w_db w), m) (World (cleanup_meta (w_fs w) root) (w_db w), m') ltac:(split; [reflexivity|exact M])) as R.
    destruct (remove_refs junk n (World (cleanup_meta (w_fs w) root) (w_db w), m)) as [x|], (remove_refs junk n (World (cleanup_meta (w_fs w) root) (w_db w), m')) as [y|]; try contradiction; [|split; reflexivity].
    pose proof (sm_remove_files n [] _ _ R) as Q. destruct (remove_files root n [] x) as [w1 m1], (remove_files root n [] y) as [w2 m2]. destruct Q as [E Q]. cbn [fst snd] in *. subst w2. apply IH, Q.
  Qed.
End Same.

Lemma forall2_pkgs (S : str -> Prop) (l l' : list (str * rec)) : NoDup (keys l) -> keys l = keys l' ->
  (forall n r r', mget n l = Some r -> mget n l' = Some r' -> r_files r = r_files r' /\ (S n -> r_auto r = r_auto r')) -> same_pkgs S l l'.
Proof.
  revert l'. induction l as [|[k r] l IH]; intros [|[k' r'] l'] N K H; cbn in K; try discriminate K; [constructor|].
  injection K as -> K. inversion N as [|? ? N1 N2]; subst. constructor.
  - destruct (H k' r r') as [F A]; [cbn [mget]; rewrite seqb_refl; reflexivity|cbn [mget]; rewrite seqb_refl; reflexivity|]. split; [reflexivity|split; [exact F|exact A]].
  - apply IH; [exact N2|exact K|]. intros n q q' G G'.
    assert (Nn : n <> k') by (intros ->; apply N1; apply mget_In in G; apply (in_map fst) in G; exact G).
    apply (H n q q'); cbn [mget]; rewrite (proj2 (seqb_neq n k') Nn); assumption.
Qed.

Section Split.
  Variables (machine : str) (re : str -> str -> option bool) (sh : str -> fs -> fs * bool) (root : str).
  Notation session := (session false machine re sh root).
  Hypothesis Rs : ends_slash root = true.
  Hypothesis R0 : comps root = [].
  Lemma same_auto d d' n : dbfile d' n (L "META") = dbfile d n (L "META") -> (automatic d' n <-> automatic d n).
  Proof.
    intro E. assert (G : forall d n, automatic d n <-> exists c ls, dbfile d n (L "META") = Some c /\ parse_lines c = Some ls /\ In (L "d1") ls).
    { clear. intros d n. unfold automatic, meta_has, dbfile. split.
      - intros (dir & c & ls & A & B & C & D). exists c, ls. rewrite A. auto.
      - intros (c & ls & A & C & D). destruct (mget n d) as [dir|]; [|discriminate A]. exists dir, c, ls. auto. }
    rewrite !G, E. reflexivity.
  Qed.
  (** the memory of the process that goes on, and that of one that starts now *)
  Lemma split_mem (S : str -> Prop) d m d1 m1 m2 : load false d = Ok m -> agree d1 m1 -> db_ok d1 -> m_dep m1 = false -> load false d1 = Ok m2 ->
    (forall n, S n -> name_exists m1 n = name_exists m n /\ (forall r', mget n (m_pkgs m1) = Some r' -> exists r, mget n (m_pkgs m) = Some r /\ r_auto r' = r_auto r) /\
       dbfile d1 n (L "META") = dbfile d n (L "META") /\ (known d1 n <-> known d n)) -> same_mem S m1 m2.
  Proof.
    intros Lo AG OK D Lo2 H. pose proof (load_agree _ _ _ OK Lo2) as AG2. split; [|split].
    - apply forall2_pkgs; [apply ssorted_NoDup, AG| |].
      + apply ssorted_ext; [apply AG|apply AG2|]. intro n. destruct AG as [_ AG], AG2 as [_ AG2]. specialize (AG n). specialize (AG2 n).
        assert (K : forall l : list (str * rec), In n (keys l) <-> mget n l <> None) by (intro l; rewrite mget_None; split; [tauto|intro X; destruct (in_dec str_eq_dec n (keys l)); tauto]).
        rewrite !K. destruct (mget n (m_pkgs m1)) as [r|], (mget n (m_pkgs m2)) as [r'|]; split; intros X; try discriminate; try (exfalso; apply X; reflexivity).
        * destruct AG as (_ & dir & G & _). rewrite AG2 in G. discriminate G.
        * destruct AG2 as (_ & dir & G & _). rewrite AG in G. discriminate G.
      + intros n r r' G G'. split.
        * destruct AG as [_ AG], AG2 as [_ AG2]. specialize (AG n). specialize (AG2 n). rewrite G in AG. rewrite G' in AG2. destruct AG as (F & dir & A & B), AG2 as (F2 & dir2 & A2 & B2).
          rewrite A in A2. injection A2 as <-. rewrite B in B2. injection B2 as B2. destruct F as [F1 F3], F2 as [F4 F5].
          rewrite <- (read_files_text (r_files r)), <- (read_files_text (r_files r')) by auto. rewrite B2. reflexivity.
        * intro Sn. destruct (H n Sn) as (_ & R & Mt & _). destruct (R r G) as (r0 & G0 & E0). rewrite E0.
          pose proof (load_auto false d m n r0 Lo G0) as A0. pose proof (load_auto false d1 m2 n r' Lo2 G') as A2. rewrite (same_auto d d1 n Mt) in A2.
          destruct (r_auto r0), (r_auto r'); try reflexivity; exfalso; [assert (X : false = true) by (apply A2, A0; reflexivity)|assert (X : false = true) by (apply A0, A2; reflexivity)]; discriminate X.
    - rewrite D. symmetry. apply load_spec in Lo2. tauto.
    - intros n Sn. destruct (H n Sn) as (E & _ & _ & K). rewrite E. pose proof (name_exists_known false d m n Lo) as K1. pose proof (name_exists_known false d1 m2 n Lo2) as K2.
      destruct (name_exists m n), (name_exists m2 n); try reflexivity; exfalso; [assert (X : false = true) by (apply K2, K, K1; reflexivity)|assert (X : false = true) by (apply K1, K, K2; reflexivity)]; discriminate X.
  Qed.
  Lemma tidy_clean w : tidy_world w -> tidy_world (World (cleanup_meta (w_fs w) root) (w_db w)).
  Proof.
    intros [T1 T2 T3 T4]. destruct (cleanup_spec (w_fs w) root T1) as [K1 K2]. constructor; [exact K1| |exact T3|exact T4]. intros c q Jc B. cbn [w_fs]. rewrite K2; [exact (T2 c q Jc B)|].
    destruct B as [y [Nx ->]]. cbn [app]. assert (L2 : forall y, In y meta_comps -> exists z, y = [z]) by (intros z Jy; cbn [meta_comps In] in Jy; repeat (destruct Jy as [<-|Jy]; [eexists; reflexivity|]); destruct Jy).
    intro Jq. destruct (L2 _ Jq) as [z Hz]. injection Hz as _ Hz. exact (Nx Hz).
  Qed.
  (** One command for all, or one for the first packages and another for the others: the same outcome and the same system. *)
  Theorem C118_same force conf u v obsolete w w1 : tidies u -> tidy_world w ->
    session (Many force false conf u []) w = (None, w1) -> no_leftover root (w_fs w1) -> (exists m, load false (w_db w1) = Ok m) ->
    (forall sd b n, In (sd, b) v -> archive_name b n -> (forall sd' a, In (sd', a) u -> ~ archive_name a n) /\ (known (w_db w1) n <-> known (w_db w) n)) ->
    session (Many force false conf (u ++ v) obsolete) w = session (Many force false conf v obsolete) w1.
  Proof.
    intros Tu W E NL [m2 Lo2] H. assert (W0 : tidy_world (World (cleanup_meta (w_fs w) root) (w_db w))) by (apply tidy_clean; assumption).
    assert (C1 : World (cleanup_meta (w_fs w1) root) (w_db w1) = w1) by (exact (leftover_clean root Rs w1 NL)).
    unfold DbModel.session in E |- *. cbn [w_db w_fs] in E |- *. rewrite C1, Lo2. destruct (load false (w_db w)) as [m| |] eqn:Lo; [|discriminate E|discriminate E].
    set (w0 := World (cleanup_meta (w_fs w) root) (w_db w)) in *. rewrite run_all_app.
    destruct (run_all false machine re sh root force false conf u w0 m) as [[] wx mx|e wx] eqn:Ru; [|discriminate E]. cbn [drop_all finish] in E. injection E as ->.
    assert (AG : agree (w_db w0) m) by (apply (load_agree false); [apply W|exact Lo]).
    set (S := fun n => exists sd b, In (sd, b) v /\ archive_name b n).
    assert (SM : same_mem S mx m2).
    { destruct u as [|p u'].
      - cbn in Ru. injection Ru as <- <-. change (w_db w0) with (w_db w) in Lo2. rewrite Lo in Lo2. injection Lo2 as <-.
        split; [|split; [reflexivity|reflexivity]]. apply forall2_pkgs; [apply ssorted_NoDup, AG|reflexivity|]. intros n r r' G G'. rewrite G in G'. injection G' as <-. split; reflexivity.
      - destruct (run_keeps false machine re sh root Rs R0 force conf (p :: u') Tu w0 m w1 mx W0 AG Ru) as (W1 & AG1 & D1 & K).
        apply (split_mem S (w_db w) m (w_db w1) mx m2 Lo AG1 (proj1 (w_inv _ W1)) (D1 ltac:(discriminate)) Lo2).
        intros n (sd & b & J & An). destruct (H sd b n J An) as [F Kn]. destruct (K n F) as [K1 K2]. split; [exact K1|]. split; [exact K2|]. split; [|exact Kn].
        pose proof (run_frame false machine re sh root force false conf (p :: u') (tidies_named false machine root (p :: u') Tu) w0 m w1 mx (w_inv _ W0) AG Ru n F) as [(_ & Q & _) _]. apply Q. discriminate. }
    pose proof (sm_run S false machine re sh root force false conf v (fun sd b n J An => ex_intro _ sd (ex_intro _ b (conj J An))) w1 mx m2 SM) as R.
    destruct (run_all false machine re sh root force false conf v w1 mx) as [[] wy my|e wy], (run_all false machine re sh root force false conf v w1 m2) as [[] wz mz|e' wz]; try contradiction.
    - destruct R as (_ & <- & R). pose proof (sm_drop S false root obsolete wy my mz R) as Q.
      destruct (drop_all false root obsolete wy my) as [[] wa ma|e wa], (drop_all false root obsolete wy mz) as [[] wb mb|e' wb]; try contradiction; cbn [finish]; [destruct Q as (_ & <- & _)|destruct Q as (<- & <-)]; reflexivity.
    - destruct R as (<- & <-). reflexivity.
  Qed.
End Split.
