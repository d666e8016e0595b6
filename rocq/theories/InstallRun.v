(** 'cards install' end to end: lemmas. *)
From Verif Require Import Base BaseProofs StrModel StrSpec StrProofs RulesModel RulesSpec RulesProofs FsModel FsSpec FsProofs MetaModel MetaSpec MetaProofs
  DbModel DbSpec DbLoad DbOps DbRun DbInv DbFacts DbProps RemoveProps AddRun AddProps GenDeps GenDepsProofs GenDepsProps HexModel HexProps IndexModel FetchModel FetchProps
  ManyRun RemoveCmdProofs InstallModel.
From Coq Require Import ZArith Lia.

(** ** two resolutions that agree on the states that occur *)
Section Ext.
  Variables (db : list (str * rec)) (jb : Z) (idx : list (str * list dep)) (st : Type) (f1 f2 : str -> st -> res (apkg * st)) (P : st -> Prop).
  Hypothesis Same : forall n s, P s -> f2 n s = f1 n s.
  Hypothesis Keep : forall n s a s', P s -> f1 n s = Ok (a, s') -> P s'.
  Lemma direct_ext n g : P (g_st g) -> direct db jb idx st f2 n g = direct db jb idx st f1 n g /\
    (forall ds g', direct db jb idx st f1 n g = Ok (ds, g') -> P (g_st g')).
  Proof.
    intro H. unfold direct. destruct (smem n (g_seen g)); [split; [reflexivity|intros ds g' E; inversion E; subst; exact H]|].
    destruct (mget n idx); [|split; [reflexivity|discriminate]]. rewrite (Same n _ H). split; [reflexivity|].
    intros ds g' E. destruct (f1 n (g_st g)) as [[a s']| |] eqn:F; cbn [rbind] in E; try discriminate E. pose proof (Keep n _ a s' H F) as K.
    destruct (uptodate db jb a); inversion E; subst; exact K.
  Qed.
  Lemma loop_ext fuel : forall pend out g, P (g_st g) -> loop db jb idx st f2 fuel pend out g = loop db jb idx st f1 fuel pend out g /\
    (forall o g', loop db jb idx st f1 fuel pend out g = Some (Ok (o, g')) -> P (g_st g')).
  Proof.
    induction fuel as [|f IH]; intros pend out g H; destruct pend as [|x p]; cbn [loop].
    1,3: (split; [reflexivity|intros o g' E; inversion E; subst; exact H]).
    - split; [reflexivity|discriminate].
    - destruct (direct_ext (fst x) g H) as [E K]. rewrite E. destruct (direct db jb idx st f1 (fst x) g) as [[ds g1]| |]; [|split; [reflexivity|discriminate]|split; [reflexivity|discriminate]].
      apply IH. exact (K ds g1 eq_refl).
  Qed.
  Lemma all_ext fuel names : forall l g, P (g_st g) -> generate_all db jb idx st f2 fuel names l g = generate_all db jb idx st f1 fuel names l g /\
    (forall o g', generate_all db jb idx st f1 fuel names l g = Some (Ok (o, g')) -> P (g_st g')).
  Proof.
    induction names as [|n t IH]; intros l g H; cbn [generate_all]; [split; [reflexivity|intros o g' E; inversion E; subst; exact H]|].
    unfold generate. destruct (loop_ext fuel [(n, 0%Z)] [] g H) as [E K]. rewrite E.
    destruct (loop db jb idx st f1 fuel [(n, 0%Z)] [] g) as [[[o g1]| |]|]; try (split; [reflexivity|discriminate]). apply IH. exact (K o g1 eq_refl).
  Qed.
End Ext.

(** ** where an entry of the list comes from *)
Section Times.
  Variables (db : list (str * rec)) (jb : Z) (idx : list (str * list dep)) (st : Type) (fetch : str -> st -> res (apkg * st)) (arch : str -> apkg).
  Hypothesis C1 : forall n s a s', mget n idx <> None -> fetch n s = Ok (a, s') -> a = arch n.
  Hypothesis C2 : forall n, a_name (arch n) = n.
  Hypothesis C3 : forall n ds, mget n idx = Some ds -> filter (fun d => negb (same db jb d)) (others n ds) = filter (fun d => negb (same db jb d)) (others n (a_deps (arch n))).
  (** the request itself, with date 0, or a dependency of something that is wanted, with its date *)
  Definition comes (r : str) (d : dep) : Prop :=
    d = (r, 0%Z) \/ exists m, wants db jb arch r m /\ In d (a_deps (arch m)) /\ fst d <> m /\ ~ in_build db jb (fst d) (snd d) /\ ~ current db jb arch m.
  Lemma succs_comes r m d : wants db jb arch r m -> In d (succs db jb arch m) -> comes r d.
  Proof.
    intros W J. right. exists m. split; [exact W|]. unfold succs in J. destruct (uptodate db jb (arch m)) eqn:U; [destruct J|]. apply filter_In in J as [J1 J2]. apply filter_In in J1 as [J0 J1].
    split; [exact J0|]. split; [apply seqb_neq, negb_true_iff, J2|]. split; [|intro H; apply uptodate_spec in H; congruence]. intro H. destruct d as [k t]. apply same_spec in H. cbn [fst snd] in H. rewrite H in J1. discriminate J1.
  Qed.
  Lemma loop_comes r fuel : forall pend out g out' g', inv db jb idx st arch r pend out g -> (forall d, In d (pend ++ out) -> comes r d) ->
    loop db jb idx st fetch fuel pend out g = Some (Ok (out', g')) -> forall d, In d out' -> comes r d.
  Proof.
    induction fuel as [|f IH]; intros pend out g out' g' H T E; destruct pend as [|x p]; cbn [loop] in E; try discriminate E.
    1,2: (injection E as <- _; exact T).
    destruct (direct db jb idx st fetch (fst x) g) as [[ds g1]| |] eqn:D; try discriminate E.
    assert (S : same db jb x = false) by (apply (i_same _ _ _ _ _ _ _ _ _ H); left; reflexivity). rewrite S in E.
    assert (Wx : wants db jb arch r (fst x)) by (apply (i_wants _ _ _ _ _ _ _ _ _ H); left; reflexivity).
    pose proof (direct_ok db jb idx st fetch arch C1 C2 C3 (fst x) g ds g1 (i_seen _ _ _ _ _ _ _ _ _ H) D) as [_ [Sc _]].
    apply (IH _ _ _ out' g' (step_inv db jb idx st fetch arch C1 C2 C3 r x p out g ds g1 H D)); [|exact E].
    intros d J. apply in_app_iff in J as [J|J].
    - apply push_In in J as [J|J]; [apply T; right; apply in_or_app; left; exact J|]. rewrite Sc in J. exact (succs_comes r (fst x) d Wx J).
    - apply in_app_iff in J as [J|[<-|[]]]; [apply T; right; apply in_or_app; right; exact J|apply T; left; reflexivity].
  Qed.
  Lemma fold_new_In rest : forall l d, In d (fold_left add_new rest l) -> In d l \/ In d rest.
  Proof.
    induction rest as [|x t IH]; intros l d J; [left; exact J|]. cbn [fold_left] in J. apply IH in J as [J|J]; [|right; right; exact J].
    unfold add_new in J. destruct (existsb (fun i : str * Z => seqb (fst i) (fst x)) l); [left; exact J|]. apply in_app_iff in J as [J|[J|[]]]; [left; exact J|right; left; exact J].
  Qed.
  Lemma all_comes fuel rs : forall l g l' g', seen_ok db jb idx st arch g -> generate_all db jb idx st fetch fuel rs l g = Some (Ok (l', g')) ->
    seen_ok db jb idx st arch g' /\ forall d, In d l' -> In d l \/ exists r, In r rs /\ comes r d.
  Proof.
    induction rs as [|r t IH]; intros l g l' g' S E; cbn [generate_all] in E; [injection E as <- <-; auto|].
    unfold generate in E. destruct (loop db jb idx st fetch fuel [(r, 0%Z)] [] g) as [[[out g1]| |]|] eqn:Lo; try discriminate E.
    pose proof (loop_inv db jb idx st fetch arch C1 C2 C3 r fuel _ _ _ _ _ (start_inv db jb idx st arch r g S) Lo) as I1.
    destruct (IH _ _ _ _ (i_seen _ _ _ _ _ _ _ _ _ I1) E) as [S2 H]. split; [exact S2|]. intros d J. destruct (H d J) as [K|[q [K1 K2]]]; [|right; exists q; split; [right; exact K1|exact K2]].
    apply fold_new_In in K as [K|K]; [left; exact K|]. right. exists r. split; [left; reflexivity|]. apply in_rev in K.
    refine (loop_comes r fuel _ _ _ _ _ (start_inv db jb idx st arch r g S) _ Lo d K). intros y [<-|[]]. left. reflexivity.
  Qed.
End Times.

Section Resolve.
  Variable url : str.
  Variable repo : list (str * ent).
  Variable sha : str -> str.
  Variable key : Type.
  Variable pem : str -> option key.
  Variable verify : key -> str -> str -> bool.
  Variable unpack : str -> option archive.
  Variable db : list (str * rec).
  Variable jb : Z.
  Variable arch : str -> apkg.
  Notation resolve := (resolve url repo sha key pem verify unpack db jb).
  Notation fetch := (fetch url repo sha key pem verify unpack).
  Notation repo_idx := (repo_idx repo).
  Notation verified := (verified repo sha key pem verify).

  (** The public keys are genuine: a content that the index signature of [n] certifies under the public key found in its directory
      is the archive of [n]. *)
  Definition authentic (files : list (str * str)) : Prop :=
    forall n e pk k sg c, mget n repo = Some e -> mget (e_dir e ++ L "/.PKEY") files = Some pk -> pem pk = Some k -> decode (i_text "I" (e_rec e)) = Ok sg ->
      verify k sg (sha c) = true -> exists a, unpack c = Some a /\ read_arch a = Ok (arch n).
  (** the index lists the dependencies of the archive (which counts itself among them) *)
  Definition index_agrees : Prop := forall n e, mget n repo = Some e ->
    filter (fun d => negb (seqb (fst d) n)) (i_deps (e_rec e)) = filter (fun d => negb (seqb (fst d) n)) (a_deps (arch n)).

  Definition key_file (s : fstate) (n : str) : option str := match mget n repo with Some e => mget (e_dir e ++ L "/.PKEY") (f_files s) | None => None end.
  Definition keys_of (s : fstate) : list (option str) := map (fun x => key_file s (fst x)) repo.
  Variable s0 : fstate.
  Definition same_keys (s : fstate) : Prop := keys_of s = keys_of s0.
  Lemma list_opt_dec (a b : list (option str)) : {a = b} + {a <> b}.
  Proof. repeat decide equality. Defined.
  Definition fetch' (n : str) (s : fstate) : res (apkg * fstate) := if list_opt_dec (keys_of s) (keys_of s0) then fetch n s else Throw.
  Hypothesis Sp : separate repo.
  Hypothesis Hu : url <> [].
  Hypothesis Au : authentic (f_files s0).
  Hypothesis An : forall n, a_name (arch n) = n.
  Hypothesis Ix : index_agrees.

  Lemma key_of s n e : same_keys s -> mget n repo = Some e -> mget (e_dir e ++ L "/.PKEY") (f_files s) = mget (e_dir e ++ L "/.PKEY") (f_files s0).
  Proof.
    unfold same_keys, keys_of. intros K G. pose proof G as G0. apply mget_In in G.
    assert (Z : key_file s n = key_file s0 n).
    { clear G0. revert K G. generalize repo at 1 2 3 as r. induction r as [|x r IH]; intros K G; [destruct G|]. cbn [map] in K. injection K as K1 K2.
      destruct G as [->|G]; [exact K1|exact (IH K2 G)]. }
    unfold key_file in Z. rewrite G0 in Z. exact Z.
  Qed.
  Lemma only_keys n e s s' : mget n repo = Some e -> only e s s' -> same_keys s -> same_keys s'.
  Proof.
    intros G O K. unfold same_keys in *. rewrite <- K. unfold keys_of. apply map_ext. intros [m x]. cbn [fst]. unfold key_file. destruct (mget m repo) as [f|] eqn:Gm; [|reflexivity].
    apply O. intro Z. destruct Sp as [_ S2]. apply (S2 n m e f G Gm). symmetry. exact Z.
  Qed.
  (** the archive [a] is what the index signature of [n] certifies under the public key of its directory *)
  Definition certified (n : str) (a : archive) : Prop :=
    exists e c pk k sg, mget n repo = Some e /\ mget (e_dir e ++ L "/.PKEY") (f_files s0) = Some pk /\ pem pk = Some k /\ decode (i_text "I" (e_rec e)) = Ok sg /\
      verify k sg (sha c) = true /\ unpack c = Some a.
  Lemma verified_arch s n : same_keys s -> verified (f_files s) n -> exists a, archive_of repo unpack (f_files s) n = Some a /\ read_arch a = Ok (arch n) /\ certified n a.
  Proof.
    intros K [e [c [pk [k [sg [H1 [H2 [H3 [H4 [H5 H6]]]]]]]]]]. rewrite (key_of s n e K H1) in H3. destruct (Au n e pk k sg c H1 H3 H4 H5 H6) as [a [U R]].
    exists a. split; [unfold archive_of, e_path; rewrite H1, H2; exact U|]. split; [exact R|]. exists e, c, pk, k, sg. auto 8.
  Qed.
  Lemma fetch_arch n s a s' : same_keys s -> fetch n s = Ok (a, s') -> a = arch n /\ same_keys s' /\ verified (f_files s') n.
  Proof.
    intros K. unfold FetchModel.fetch. destruct (mget n repo) as [e|] eqn:He; [|discriminate]. destruct (obtain url sha key pem verify e s) as [s1| |] eqn:Ob; try discriminate. cbn [rbind].
    pose proof (only_keys n e s s1 He (obtain_only url sha key pem verify e s s1 Ob) K) as K1.
    pose proof (obtain_verified url repo sha key pem verify n e s s1 Hu He Ob) as V.
    destruct (verified_arch s1 n K1 V) as [ar [A [R _]]]. unfold archive_of in A. rewrite He in A. unfold read_file.
    destruct (mget (e_path e) (f_files s1)) as [c|]; [|discriminate A]. rewrite A, R. cbn [rbind]. intro H. inversion H; subst. auto.
  Qed.
  Lemma fetch_same n s : same_keys s -> fetch' n s = fetch n s.
  Proof. intro K. unfold fetch'. destruct (list_opt_dec (keys_of s) (keys_of s0)) as [_|N]; [reflexivity|]. exfalso. exact (N K). Qed.
  Lemma repo_idx_get n : mget n repo_idx = match mget n repo with Some e => Some (i_deps (e_rec e)) | None => None end.
  Proof. unfold FetchModel.repo_idx. clear. induction repo as [|[k e] r IH]; [reflexivity|]. cbn. destruct (seqb n k); [reflexivity|exact IH]. Qed.
  Lemma fetch'_consistent : consistent db jb repo_idx fstate fetch' arch.
  Proof.
    split; [|split; [exact An|]].
    - intros n s a s' _. unfold fetch'. destruct (list_opt_dec (keys_of s) (keys_of s0)) as [K|_]; [|discriminate]. intro H. apply (fetch_arch n s a s' K H).
    - intros n ds. rewrite repo_idx_get. destruct (mget n repo) as [e|] eqn:G; [|discriminate]. intro H. inversion H; subst. unfold others. rewrite (Ix n e G). reflexivity.
  Qed.
  Lemma predownload_keys ns : forall s s', predownload repo ns s = Ok s' -> same_keys s -> same_keys s'.
  Proof.
    induction ns as [|n t IH]; intros s s' E K; cbn [predownload] in E; [inversion E; subst; exact K|]. destruct (mget n repo) as [e|] eqn:He; [|exact (IH _ _ E K)].
    destruct (mget (e_path e) (f_files s)); [exact (IH _ _ E K)|]. destruct (download e s) as [s1| |] eqn:D; try discriminate E. cbn [rbind] in E.
    apply (IH _ _ E). exact (only_keys n e s s1 He (download_only e s s1 D) K).
  Qed.
  (** what is asked for besides: the group package <name>.<group> of everything that is wanted, if there is one *)
  Definition asked (requests groups : list str) (r : str) : Prop :=
    In r requests \/ exists q n g, In q requests /\ wants db jb arch q n /\ In g groups /\ r = n ++ L "." ++ g /\ mget r repo <> None.
  Lemma named_auth : forall s, same_keys s -> forall n e c a p, verified (f_files s) n -> mget n repo = Some e -> mget (e_dir e ++ L "/" ++ i_file (e_rec e)) (f_files s) = Some c -> unpack c = Some a -> read_arch a = Ok p -> a_name p = n.
  Proof.
    intros s K n e c a p V He Hc Hx Hr. destruct (verified_arch s n K V) as [ar [A [R _]]]. unfold archive_of, e_path in A. rewrite He, Hc, Hx in A. inversion A; subst. rewrite R in Hr. inversion Hr; subst. apply An.
  Qed.
  (** everything in the list has been verified *)
  Definition vst' (l : list dep) (g : gst fstate) : Prop := same_keys (g_st g) /\ forall n, In n (g_seen g) \/ In n (map fst l) -> verified (f_files (g_st g)) n.
  Lemma fetch_others n s a s' m : same_keys s -> fetch n s = Ok (a, s') -> verified (f_files s) m -> verified (f_files s') m.
  Proof.
    intros K E Vm. destruct (fetch_arch n s a s' K E) as [_ [_ V]]. destruct (str_eq_dec n m) as [->|Nm]; [exact V|].
    unfold FetchModel.fetch in E. destruct (mget n repo) as [e|] eqn:He; [|discriminate E]. destruct (obtain url sha key pem verify e s) as [s1| |] eqn:Ob; try discriminate E. cbn [rbind] in E.
    destruct (read_file unpack (e_path e) s1) as [p| |]; try discriminate E. cbn [rbind] in E. inversion E; subst.
    exact (verified_only repo sha key pem verify n e m s s' Sp He Nm (obtain_only url sha key pem verify e s s' Ob) Vm).
  Qed.
  Lemma direct_vst n g ds g' l : vst' l g -> direct db jb repo_idx fstate fetch n g = Ok (ds, g') -> vst' l g' /\ verified (f_files (g_st g')) n.
  Proof.
    intros [K V]. unfold direct. destruct (smem n (g_seen g)) eqn:M; [intro H; inversion H; subst; split; [split; assumption|apply V; left; apply smem_In, M]|].
    destruct (mget n repo_idx); [|discriminate]. destruct (fetch n (g_st g)) as [[a s']| |] eqn:F; try discriminate. cbn [rbind]. destruct (fetch_arch n (g_st g) a s' K F) as [En [K' Vn]].
    assert (Na : a_name a = n) by (rewrite En; apply An).
    destruct (uptodate db jb a); intro H; inversion H; subst ds g'; cbn [g_seen g_st]; (split; [split; [exact K'|]|exact Vn]); cbn [g_seen g_st].
    - intros m J. exact (fetch_others n _ a s' m K F (V m J)).
    - intros m [[J|J]|J]; [rewrite <- J, Na; exact Vn|exact (fetch_others n _ a s' m K F (V m (or_introl J)))|exact (fetch_others n _ a s' m K F (V m (or_intror J)))].
  Qed.
  Lemma loop_vst fuel : forall pend out g out' g' l, vst' (out ++ l) g -> loop db jb repo_idx fstate fetch fuel pend out g = Some (Ok (out', g')) -> vst' (out' ++ l) g'.
  Proof.
    induction fuel as [|f IH]; intros pend out g out' g' l V; destruct pend as [|x p]; cbn [loop].
    1,3: intro H; inversion H; subst; exact V.
    - discriminate.
    - destruct (direct db jb repo_idx fstate fetch (fst x) g) as [[ds g1]| |] eqn:D; try discriminate. destruct (direct_vst (fst x) g ds g1 (out ++ l) V D) as [[K1 V1] Vx].
      apply IH. destruct (same db jb x); [split; assumption|]. split; [exact K1|]. intros m [J|J]; [apply V1; auto|].
      rewrite <- app_assoc in J. rewrite map_app, in_app_iff in J. destruct J as [J|[<-|J]]; [apply V1; right; rewrite map_app, in_app_iff; auto|exact Vx|apply V1; right; rewrite map_app, in_app_iff; auto].
  Qed.
  Lemma all_vst fuel names : forall l g l' g', vst' l g -> generate_all db jb repo_idx fstate fetch fuel names l g = Some (Ok (l', g')) -> vst' l' g'.
  Proof.
    induction names as [|n t IH]; intros l g l' g' V; cbn [generate_all]; [intro H; inversion H; subst; exact V|].
    unfold generate. destruct (loop db jb repo_idx fstate fetch fuel [(n, 0%Z)] [] g) as [[[out g1]| |]|] eqn:E; try discriminate.
    destruct (loop_vst fuel _ [] g out g1 l V E) as [K1 V1]. apply IH. split; [exact K1|]. intros m [J|J]; [apply V1; auto|]. apply V1. right. rewrite map_app, in_app_iff.
    apply (add_new_names url sha key pem unpack) in J as [J|J]; [auto|]. rewrite map_rev in J. apply in_rev in J. auto.
  Qed.

  Lemma resolve_ok fuel requests groups l g : resolve fuel requests groups s0 = Some (Ok (l, g)) ->
    NoDup (map fst l) /\ (forall u x v, l = u ++ x :: v -> forall k, missing db jb arch (fst x) k -> In k (map fst u)) /\
    (forall n, In n (map fst l) <-> exists r, asked requests groups r /\ wants db jb arch r n) /\
    (forall d, In d l -> exists r, asked requests groups r /\ comes db jb arch r d) /\
    (forall n, In n (map fst l) -> exists a, archive_of repo unpack (f_files (g_st g)) n = Some a /\ read_arch a = Ok (arch n) /\ certified n a).
  Proof.
    unfold FetchModel.resolve. pose proof fetch'_consistent as [C1 [C2 C3]].
    assert (K0 : same_keys s0) by reflexivity.
    destruct (all_ext db jb repo_idx fstate fetch fetch' same_keys fetch_same (fun n s a s' K E => proj1 (proj2 (fetch_arch n s a s' K E))) fuel requests [] (G [] s0) K0) as [E1 P1].
    destruct (generate_all db jb repo_idx fstate fetch fuel requests [] (G [] s0)) as [[[l1 g1]| |]|] eqn:G1; try discriminate.
    destruct (predownload repo (gnames repo groups l1) (g_st g1)) as [s2| |] eqn:Pd; try discriminate. intro G2.
    pose proof (P1 l1 g1 eq_refl) as K1. pose proof (predownload_keys _ _ _ Pd K1) as K2.
    destruct (all_ext db jb repo_idx fstate fetch fetch' same_keys fetch_same (fun n s a s' K E => proj1 (proj2 (fetch_arch n s a s' K E))) fuel (set_of (gnames repo groups l1)) l1 (G (g_seen g1) s2) K2) as [E2 P2].
    destruct (generate_all_ok db jb repo_idx fstate fetch' arch C1 C2 C3 fuel requests [] (G [] s0) l1 g1) as [S1 [N1 [O1 W1]]]; [intros n []|constructor|intros u x v H; destruct u; discriminate|exact E1|].
    rewrite <- E2 in G2.
    destruct (generate_all_ok db jb repo_idx fstate fetch' arch C1 C2 C3 fuel (set_of (gnames repo groups l1)) l1 (G (g_seen g1) s2) l g S1 N1 O1 G2) as [S3 [N3 [O3 W3]]].
    assert (Gn : forall r, In r (set_of (gnames repo groups l1)) -> asked requests groups r).
    { intros r J. apply (proj1 (set_of_In _ _)) in J. unfold gnames in J.
      apply filter_In in J as [J B]. apply in_flat_map in J as [gr [J1 J2]]. apply in_map_iff in J2 as [d [J2 J3]].
      apply (in_map fst) in J3. apply W1 in J3 as [[]|[q [J3 J4]]]. right. exists q, (fst d), gr. split; [exact J3|]. split; [exact J4|]. split; [exact J1|]. split; [symmetry; exact J2|].
      destruct (mget r repo); [discriminate|discriminate B]. }
    split; [exact N3|]. split; [exact O3|]. split.
    - intro n. rewrite (W3 n), (W1 n). split.
      + intros [[[]|[r [J W]]]|[r [J W]]]; [exists r; split; [left; exact J|exact W]|]. exists r. split; [apply Gn, J|exact W].
      + intros [r [[J|(q & k & gr & J1 & J2 & J3 & J4 & J5)] W]]; [left; right; exists r; auto|]. right. exists r. split; [|exact W]. apply (proj2 (set_of_In _ _)). unfold gnames.
        apply filter_In. split; [|destruct (mget r repo); [reflexivity|congruence]]. apply in_flat_map. exists gr. split; [exact J3|].
        assert (Jk : In k (map fst l1)) by (apply W1; right; exists q; auto). apply in_map_iff in Jk as [d [Jd Jk]]. apply in_map_iff. exists d. split; [subst k; symmetry; exact J4|exact Jk].
    - split.
      { pose proof (all_comes db jb repo_idx fstate fetch' arch C1 C2 C3 fuel requests [] (G [] s0) l1 g1 (fun n J => match J with end) E1) as [_ T1].
        pose proof (all_comes db jb repo_idx fstate fetch' arch C1 C2 C3 fuel (set_of (gnames repo groups l1)) l1 (G (g_seen g1) s2) l g S1 G2) as [_ T2].
        intros d J. destruct (T2 d J) as [Q|[r [Q1 Q2]]].
        - destruct (T1 d Q) as [[]|[r [Q1 Q2]]]. exists r. split; [left; exact Q1|exact Q2].
        - exists r. split; [|exact Q2]. apply Gn, Q1. }
      assert (V1 : vst' l1 g1) by (apply (all_vst fuel requests [] (G [] s0) l1 g1); [split; [exact K0|intros n [[]|[]]]|exact G1]).
      assert (V2 : vst' l1 (G (g_seen g1) s2)).
      { split; [exact K2|]. intros n J. exact (predownload_verified repo sha key pem verify _ _ _ Sp Pd n (proj2 V1 n J)). }
      rewrite E2 in G2. pose proof (all_vst _ _ _ _ _ _ V2 G2) as [K3 V3]. intros n J. apply verified_arch; [exact K3|]. apply V3. right. exact J.
  Qed.
End Resolve.
