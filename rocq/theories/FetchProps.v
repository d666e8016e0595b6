(** C28: what is handed to the installer has been verified. *)
From Verif Require Import Base BaseProofs StrModel RulesModel FsModel MetaModel DbModel GenDeps HexModel HexProps IndexModel FetchModel.
From Coq Require Import ZArith Lia.

Section Props.
  Variable url : str.
  Variable repo : list (str * ent).
  Variable sha : str -> str.
  Variable key : Type.
  Variable pem : str -> option key.
  Variable verify : key -> str -> str -> bool.
  Variable unpack : str -> option archive.
  Variable db : list (str * rec).
  Variable jb : Z.
  Notation resolve := (resolve url repo sha key pem verify unpack db jb).
  Notation fetch := (fetch url repo sha key pem verify unpack).
  Notation repo_idx := (repo_idx repo).
  (** the file of package [n] as it is in [files], the public key file of its directory and the signature in the index fit together *)
  Definition verified (files : list (str * str)) (n : str) : Prop :=
    exists e c pk k sg, mget n repo = Some e /\ mget (e_dir e ++ L "/" ++ i_file (e_rec e)) files = Some c /\ mget (e_dir e ++ L "/.PKEY") files = Some pk /\ pem pk = Some k /\
      decode (i_text "I" (e_rec e)) = Ok sg /\ verify k sg (sha c) = true.
  (** different packages have different files, and no package file is a key file *)
  Definition separate : Prop :=
    (forall n m e f, mget n repo = Some e -> mget m repo = Some f -> e_dir e ++ L "/" ++ i_file (e_rec e) = e_dir f ++ L "/" ++ i_file (e_rec f) -> n = m) /\
    (forall n m e f, mget n repo = Some e -> mget m repo = Some f -> e_dir e ++ L "/" ++ i_file (e_rec e) <> e_dir f ++ L "/.PKEY").
  (** a verified archive bears the name under which the index lists it *)
  Definition named : Prop :=
    forall files n e c a p, verified files n -> mget n repo = Some e -> mget (e_dir e ++ L "/" ++ i_file (e_rec e)) files = Some c -> unpack c = Some a -> read_arch a = Ok p -> a_name p = n.

  Lemma download_files e s s' : download e s = Ok s' -> f_files s' = f_files s \/ exists c, f_files s' = mset (e_path e) c (f_files s).
  Proof. unfold download. destruct (f_net s) as [|[[c|]|] t]; try discriminate; intro H; inversion H; cbn; eauto. Qed.
  (** files other than the package's own are unchanged *)
  Definition only (e : ent) (s s' : fstate) : Prop := forall p, p <> e_path e -> mget p (f_files s') = mget p (f_files s).
  Lemma download_only e s s' : download e s = Ok s' -> only e s s'.
  Proof. intros H p Np. destruct (download_files e s s' H) as [-> | [c ->]]; [reflexivity|]. rewrite mget_mset, (proj2 (seqb_neq p (e_path e)) Np). reflexivity. Qed.
  Lemma only_trans e a b c : only e a b -> only e b c -> only e a c.
  Proof. intros H K p Np. rewrite (K p Np). exact (H p Np). Qed.
  Lemma only_refl e a : only e a a. Proof. intros p _. reflexivity. Qed.
  Lemma obtain_only e s s' : obtain url sha key pem verify e s = Ok s' -> only e s s'.
  Proof.
    unfold obtain. destruct (length url =? 0); [intro H; inversion H; apply only_refl|].
    destruct (mget (e_path e) (f_files s)) as [c|] eqn:Ex.
    - cbn [rbind]. destruct (hash_of sha (e_path e) s) as [h| |]; try discriminate. cbn [rbind]. destruct (same_hash h e).
      + cbn [rbind]. destruct (check_sign sha key pem verify e s) as [[]| |]; try discriminate. cbn [rbind]. intro H; inversion H; apply only_refl.
      + destruct (download e s) as [s2| |] eqn:D; try discriminate. cbn [rbind]. destruct (check_sign sha key pem verify e s2) as [[]| |]; try discriminate. cbn [rbind]. intro H; inversion H; subst. apply download_only, D.
    - destruct (download e s) as [s1| |] eqn:D1; try discriminate. cbn [rbind]. destruct (hash_of sha (e_path e) s1) as [h| |]; try discriminate. cbn [rbind]. destruct (same_hash h e).
      + cbn [rbind]. destruct (check_sign sha key pem verify e s1) as [[]| |]; try discriminate. cbn [rbind]. intro H; inversion H; subst. apply download_only, D1.
      + destruct (download e s1) as [s2| |] eqn:D; try discriminate. cbn [rbind]. destruct (check_sign sha key pem verify e s2) as [[]| |]; try discriminate. cbn [rbind]. intro H; inversion H; subst.
        apply only_trans with s1; apply download_only; assumption.
  Qed.
  Lemma check_sign_true n e s : mget n repo = Some e -> check_sign sha key pem verify e s = Ok true -> verified (f_files s) n.
  Proof.
    intros Hn. unfold check_sign, hash_of. destruct (mget (e_path e) (f_files s)) as [c|] eqn:Ec; [|discriminate]. cbn [rbind]. rewrite C29_round_trip. cbn [rbind].
    destruct (mget (e_key e) (f_files s)) as [pk|] eqn:Ek; [|discriminate]. destruct (pem pk) as [k|] eqn:Ep; [|discriminate].
    destruct (decode (i_text "I" (e_rec e))) as [sg| |] eqn:Ed; try discriminate. cbn [rbind]. intro H. exists e, c, pk, k, sg. split; [exact Hn|]. split; [exact Ec|]. split; [exact Ek|]. split; [exact Ep|]. split; [exact Ed|]. congruence.
  Qed.
  Lemma obtain_verified n e s s' : url <> [] -> mget n repo = Some e -> obtain url sha key pem verify e s = Ok s' -> verified (f_files s') n.
  Proof.
    intros Hu Hn. unfold obtain. destruct url as [|u0 u]; [contradiction|]. cbn [List.length Nat.eqb].
    destruct (match mget (e_path e) (f_files s) with Some _ => Ok s | None => download e s end) as [s1| |]; try discriminate. cbn [rbind].
    destruct (hash_of sha (e_path e) s1) as [h| |]; try discriminate. cbn [rbind]. destruct (if same_hash h e then Ok s1 else download e s1) as [s2| |]; try discriminate. cbn [rbind].
    destruct (check_sign sha key pem verify e s2) as [[]| |] eqn:C; try discriminate. cbn [rbind]. intro H. inversion H; subst. apply (check_sign_true n e s' Hn C).
  Qed.
  (** what the network is asked for: the content [c] agrees with the hash of the index, written in upper or lower case *)
  Definition agrees (e : ent) (c : str) : Prop := lower_case (hex (sha c)) = lower_case (i_text "H" (e_rec e)).
  (** one answer of the server, which is not a failure, and what becomes of the depot *)
  Definition answered (e : ent) (s s' : fstate) : Prop :=
    exists x, f_net s = Some x :: f_net s' /\ f_files s' = match x with Some c => mset (e_dir e ++ L "/" ++ i_file (e_rec e)) c (f_files s) | None => f_files s end.
  Lemma download_answered e s s' : download e s = Ok s' -> answered e s s'.
  Proof.
    unfold download. destruct (f_net s) as [|[[c|]|] t] eqn:N; try discriminate; intro H; injection H as <-.
    - exists (Some c). split; [exact N|reflexivity].
    - exists None. split; [exact N|reflexivity].
  Qed.
  Lemma same_hash_spec c e : (same_hash (hex (sha c)) e = true -> agrees e c) /\ (same_hash (hex (sha c)) e = false -> ~ agrees e c).
  Proof. unfold same_hash, agrees. split; intro H; [apply (proj1 (seqb_eq _ _) H)|apply (proj1 (seqb_neq _ _) H)]. Qed.
  (** *** an archive that is in the depot and agrees with the hash of the index is not downloaded; one that does not is downloaded once; one that is not
      there is downloaded, and once more if what came does not agree *)
  Theorem C28_traffic n e s a s' : url <> [] -> mget n repo = Some e -> fetch n s = Ok (a, s') ->
    match mget (e_dir e ++ L "/" ++ i_file (e_rec e)) (f_files s) with
    | Some c => (agrees e c -> s' = s) /\ (~ agrees e c -> answered e s s')
    | None => exists s1 c, answered e s s1 /\ mget (e_dir e ++ L "/" ++ i_file (e_rec e)) (f_files s1) = Some c /\ (agrees e c -> s' = s1) /\ (~ agrees e c -> answered e s1 s')
    end.
  Proof.
    intros Hu He. unfold FetchModel.fetch. rewrite He. destruct (obtain url sha key pem verify e s) as [s2| |] eqn:Ob; try discriminate. cbn [rbind].
    destruct (read_file unpack (e_path e) s2) as [p| |]; try discriminate. cbn [rbind]. intro X. injection X as _ <-. revert Ob. unfold obtain.
    destruct url as [|u0 u]; [contradiction|]. cbn [List.length Nat.eqb].
    assert (K : forall s1, rbind (hash_of sha (e_path e) s1) (fun h => rbind (if same_hash h e then Ok s1 else download e s1) (fun s2 => rbind (check_sign sha key pem verify e s2) (fun ok : bool => if ok then Ok s2 else Throw))) = Ok s2 ->
      exists c, mget (e_path e) (f_files s1) = Some c /\ (agrees e c -> s2 = s1) /\ (~ agrees e c -> answered e s1 s2)).
    { intros s1. unfold hash_of. destruct (mget (e_path e) (f_files s1)) as [c|]; [|discriminate]. cbn [rbind]. intro H. exists c. split; [reflexivity|].
      destruct (same_hash_spec c e) as (S1 & S2). destruct (same_hash (hex (sha c)) e).
      - split; [|intro Z; destruct (Z (S1 eq_refl))]. intros _. cbn [rbind] in H. destruct (check_sign sha key pem verify e s1) as [[]| |]; try discriminate H. injection H as <-. reflexivity.
      - split; [intro Z; destruct (S2 eq_refl Z)|]. intros _. destruct (download e s1) as [s3| |] eqn:D; try discriminate H. cbn [rbind] in H.
        destruct (check_sign sha key pem verify e s3) as [[]| |]; try discriminate H. injection H as <-. apply (download_answered e s1 s3 D). }
    change (e_dir e ++ L "/" ++ i_file (e_rec e)) with (e_path e). destruct (mget (e_path e) (f_files s)) as [c|] eqn:Ex.
    - cbn [rbind]. intro H. destruct (K s H) as (c' & E & Z). rewrite Ex in E. injection E as <-. exact Z.
    - destruct (download e s) as [s1| |] eqn:D; try discriminate. cbn [rbind]. intro H. destruct (K s1 H) as (c' & E & Z1 & Z2). exists s1, c'.
      split; [apply (download_answered e s s1 D)|]. split; [exact E|]. split; assumption.
  Qed.
  (** what was verified stays verified when another package's file changes *)
  Lemma verified_only m e n (s s' : fstate) : separate -> mget m repo = Some e -> m <> n -> only e s s' -> verified (f_files s) n -> verified (f_files s') n.
  Proof.
    intros [S1 S2] He Nm O [f [c [pk [k [sg [H1 [H2 [H3 H4]]]]]]]]. exists f, c, pk, k, sg. split; [exact H1|].
    assert (N1 : e_dir f ++ L "/" ++ i_file (e_rec f) <> e_path e) by (intro K; apply Nm; symmetry; exact (S1 n m f e H1 He K)).
    assert (N2 : e_dir f ++ L "/.PKEY" <> e_path e) by (intro K; apply (S2 m n e f He H1); symmetry; exact K).
    split; [rewrite (O _ N1); exact H2|]. split; [rewrite (O _ N2); exact H3|exact H4].
  Qed.
  Lemma fetch_verified n s a s' : separate -> named -> url <> [] -> fetch n s = Ok (a, s') -> a_name a = n /\ verified (f_files s') n /\ forall m, verified (f_files s) m -> verified (f_files s') m.
  Proof.
    intros Sp Na Hu. unfold FetchModel.fetch. destruct (mget n repo) as [e|] eqn:He; [|discriminate]. destruct (obtain url sha key pem verify e s) as [s1| |] eqn:Ob; try discriminate. cbn [rbind].
    unfold read_file. destruct (mget (e_path e) (f_files s1)) as [c|] eqn:Ec; [|discriminate]. destruct (unpack c) as [ar|] eqn:Eu; [|discriminate]. destruct (read_arch ar) as [p| |] eqn:Er; try discriminate. cbn [rbind].
    intro H. inversion H; subst. pose proof (obtain_verified n e s s' Hu He Ob) as V. split; [exact (Na (f_files s') n e c ar a V He Ec Eu Er)|]. split; [exact V|].
    intros m Vm. destruct (list_eq_dec ascii_dec n m) as [->|Nm]; [exact V|]. exact (verified_only n e m s s' Sp He Nm (obtain_only e s s' Ob) Vm).
  Qed.
  Definition vst (l : list dep) (g : gst fstate) : Prop := forall n, In n (g_seen g) \/ In n (map fst l) -> verified (f_files (g_st g)) n.
  Lemma direct_verified n g ds g' l : separate -> named -> url <> [] -> vst l g -> direct db jb repo_idx fstate fetch n g = Ok (ds, g') -> vst l g' /\ verified (f_files (g_st g')) n.
  Proof.
    intros Sp Na Hu V. unfold direct. destruct (smem n (g_seen g)) eqn:M; [intro H; inversion H; subst; split; [exact V|apply V; left; apply smem_In, M]|].
    destruct (mget n repo_idx); [|discriminate]. destruct (fetch n (g_st g)) as [[a s']| |] eqn:F; try discriminate. cbn [rbind]. destruct (fetch_verified n (g_st g) a s' Sp Na Hu F) as [En [Vn K]].
    destruct (uptodate db jb a); intro H; inversion H; subst; cbn [g_seen g_st]; (split; [|exact Vn]); unfold vst; cbn [g_seen g_st].
    - intros m I. apply K, V, I.
    - intros m [[<-|I]|I]; [exact Vn|apply K, V; auto|apply K, V; auto].
  Qed.
  Lemma loop_verified fuel : forall pend out g out' g' l, separate -> named -> url <> [] -> vst (out ++ l) g -> loop db jb repo_idx fstate fetch fuel pend out g = Some (Ok (out', g')) -> vst (out' ++ l) g'.
  Proof.
    induction fuel as [|f IH]; intros pend out g out' g' l Sp Na Hu V; destruct pend as [|x p]; cbn [loop].
    1,3: intro H; inversion H; subst; exact V.
    - discriminate.
    - destruct (direct db jb repo_idx fstate fetch (fst x) g) as [[ds g1]| |] eqn:D; try discriminate. destruct (direct_verified (fst x) g ds g1 (out ++ l) Sp Na Hu V D) as [V1 Vx].
      intro H. refine (IH _ _ _ _ _ l Sp Na Hu _ H). destruct (same db jb x); [exact V1|]. intros m [I|I]; [apply V1; auto|]. rewrite !map_app, !in_app_iff in I. cbn in I.
      destruct I as [[I|[<-|[]]]|I]; [apply V1; right; rewrite map_app, in_app_iff; auto|exact Vx|apply V1; right; rewrite map_app, in_app_iff; auto].
  Qed.
  Lemma add_new_names out : forall l n, In n (map fst (fold_left add_new out l)) -> In n (map fst l) \/ In n (map fst out).
  Proof.
    induction out as [|x t IH]; intros l n; cbn [fold_left]; [auto|]. intro H. apply IH in H as [H|H]; [|cbn; auto]. unfold add_new in H. destruct (existsb (fun i => seqb (fst i) (fst x)) l); [auto|].
    rewrite map_app, in_app_iff in H. cbn in *. tauto.
  Qed.
  Lemma generate_all_verified fuel names : forall l g l' g', separate -> named -> url <> [] -> vst l g -> generate_all db jb repo_idx fstate fetch fuel names l g = Some (Ok (l', g')) -> vst l' g'.
  Proof.
    induction names as [|n t IH]; intros l g l' g' Sp Na Hu V; cbn [generate_all]; [intro H; inversion H; subst; exact V|].
    unfold generate. destruct (loop db jb repo_idx fstate fetch fuel [(n, 0%Z)] [] g) as [[[out g1]| |]|] eqn:E; try discriminate.
    pose proof (loop_verified fuel _ [] g out g1 l Sp Na Hu V E) as V1. apply (IH _ _ _ _ Sp Na Hu).
    intros m [I|I]; [apply V1; auto|]. apply V1. right. rewrite map_app, in_app_iff. apply add_new_names in I as [I|I]; [auto|]. rewrite map_rev in I. apply in_rev in I. auto.
  Qed.
  Lemma predownload_verified ns : forall s s', separate -> predownload repo ns s = Ok s' -> forall m, verified (f_files s) m -> verified (f_files s') m.
  Proof.
    induction ns as [|n t IH]; intros s s' Sp; cbn [predownload]; [intro H; inversion H; auto|]. destruct (mget n repo) as [e|] eqn:He; [|apply IH, Sp].
    destruct (mget (e_path e) (f_files s)) as [c|] eqn:Ec; [cbn [rbind]; apply IH, Sp|]. destruct (download e s) as [s1| |] eqn:D; try discriminate. cbn [rbind]. intros H m V. apply (IH s1 s' Sp H).
    destruct (list_eq_dec ascii_dec n m) as [->|Nm]; [|exact (verified_only n e m s s1 Sp He Nm (download_only e s s1 D) V)].
    exfalso. destruct V as [f [c [pk [k [sg [H1 [H2 _]]]]]]]. rewrite He in H1. inversion H1; subst. unfold e_path in Ec. congruence.
  Qed.
  (** Every package that 'cards install' hands to the installer - requested packages, dependencies and group packages - has been
      verified: when the installer starts, the signature in the index, the public key of the directory and the file fit together.
      For every answer of the server and every previous content of the directories. Missing: configurations without a "url" line
      (C28_no_url_refuted), archives that bear another name than the index says (C28_other_name_refuted), hashes (C28_hash_refuted),
      and archives given by path, which are never checked (install.cxx:41-64). *)
  Theorem C28_verified_partial fuel requests groups s l g : url <> [] -> separate -> named ->
    resolve fuel requests groups s = Some (Ok (l, g)) -> forall n, In n (map fst l) -> verified (f_files (g_st g)) n.
  Proof.
    intros Hu Sp Na. unfold FetchModel.resolve. destruct (generate_all db jb repo_idx fstate fetch fuel requests [] (G [] s)) as [[[l1 g1]| |]|] eqn:E; try discriminate.
    assert (V0 : vst [] (G [] s)) by (intros n [[]|[]]). pose proof (generate_all_verified _ _ _ _ _ _ Sp Na Hu V0 E) as V1.
    destruct (predownload repo (gnames repo groups l1) (g_st g1)) as [s2| |] eqn:P; try discriminate. intros H n I.
    assert (V2 : vst l1 (G (g_seen g1) s2)) by (intros m J; exact (predownload_verified _ _ _ Sp P m (V1 m J))).
    exact (generate_all_verified _ _ _ _ _ _ Sp Na Hu V2 H n (or_intror I)).
  Qed.
End Props.
