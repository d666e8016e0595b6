(** C85: publishing a collection. *)
From Verif Require Import Base BaseProofs StrModel FsModel FsProofs MetaModel DbModel GenDeps HexModel HexProps IndexModel IndexProofs IndexProps FetchModel ConfModel SyncModel FilesModel RepoModel.
From Verif Require FootProps.
From Coq Require Import ZArith.

(** ** specification *)
(** the files a collection publishes: those below its directory on whose way no name begins with a dot *)
Definition below (dir f : str) : Prop := exists rel, f = dir ++ L "/" ++ rel /\ ~ occurs (L "/.") (L "/" ++ rel).
(** the four files that publishing a collection writes *)
Definition own_names : list str := [L ".REPO"; L ".FILES"; L ".REPO.zst"; L ".FILES.zst"].
Definition own (d : dirurl) (p : str) : Prop := exists n, In n own_names /\ p = u_depot d ++ L "/" ++ u_coll d ++ L "/" ++ n.

Section Publish.
  Variable sha : str -> str.
  Variable unpack : str -> option archive.
  Variable sign : str -> option str.
  Variable zip : str -> str.
  Variable can : str -> bool.
  (** what the two indexes must say of the archive file [f] *)
  Record described (s : store) (f : str) (g : gpkg) (a : farch) : Prop := Desc {
    ds_name : exists dir, f = dir ++ L "/" ++ gp_file g /\ ~ In "/"%char (gp_file g);
    ds_same : fa_file a = gp_file g;
    ds_content : exists c ar mtree sg, mget f s = Some c /\ unpack c = Some ar /\
      member_lines ar (L ".META") = Ok (gp_meta g) /\ (exists n, first_tag "N" (gp_meta g) = Some n) /\
      member_lines ar (L ".MTREE") = Ok mtree /\ mtree <> [] /\
      (forall x, In x (fa_files a) <-> In x mtree /\ ~ exists t, x = "."%char :: t) /\
      gp_hash g = hex (sha c) /\ sign (sha c) = Some sg /\ gp_sig g = hex sg /\ gp_size g = N.of_nat (length c);
    ds_sorted : ssorted (fa_files a) }.
  (** the collection [d] as it is in [s] has been published in [s'] *)
  Record published (d : dirurl) (s s' : store) (fs : list str) (gs : list gpkg) (fas : list farch) : Prop := Pub {
    pb_sorted : ssorted fs;
    pb_files : forall f, In f fs <-> below (u_depot d ++ L "/" ++ u_coll d) f /\ exists c, mget f s = Some c;
    pb_len : length gs = length fs /\ length fas = length fs;
    pb_desc : forall i f g a, nth_error fs i = Some f -> nth_error gs i = Some g -> nth_error fas i = Some a -> described s f g a;
    pb_repo : mget (in_coll d (L ".REPO")) s' = Some (gen_index gs);
    pb_list : mget (in_coll d (L ".FILES")) s' = Some (files_index fas);
    pb_repoz : mget (in_coll d (L ".REPO.zst")) s' = Some (zip (gen_index gs));
    pb_listz : mget (in_coll d (L ".FILES.zst")) s' = Some (zip (files_index fas)) }.

  (** ** proofs *)
  Notation paras := (paras sha unpack sign).
  Notation publish := (publish sha unpack sign zip can).
  Notation publishes := (publishes sha unpack sign zip can).
  Lemma coll_path_eq d : coll_path d = u_depot d ++ L "/" ++ u_coll d.
  Proof. reflexivity. Qed.
  Lemma own_in d p : own d p <-> exists n, In n own_names /\ p = in_coll d n.
  Proof.
    split; intros [n [I E]]; exists n; (split; [exact I|]); rewrite E; unfold in_coll; rewrite coll_path_eq, <- !app_assoc; reflexivity.
  Qed.
  Lemma own_noslash n : In n own_names -> ~ In slash n.
  Proof. intros I H. repeat (destruct I as [<-|I]; [cbn in H; repeat (destruct H as [H|H]; [discriminate H|]); exact H|]). destruct I. Qed.
  Lemma own_dot n : In n own_names -> exists t, n = "."%char :: t.
  Proof. intro I. repeat (destruct I as [<-|I]; [eexists; reflexivity|]). destruct I. Qed.
  Lemma in_coll_split d d' n n' : ~ In slash n -> ~ In slash n' -> in_coll d n = in_coll d' n' -> coll_path d = coll_path d' /\ n = n'.
  Proof. unfold in_coll. intros A B E. exact (FootProps.right_split slash (coll_path d) (coll_path d') n n' A B E). Qed.

  Lemma visible_spec dir p : visible dir p = true <-> below dir p.
  Proof.
    unfold visible, below. rewrite andb_true_iff. split.
    - intros [A B]. apply prefixb_spec in A as [t A]. exists t. split; [rewrite A, <- app_assoc; reflexivity|].
      rewrite A, <- app_assoc, skipn_app, skipn_all, Nat.sub_diag in B. cbn [skipn app] in B.
      destruct (sfind (L "/.") (slash :: t)) eqn:E; [discriminate B|]. apply sfind_None in E. exact E.
    - intros [t [A N]]. split; [apply prefixb_spec; exists t; rewrite A, <- app_assoc; reflexivity|].
      rewrite A, skipn_app, skipn_all, Nat.sub_diag. cbn [skipn]. change ([] ++ L "/" ++ t) with (L "/" ++ t). apply sfind_None in N. rewrite N. reflexivity.
  Qed.
  (** the files that publishing writes are not themselves published *)
  Lemma own_hidden dir d n : In n own_names -> visible dir (in_coll d n) = false.
  Proof.
    intro I. destruct (visible dir (in_coll d n)) eqn:E; [|reflexivity]. exfalso. apply visible_spec in E as [rel [E N]]. apply N.
    unfold in_coll in E. destruct (own_dot n I) as [t Et].
    apply app_eq_app in E as [l [[E1 E2]|[E1 E2]]].
    - destruct l as [|x l].
      + cbn [app] in E2. rewrite E2. exists [], t. subst n. reflexivity.
      + rewrite E2, Et. exists (x :: l), t. reflexivity.
    - destruct l as [|x l].
      + cbn [app] in E2. change (L "/" ++ rel) with (slash :: rel) in *. rewrite <- E2, Et. exists [], t. reflexivity.
      + exfalso. cbn [app] in E2. injection E2 as Ex E2. apply (own_noslash n I). rewrite E2. apply in_app_iff. right. left. reflexivity.
  Qed.
  Lemma walk_In dir s f : In f (walk dir s) <-> below dir f /\ exists c, mget f s = Some c.
  Proof.
    unfold walk. rewrite set_of_In, filter_In, visible_spec. split.
    - intros [A B]. split; [exact B|]. destruct (mget f s) as [c|] eqn:E; [exists c; reflexivity|]. apply mget_None in E. contradiction.
    - intros [A [c B]]. split; [|exact A]. apply mget_In in B. unfold keys. apply in_map_iff. exists (f, c). split; [reflexivity|exact B].
  Qed.
  Lemma base_of_app dir n : ~ In slash n -> base_of (dir ++ slash :: n) = n.
  Proof.
    intro N. unfold base_of. rewrite (crfind_app slash dir n N). replace (dir ++ slash :: n) with ((dir ++ [slash]) ++ n) by (rewrite <- app_assoc; reflexivity).
    replace (S (length dir)) with (length (dir ++ [slash])) by (rewrite app_length; cbn [length]; lia). rewrite skipn_app, skipn_all, Nat.sub_diag. reflexivity.
  Qed.
  Lemma base_of_spec f : In slash f -> exists dir, f = dir ++ slash :: base_of f /\ ~ In slash (base_of f).
  Proof.
    intro I. unfold base_of. destruct (crfind slash f) as [n|] eqn:E; [|apply crfind_None in E; contradiction].
    apply crfind_Some in E as (_ & N & E). exists (firstn n f). split; assumption.
  Qed.
  Lemma open_arch_spec a meta files : open_arch a = Ok (meta, files) <->
    exists mtree n, member_lines a (L ".META") = Ok meta /\ member_lines a (L ".MTREE") = Ok mtree /\ mtree <> [] /\ first_tag "N" meta = Some n /\
      files = set_of (filter (fun l => negb (has_tag "." l)) mtree).
  Proof.
    unfold open_arch. split.
    - intro E. destruct (member_lines a (L ".MTREE")) as [mtree| |]; try discriminate E. cbn [rbind] in E.
      destruct (member_lines a (L ".META")) as [me| |]; try discriminate E. cbn [rbind] in E. destruct me as [|m0 me]; [discriminate E|]. destruct mtree as [|t0 mtree]; [discriminate E|].
      destruct (first_tag "N" (m0 :: me)) as [n|] eqn:F; [|discriminate E]. injection E as <- <-. exists (t0 :: mtree), n.
      split; [reflexivity|]. split; [reflexivity|]. split; [discriminate|]. split; [exact F|reflexivity].
    - intros (mtree & n & A & B & C & D & ->). rewrite A, B. cbn [rbind]. destruct meta as [|m0 me]; [discriminate D|]. destruct mtree as [|t0 mtree]; [contradiction C; reflexivity|]. rewrite D. reflexivity.
  Qed.
  Lemma dotted x : has_tag "." x = true <-> exists t, x = "."%char :: t.
  Proof.
    destruct x as [|c x]; cbn [has_tag]; [split; [discriminate|intros [t E]; discriminate E]|]. split.
    - intro E. apply ceqb_eq in E. subst c. exists x. reflexivity.
    - intros [t E]. injection E as -> _. apply ceqb_refl.
  Qed.
  Lemma plain_files mtree x : In x (set_of (filter (fun l => negb (has_tag "." l)) mtree)) <-> In x mtree /\ ~ exists t, x = "."%char :: t.
  Proof.
    rewrite set_of_In, filter_In. rewrite <- dotted. destruct (has_tag "." x); cbn [negb]; split; intros [A B]; (split; [exact A|]); congruence.
  Qed.
  (** a published archive *)
  Definition good (s : store) (f : str) : Prop := exists c ar meta files sg, mget f s = Some c /\ unpack c = Some ar /\ open_arch ar = Ok (meta, files) /\ sign (sha c) = Some sg.
  Lemma paras_ok s fs : forall mp fp mp' fp', Forall (fun f => In slash f) fs -> paras s fs mp fp = (mp', fp', Ok tt) ->
    exists gs fas, length gs = length fs /\ length fas = length fs /\ mp' = mp ++ flat_map gen_lines gs /\ fp' = fp ++ files_lines fas /\
      forall i f g a, nth_error fs i = Some f -> nth_error gs i = Some g -> nth_error fas i = Some a -> described s f g a.
  Proof.
    induction fs as [|f fs IH]; intros mp fp mp' fp' Sl E; cbn [RepoModel.paras] in E.
    - injection E as <- <-. exists [], []. split; [reflexivity|]. split; [reflexivity|]. split; [rewrite app_nil_r; reflexivity|]. split; [unfold files_lines; rewrite app_nil_r; reflexivity|]. intros [|i] f g a H; discriminate H.
    - inversion Sl as [|? ? Sf Sl']; subst. destruct (mget f s) as [c|] eqn:Ec; [|discriminate E].
      destruct (unpack c) as [ar|] eqn:Eu; [|discriminate E]. destruct (open_arch ar) as [[meta files]| |] eqn:Eo; try discriminate E.
      rewrite C29_round_trip in E. destruct (sign (sha c)) as [sg|] eqn:Es; [|discriminate E].
      destruct (IH _ _ _ _ Sl' E) as (gs & fas & L1 & L2 & -> & -> & D).
      exists (Gp (base_of f) meta (hex (sha c)) (hex sg) (N.of_nat (length c)) :: gs), (FA (base_of f) files :: fas).
      split; [cbn [length]; rewrite L1; reflexivity|]. split; [cbn [length]; rewrite L2; reflexivity|].
      split; [cbn [flat_map]; unfold gen_lines at 2, gen_tail; cbn [gp_file gp_meta gp_hash gp_sig gp_size]; rewrite <- !app_assoc; cbn [app]; rewrite <- !app_assoc; reflexivity|].
      split; [unfold files_lines; cbn [flat_map]; unfold files_par at 2; cbn [fa_file fa_files]; rewrite <- !app_assoc; cbn [app]; rewrite <- !app_assoc; reflexivity|].
      intros [|i] f' g a H1 H2 H3; [|exact (D i f' g a H1 H2 H3)]. injection H1 as <-. injection H2 as <-. injection H3 as <-.
      apply open_arch_spec in Eo as (mtree & n & A & B & C & F & ->). constructor; cbn [gp_file gp_meta gp_hash gp_sig gp_size fa_file fa_files].
      + apply base_of_spec, Sf.
      + reflexivity.
      + exists c, ar, mtree, sg. split; [exact Ec|]. split; [exact Eu|]. split; [exact A|]. split; [exists n; exact F|]. split; [exact B|]. split; [exact C|].
        split; [intro x; apply plain_files|]. split; [reflexivity|]. split; [exact Es|]. split; reflexivity.
      + apply set_of_sorted.
  Qed.
  Lemma paras_good s fs : Forall (good s) fs -> forall mp fp, exists mp' fp', paras s fs mp fp = (mp', fp', Ok tt).
  Proof.
    induction 1 as [|f fs (c & ar & meta & files & sg & A & B & C & D) F IH]; intros mp fp; cbn [RepoModel.paras]; [exists mp, fp; reflexivity|].
    rewrite A, B, C, C29_round_trip, D. apply IH.
  Qed.
  Lemma paras_all s fs mp fp mp' fp' : paras s fs mp fp = (mp', fp', Ok tt) -> Forall (good s) fs.
  Proof.
    revert mp fp. induction fs as [|f fs IH]; intros mp fp E; [constructor|]. cbn [RepoModel.paras] in E. destruct (mget f s) as [c|] eqn:Ec; [|discriminate E].
    destruct (unpack c) as [ar|] eqn:Eu; [|discriminate E]. destruct (open_arch ar) as [[meta files]| |] eqn:Eo; try discriminate E.
    rewrite C29_round_trip in E. destruct (sign (sha c)) as [sg|] eqn:Es; [|discriminate E]. constructor; [|exact (IH _ _ E)]. exists c, ar, meta, files, sg. auto.
  Qed.

  (** *** what publishing one collection does *)
  Lemma seqb_ne (a b : str) : a <> b -> seqb a b = false.
  Proof. intro N. destruct (seqb a b) eqn:E; [apply seqb_eq in E; contradiction|reflexivity]. Qed.
  Lemma mget_other {A} k k' (v : A) m : k' <> k -> mget k' (mset k v m) = mget k' m.
  Proof. intro N. rewrite mget_mset, (seqb_ne _ _ N). reflexivity. Qed.
  Lemma mget_same {A} k (v : A) m : mget k (mset k v m) = Some v.
  Proof. rewrite mget_mset, seqb_refl. reflexivity. Qed.
  Lemma own_ne d d' n n' : In n own_names -> In n' own_names -> n <> n' -> in_coll d n <> in_coll d' n'.
  Proof. intros A B N E. apply N. exact (proj2 (in_coll_split d d' n n' (own_noslash n A) (own_noslash n' B) E)). Qed.
  Lemma o_repo : In (L ".REPO") own_names. Proof. left. reflexivity. Qed.
  Lemma o_files : In (L ".FILES") own_names. Proof. right. left. reflexivity. Qed.
  Lemma o_repoz : In (L ".REPO.zst") own_names. Proof. right. right. left. reflexivity. Qed.
  Lemma o_filesz : In (L ".FILES.zst") own_names. Proof. right. right. right. left. reflexivity. Qed.
  Lemma zst_repo d : zst (meta_path d) = in_coll d (L ".REPO.zst").
  Proof. unfold zst, meta_path, in_coll. rewrite <- app_assoc. reflexivity. Qed.
  Lemma zst_files d : zst (files_path d) = in_coll d (L ".FILES.zst").
  Proof. unfold zst, files_path, in_coll. rewrite <- app_assoc. reflexivity. Qed.
  Ltac distinct_own := apply own_ne; [first [exact o_repo|exact o_files|exact o_repoz|exact o_filesz]|first [exact o_repo|exact o_files|exact o_repoz|exact o_filesz]|discriminate].
  Lemma compress_frame p q s : q <> zst p -> mget q (compress zip can p s) = mget q s.
  Proof. intro N. unfold compress. destruct (mget p s); [|reflexivity]. destruct (can (zst p)); [apply mget_other, N|reflexivity]. Qed.
  Lemma compress_done p s c : mget p s = Some c -> can (zst p) = true -> mget (zst p) (compress zip can p s) = Some (zip c).
  Proof. intros E C. unfold compress. rewrite E, C. apply mget_same. Qed.
  Lemma hidden_walk d s s' : (forall p, ~ own d p -> mget p s' = mget p s) -> forall dir f, In f (walk dir s') <-> In f (walk dir s).
  Proof.
    intros H dir f. rewrite !walk_In. split; intros [B [c E]]; (split; [exact B|]); exists c.
    - rewrite <- H; [exact E|]. intro O. apply own_in in O as [n [I ->]]. apply visible_spec in B. rewrite (own_hidden dir d n I) in B. discriminate B.
    - rewrite H; [exact E|]. intro O. apply own_in in O as [n [I ->]]. apply visible_spec in B. rewrite (own_hidden dir d n I) in B. discriminate B.
  Qed.
  Lemma walk_ext d s s' : (forall p, ~ own d p -> mget p s' = mget p s) -> forall dir, walk dir s' = walk dir s.
  Proof. intros H dir. apply ssorted_ext; [apply set_of_sorted|apply set_of_sorted|]. apply (hidden_walk d s s' H). Qed.
  Lemma walk_slash dir s : Forall (fun f => In slash f) (walk dir s).
  Proof. apply Forall_forall. intros f I. apply walk_In in I as [[rel [-> _]] _]. apply in_app_iff. right. left. reflexivity. Qed.
  (** nothing but the four files changes, whatever happens *)
  Lemma publish_frame d s s' ns r p : publish d s = (s', ns, r) -> ~ own d p -> mget p s' = mget p s.
  Proof.
    intros E N. assert (O : forall n, In n own_names -> p <> in_coll d n) by (intros n I Ep; apply N, own_in; exists n; split; assumption).
    pose proof (O _ o_repo) as O1. pose proof (O _ o_files) as O2. pose proof (O _ o_repoz) as O3. pose proof (O _ o_filesz) as O4. rewrite <- zst_repo in O3. rewrite <- zst_files in O4.
    change (in_coll d (L ".REPO")) with (meta_path d) in O1. change (in_coll d (L ".FILES")) with (files_path d) in O2. unfold RepoModel.publish in E.
    destruct (can (meta_path d)); cbn [negb] in E; [|injection E as <- _ _; reflexivity].
    destruct (can (files_path d)); cbn [negb] in E; [|injection E as <- _ _; apply mget_other, O1].
    destruct (RepoModel.paras sha unpack sign _ _ [] []) as [[mp fp] [u| |]]; injection E as <- _ _;
    rewrite ?compress_frame by assumption; rewrite !mget_other by assumption; reflexivity.
  Qed.
  Definition opened (d : dirurl) (s : store) : store := mset (files_path d) [] (mset (meta_path d) [] s).
  Lemma opened_frame d s p : ~ own d p -> mget p (opened d s) = mget p s.
  Proof.
    intro N. unfold opened. rewrite !mget_other; [reflexivity| |]; intro E; apply N, own_in; [exists (L ".REPO")|exists (L ".FILES")]; (split; [|exact E]); [exact o_repo|exact o_files].
  Qed.
  Lemma below_not_own dir d f : below dir f -> ~ own d f.
  Proof. intros B O. apply own_in in O as [n [I ->]]. apply visible_spec in B. rewrite (own_hidden dir d n I) in B. discriminate B. Qed.
  Lemma described_ext s s' f g a : mget f s' = mget f s -> described s' f g a -> described s f g a.
  Proof. intros E [A B (c & ar & mt & sg & H & R) D]. constructor; [exact A|exact B| |exact D]. exists c, ar, mt, sg. rewrite <- E. split; [exact H|exact R]. Qed.
  (** when it comes to its end: exactly when the indexes can be opened, all visible files are archives and the key can be read *)
  Theorem C85_completes d s : (exists s' ns, publish d s = (s', ns, Complete)) <->
    can (in_coll d (L ".REPO")) = true /\ can (in_coll d (L ".FILES")) = true /\
    forall f c, below (u_depot d ++ L "/" ++ u_coll d) f -> mget f s = Some c ->
      exists ar meta mtree n sg, unpack c = Some ar /\ member_lines ar (L ".META") = Ok meta /\ first_tag "N" meta = Some n /\
        member_lines ar (L ".MTREE") = Ok mtree /\ mtree <> [] /\ sign (sha c) = Some sg.
  Proof.
    rewrite <- coll_path_eq. unfold RepoModel.publish. change (in_coll d (L ".REPO")) with (meta_path d). change (in_coll d (L ".FILES")) with (files_path d). fold (opened d s).
    destruct (can (meta_path d)); cbn [negb]; [|split; [intros (s' & ns & E); discriminate E|intros [E _]; discriminate E]].
    destruct (can (files_path d)); cbn [negb]; [|split; [intros (s' & ns & E); discriminate E|intros (_ & E & _); discriminate E]].
    rewrite (walk_ext d s (opened d s) (opened_frame d s)). split.
    - intros (s' & ns & E). destruct (RepoModel.paras sha unpack sign (opened d s) (walk (coll_path d) s) [] []) as [[mp fp] r] eqn:P. destruct r as [[]| |]; try discriminate E.
      apply paras_all in P. split; [reflexivity|]. split; [reflexivity|]. intros f c B Ec. assert (I : In f (walk (coll_path d) s)) by (apply walk_In; split; [exact B|exists c; exact Ec]).
      rewrite Forall_forall in P. destruct (P f I) as (c' & ar & meta & files & sg & A1 & A2 & A3 & A4). rewrite (opened_frame d s f (below_not_own _ d f B)), Ec in A1. injection A1 as <-.
      apply open_arch_spec in A3 as (mtree & n & H1 & H2 & H3 & H4 & _). exists ar, meta, mtree, n, sg. auto 8.
    - intros (_ & _ & H). destruct (paras_good (opened d s) (walk (coll_path d) s)) with (mp := @nil str) (fp := @nil str) as (mp & fp & P).
      + apply Forall_forall. intros f I. apply walk_In in I as [B [c Ec]]. destruct (H f c B Ec) as (ar & meta & mtree & n & sg & H1 & H2 & H3 & H4 & H5 & H6).
        exists c, ar, meta, (set_of (filter (fun l => negb (has_tag "." l)) mtree)), sg. split; [rewrite (opened_frame d s f (below_not_own _ d f B)); exact Ec|]. split; [exact H1|]. split; [|exact H6].
        apply open_arch_spec. exists mtree, n. auto 8.
      + rewrite P. eexists. eexists. reflexivity.
  Qed.
  (** a complete run: the indexes list every visible file, with its META, its files, its hash and its signature; nothing else changes *)
  Theorem C85_published d s s' ns : publish d s = (s', ns, Complete) -> can (in_coll d (L ".REPO.zst")) = true -> can (in_coll d (L ".FILES.zst")) = true ->
    (exists fs gs fas, published d s s' fs gs fas) /\ (forall p, ~ own d p -> mget p s' = mget p s).
  Proof.
    intros E C1 C2. split; [|intros p N; exact (publish_frame d s s' ns Complete p E N)]. rewrite <- zst_repo in C1. rewrite <- zst_files in C2. unfold RepoModel.publish in E. fold (opened d s) in E.
    destruct (can (meta_path d)); cbn [negb] in E; [|discriminate E]. destruct (can (files_path d)); cbn [negb] in E; [|discriminate E].
    rewrite (walk_ext d s (opened d s) (opened_frame d s)) in E.
    destruct (RepoModel.paras sha unpack sign (opened d s) (walk (coll_path d) s) [] []) as [[mp fp] r] eqn:P. destruct r as [[]| |]; try discriminate E. injection E as <- _.
    apply paras_ok in P as (gs & fas & L1 & L2 & -> & -> & D); [|apply walk_slash]. cbn [app] in *.
    exists (walk (coll_path d) s), gs, fas. set (s3 := mset (files_path d) (text_of (files_lines fas)) (mset (meta_path d) (text_of (flat_map gen_lines gs)) (opened d s))).
    assert (M3 : mget (meta_path d) s3 = Some (gen_index gs)) by (unfold s3; rewrite mget_other; [apply mget_same|unfold meta_path, files_path; distinct_own]).
    assert (F3 : mget (files_path d) s3 = Some (files_index fas)) by (unfold s3; apply mget_same).
    assert (Zf : forall x, mget (meta_path d) (compress zip can (files_path d) x) = mget (meta_path d) x) by (intro x; apply compress_frame; rewrite zst_files; unfold meta_path; distinct_own).
    constructor.
    - apply set_of_sorted.
    - intro f. rewrite <- coll_path_eq. apply walk_In.
    - split; assumption.
    - intros i f g a N1 N2 N3. apply (described_ext s (opened d s)); [|exact (D i f g a N1 N2 N3)]. apply opened_frame. apply nth_error_In in N1. apply walk_In in N1 as [B _]. exact (below_not_own _ d f B).
    - change (in_coll d (L ".REPO")) with (meta_path d). rewrite compress_frame by (rewrite zst_repo; unfold meta_path; distinct_own). rewrite Zf. exact M3.
    - change (in_coll d (L ".FILES")) with (files_path d). rewrite compress_frame by (rewrite zst_repo; unfold files_path; distinct_own). rewrite compress_frame by (rewrite zst_files; unfold files_path; distinct_own). exact F3.
    - rewrite <- zst_repo. apply compress_done; [rewrite Zf; exact M3|exact C1].
    - rewrite <- zst_files. rewrite compress_frame by (rewrite zst_files, zst_repo; distinct_own). apply compress_done; [exact F3|exact C2].
  Qed.

  Lemma compress_cannot p q s : can q = false -> mget q (compress zip can p s) = mget q s.
  Proof. intro N. unfold compress. destruct (mget p s); [|reflexivity]. destruct (can (zst p)) eqn:C; [|reflexivity]. apply mget_other. intros ->. congruence. Qed.
  (** a file that cannot be written keeps its content, however the run ends: with a compressed index that cannot be written the run still ends
      as a complete one and the clients are served the old index *)
  Theorem C85_unwritable d s s' ns e p : publish d s = (s', ns, e) -> can p = false -> mget p s' = mget p s.
  Proof.
    intros E C. unfold RepoModel.publish in E. destruct (can (meta_path d)) eqn:Cm; cbn [negb] in E; [|injection E as <- _ _; reflexivity].
    assert (Nm : p <> meta_path d) by (intros ->; congruence).
    destruct (can (files_path d)) eqn:Cf; cbn [negb] in E; [|injection E as <- _ _; apply mget_other, Nm].
    assert (Nf : p <> files_path d) by (intros ->; congruence).
    destruct (RepoModel.paras sha unpack sign _ _ [] []) as [[mp fp] [u| |]]; injection E as <- _ _;
    rewrite ?compress_cannot by exact C; rewrite !mget_other by assumption; reflexivity.
  Qed.

  (** *** several collections, and the choice of one *)
  Definition chosen (arg : option str) (d : dirurl) : Prop := match arg with Some c => u_coll d = c | None => True end.
  (** nothing but the indexes of the chosen collections changes: no archive, no key, no other collection; whatever happens *)
  Theorem C85_frame arg ds found old s s' ns r p : publishes arg ds found old s = (s', ns, r) ->
    (forall d, In d ds -> chosen arg d -> ~ own d p) -> mget p s' = mget p s.
  Proof.
    revert found s s' ns r. induction ds as [|d ds IH]; intros found s s' ns r E N; cbn [RepoModel.publishes] in E; [injection E as <- _ _; reflexivity|].
    assert (N' : forall d', In d' ds -> chosen arg d' -> ~ own d' p) by (intros d' I; apply N; right; exact I).
    destruct (match arg with Some c => negb (seqb (u_coll d) c) | None => false end) eqn:Ch; [exact (IH _ _ _ _ _ E N')|].
    assert (Cd : chosen arg d) by (destruct arg as [c|]; [|exact Logic.I]; apply negb_false_iff, seqb_eq in Ch; exact Ch).
    pose proof (N d (or_introl eq_refl) Cd) as Nd. destruct (publish d s) as [[s1 ns1] r1] eqn:P. pose proof (publish_frame d s s1 ns1 r1 p P Nd) as F1.
    destruct r1 as [| |x].
    - destruct arg as [c|]; [injection E as <- _ _; exact F1|]. destruct (publishes None ds true old s1) as [[s2 ns2] r2] eqn:P2. injection E as <- _ _. rewrite (IH _ _ _ _ _ P2 N'). exact F1.
    - injection E as <- _ _. exact F1.
    - injection E as <- _ _. exact F1.
  Qed.
  (** the collection named on the command line, and only it, is published *)
  Theorem C85_one c xs d ys found old s : u_coll d = c -> (forall x, In x xs -> u_coll x <> c) ->
    let '(s', ns, e) := publish d s in
    publishes (Some c) (xs ++ d :: ys) found old s = (s', ns, match e with Failed r => r | _ => Ok tt end).
  Proof.
    intros Ed Ex. revert found. induction xs as [|x xs IH]; intro found; cbn [app RepoModel.publishes].
    - rewrite Ed, seqb_refl. cbn [negb]. destruct (publish d s) as [[s' ns] [| |r]]; reflexivity.
    - rewrite (seqb_ne _ _ (Ex x (or_introl eq_refl))). cbn [negb]. apply IH. intros y I. apply Ex. right. exact I.
  Qed.
  Theorem C85_unknown c ds old s : (forall d, In d ds -> u_coll d <> c) -> publishes (Some c) ds false old s = (s, [NoCollection c], Ok tt).
  Proof.
    intro H. induction ds as [|d ds IH]; cbn [RepoModel.publishes]; [reflexivity|]. rewrite (seqb_ne _ _ (H d (or_introl eq_refl))). cbn [negb]. apply IH. intros x I. apply H. right. exact I.
  Qed.
  Lemma described_both s s' f g a : mget f s' = mget f s -> described s f g a <-> described s' f g a.
  Proof. intro E. split; apply described_ext; congruence. Qed.
  Lemma own_path d d' p : own d p -> own d' p -> coll_path d = coll_path d'.
  Proof. intros O O'. apply own_in in O as [n [I ->]]. apply own_in in O' as [n' [I' E]]. exact (proj1 (in_coll_split d d' n n' (own_noslash n I) (own_noslash n' I') E)). Qed.
  Lemma published_ext d s0 s s' fs gs fas : (forall f, below (u_depot d ++ L "/" ++ u_coll d) f -> mget f s = mget f s0) -> published d s s' fs gs fas -> published d s0 s' fs gs fas.
  Proof.
    intros H [A B C D E F G I]. constructor; try assumption.
    - intro f. rewrite B. split; intros [X [c Y]]; (split; [exact X|]); exists c; [rewrite <- H by exact X|rewrite H by exact X]; exact Y.
    - intros i f g a N1 N2 N3. apply (described_both s s0); [|exact (D i f g a N1 N2 N3)]. symmetry. apply H. apply nth_error_In in N1. apply B in N1. exact (proj1 N1).
  Qed.
  Lemma published_later d s s' s'' fs gs fas : (forall p, own d p -> mget p s'' = mget p s') -> published d s s' fs gs fas -> published d s s'' fs gs fas.
  Proof.
    intros H [A B C D E F G I]. constructor; try assumption; (rewrite H; [assumption|apply own_in; eexists; split; [|reflexivity]]); [exact o_repo|exact o_files|exact o_repoz|exact o_filesz].
  Qed.
  (** without an argument: all of them, when no collection fails *)
  Theorem C85_all ds s s' ns old : publishes None ds false old s = (s', ns, Ok tt) -> (forall p, can p = true) -> NoDup (map coll_path ds) ->
    forall d, In d ds -> exists fs gs fas, published d s s' fs gs fas.
  Proof.
    intros E C. revert E. generalize false as found. revert s s' ns. induction ds as [|d0 ds IH]; intros s s' ns found E N d I; [destruct I|]. cbn [map] in N. inversion N as [|? ? N0 N1]; subst.
    cbn [RepoModel.publishes] in E. destruct (publish d0 s) as [[s1 ns1] r1] eqn:P. destruct r1 as [| |x].
    - destruct (publishes None ds true old s1) as [[s2 ns2] r2] eqn:P2. injection E as <- <- ->.
      destruct (C85_published d0 s s1 ns1 P (C _) (C _)) as [[fs [gs [fas Pb]]] Fr]. destruct I as [<-|I].
      + exists fs, gs, fas. apply (published_later d0 s s1); [|exact Pb]. intros p O. apply (C85_frame None ds true old s1 s2 ns2 (Ok tt) p P2). intros d' I' _ O'. apply N0. rewrite (own_path d0 d' p O O'). apply in_map, I'.
      + destruct (IH s1 s2 ns2 true P2 N1 d I) as (fs' & gs' & fas' & Pb'). exists fs', gs', fas'. apply (published_ext d s s1); [|exact Pb']. intros f B. apply Fr, (below_not_own _ d0 f B).
    - exfalso. unfold RepoModel.publish in P. rewrite !C in P. cbn [negb] in P. destruct (RepoModel.paras sha unpack sign _ _ [] []) as [[mp fp] [u| |]]; discriminate P.
    - injection E as <- <- ->. exfalso. unfold RepoModel.publish in P. rewrite !C in P. cbn [negb] in P. destruct (RepoModel.paras sha unpack sign _ _ [] []) as [[mp fp] [u| |]]; discriminate P.
  Qed.

  (** ** the clients *)
  Section Client.
    Variable key : Type.
    Variable pem : str -> option key.
    Variable verify : key -> str -> str -> bool.
    Variable url : str.
    Lemma signed_ok (c sg : str) (k : key) (pk : str) (e : ent) (t : fstate) : i_text "I" (e_rec e) = hex sg -> mget (e_path e) (f_files t) = Some c ->
      mget (e_key e) (f_files t) = Some pk -> pem pk = Some k -> verify k sg (sha c) = true -> check_sign sha key pem verify e t = Ok true.
    Proof.
      intros Hs Hc Hk Hp V. unfold check_sign, hash_of. rewrite Hc. cbn [rbind]. rewrite C29_round_trip. cbn [rbind]. rewrite Hk, Hp, Hs, C29_round_trip. cbn [rbind]. rewrite V. reflexivity.
    Qed.
    Lemma Forall2_nth {A B} (P : A -> B -> Prop) xs ys i x y : Forall2 P xs ys -> nth_error xs i = Some x -> nth_error ys i = Some y -> P x y.
    Proof. intro F. revert i. induction F as [|a b xs ys Pab F IH]; intros [|i] Ex Ey; try discriminate; [injection Ex as ->; injection Ey as ->; exact Pab|exact (IH i Ex Ey)]. Qed.
    (** a client that has the new index and the publisher's public key accepts the published archives: those it has and those it
        downloads. Partial as C27_round_trip_partial is: META files without blank lines and so on. *)
    Theorem C85_client_partial d s s' fs gs fas names : published d s s' fs gs fas -> u_coll d <> [] ->
      Forall2 regular gs names -> NoDup names -> Forall good_line (flat_map gen_lines gs) ->
      exists m, parse_repo [(u_coll d, mget (in_coll d (L ".REPO")) s')] = Ok m /\
        (forall n, (exists i, mget n m = Some i) <-> In n names) /\
        forall j f n, nth_error fs j = Some f -> nth_error names j = Some n -> exists i c, mget n m = Some i /\ mget f s = Some c /\
          forall cdir pk k files net, pem pk = Some k -> (forall b sg, sign b = Some sg -> verify k sg b = true) -> mget (cdir ++ L "/.PKEY") files = Some pk ->
            let path := cdir ++ L "/" ++ i_file i in
            (mget path files = Some c -> obtain url sha key pem verify (Ent cdir i) (Fs files net) = Ok (Fs files net)) /\
            (url <> [] -> mget path files = None -> path <> cdir ++ L "/.PKEY" -> obtain url sha key pem verify (Ent cdir i) (Fs files (Some (Some c) :: net)) = Ok (Fs (mset path c files) net)).
    Proof.
      intros Pb Cd R N G. rewrite (pb_repo _ _ _ _ _ _ Pb). destruct (C27_round_trip_partial (u_coll d) gs names Cd R N G) as (m & E & F & O). exists m. split; [exact E|]. split.
      - intro n. split; [intros [i Hi]; exact (O n i Hi)|]. intro I. clear - F I. induction F as [|g x gs xs [i [Hi _]] F IH]; [destruct I|]. destruct I as [<-|I]; [exists i; exact Hi|exact (IH I)].
      - intros j f n Ef En. assert (Lj : j < length fs) by (apply nth_error_Some; congruence). destruct (pb_len _ _ _ _ _ _ Pb) as [L1 L2].
        destruct (nth_error gs j) as [g|] eqn:Eg; [|apply nth_error_None in Eg; lia]. destruct (nth_error fas j) as [a|] eqn:Ea; [|apply nth_error_None in Ea; lia].
        destruct (pb_desc _ _ _ _ _ _ Pb j f g a Ef Eg Ea) as [_ _ (c & ar & mt & sg & Hc & _ & _ & _ & _ & _ & _ & Hh & Hs & Hg & _) _].
        destruct (Forall2_nth _ _ _ j g n F Eg En) as (i & Hi & Fa). exists i, c. split; [exact Hi|]. split; [exact Hc|].
        intros cdir pk k files net Pk V Kf path. assert (Is : i_text "I" i = hex sg) by (unfold i_text; rewrite (fa_sig g i Fa); exact Hg).
        assert (Sh : same_hash (hex (sha c)) (Ent cdir i) = true) by (unfold same_hash, i_text; cbn [e_rec]; rewrite (fa_hash g i Fa), Hh; apply seqb_refl).
        split.
        + intro Pf. unfold obtain. destruct (length url =? 0) eqn:U; [reflexivity|]. change (e_path (Ent cdir i)) with path. cbn [f_files]. rewrite Pf. cbn [rbind]. unfold hash_of. cbn [f_files]. rewrite Pf. cbn [rbind]. rewrite Sh. cbn [rbind].
          rewrite (signed_ok c sg k pk (Ent cdir i) (Fs files net) Is Pf Kf Pk (V _ _ Hs)). reflexivity.
        + intros U Pf Ne. unfold obtain. destruct (length url =? 0) eqn:U'; [apply Nat.eqb_eq in U'; destruct url; [contradiction U; reflexivity|discriminate U']|].
          change (e_path (Ent cdir i)) with path. cbn [f_files]. rewrite Pf. unfold download. cbn [f_net f_files]. change (e_path (Ent cdir i)) with path. cbn [rbind]. unfold hash_of. cbn [f_files]. rewrite mget_same. cbn [rbind]. rewrite Sh. cbn [rbind].
          rewrite (signed_ok c sg k pk (Ent cdir i) (Fs (mset path c files) net) Is); [reflexivity|apply mget_same| |exact Pk|exact (V _ _ Hs)].
          cbn [f_files]. unfold e_key. cbn [e_dir]. rewrite mget_other by (intro X; apply Ne; symmetry; exact X). exact Kf.
    Qed.

    (** ** checking *)
    (** the file of the package and the key beside it are there, and the signature of the index is one of the file's hash *)
    Definition signed (s : store) (e : ent) : Prop := exists c pk k sg, mget (e_dir e ++ L "/" ++ i_file (e_rec e)) s = Some c /\ mget (e_dir e ++ L "/.PKEY") s = Some pk /\
      pem pk = Some k /\ decode (i_text "I" (e_rec e)) = Ok sg /\ verify k sg (sha c) = true.
    Lemma check_signed e s : check_sign sha key pem verify e (Fs s []) = Ok true <-> signed s e.
    Proof.
      unfold check_sign, hash_of, signed, e_path, e_key. cbn [f_files]. split.
      - destruct (mget (e_dir e ++ L "/" ++ i_file (e_rec e)) s) as [c|]; [|discriminate]. cbn [rbind]. rewrite C29_round_trip. cbn [rbind].
        destruct (mget (e_dir e ++ L "/.PKEY") s) as [pk|]; [|discriminate]. destruct (pem pk) as [k|] eqn:Ep; [|discriminate]. destruct (decode (i_text "I" (e_rec e))) as [sg| |] eqn:Ed; try discriminate. cbn [rbind]. intro E. injection E as E.
        exists c, pk, k, sg. auto.
      - intros (c & pk & k & sg & A & B & C & D & E). rewrite A. cbn [rbind]. rewrite C29_round_trip. cbn [rbind]. rewrite B, C, D. cbn [rbind]. rewrite E. reflexivity.
    Qed.
    (** without a private key: nothing changes, and no package is reported if and only if all the signatures are right *)
    Theorem C85_check keypath arg ds l s s' ns : (keypath = [] \/ mget (keypath ++ L "/.private.key") s = None) ->
      repo_run sha unpack sign zip can key pem verify keypath arg ds l s = (s', ns, Ok tt) ->
      s' = s /\ ((forall n, ~ In (Wrong n) ns) <-> forall n e, In (n, e) l -> signed s e).
    Proof.
      intros K. unfold repo_run. assert (B : is_nil keypath || match mget (keypath ++ L "/.private.key") s with None => true | Some _ => false end = true).
      { destruct K as [-> | ->]; [reflexivity|apply orb_true_r]. }
      rewrite B. unfold RepoModel.check_all. destruct (checks sha key pem verify l s) as [ns0 r] eqn:E. destruct r as [[]| |]; try discriminate. intro H. injection H as <- <-. split; [reflexivity|].
      assert (Z : (forall n, ~ In (Wrong n) ns0) <-> forall n e, In (n, e) l -> signed s e).
      { clear B. revert ns0 E. induction l as [|[n e] l IH]; intros ns0 E; cbn [checks] in E; [injection E as <-; split; [intros _ n e []|intros _ n []]|].
        destruct (check_sign sha key pem verify e (Fs s [])) as [[|]| |] eqn:C; try discriminate E.
        - rewrite (IH ns0 E). apply check_signed in C. split; [intros H n' e' [I|I]; [injection I as <- <-; exact C|exact (H n' e' I)]|intros H n' e' I; apply (H n' e'); right; exact I].
        - injection E as <-. split; [intro H; destruct (H n); left; reflexivity|]. intro H. pose proof (proj2 (check_signed e s) (H n e (or_introl eq_refl))) as X. congruence. }
      rewrite <- Z. split; intros H n I.
      - apply (H n), in_app_iff. left. exact I.
      - apply in_app_iff in I as [I|[I|[]]]; [exact (H n I)|discriminate I].
    Qed.
    (** with a private key, no argument and no failure: all the collections are published *)
    Theorem C85_run keypath ds l s s' ns pk : keypath <> [] -> mget (keypath ++ L "/.private.key") s = Some pk -> (forall p, can p = true) -> NoDup (map coll_path ds) ->
      repo_run sha unpack sign zip can key pem verify keypath None ds l s = (s', ns, Ok tt) -> forall d, In d ds -> exists fs gs fas, published d s s' fs gs fas.
    Proof.
      intros K P C N. unfold repo_run. rewrite P. destruct keypath as [|x keypath]; [contradiction K; reflexivity|]. cbn [is_nil orb]. intro E. exact (C85_all ds s s' ns (length l) E C N).
    Qed.
  End Client.

  (** ** the process dies *)
  Lemma pdies_frame d s s' p : pdies sha unpack sign zip can d s s' -> ~ own d p -> mget p s' = mget p s.
  Proof.
    intros D N. assert (O : forall n, In n own_names -> p <> in_coll d n) by (intros n I Ep; apply N, own_in; exists n; split; assumption).
    pose proof (O _ o_repo) as O1. pose proof (O _ o_files) as O2. pose proof (O _ o_repoz) as O3. pose proof (O _ o_filesz) as O4. rewrite <- zst_repo in O3. rewrite <- zst_files in O4.
    change (in_coll d (L ".REPO")) with (meta_path d) in O1. change (in_coll d (L ".FILES")) with (files_path d) in O2.
    destruct D; try subst s2; rewrite ?compress_frame by assumption; rewrite ?mget_other by assumption; rewrite ?compress_frame by assumption; rewrite ?mget_other by assumption; reflexivity.
  Qed.
  (** archives, keys and other collections are untouched. What clients download is the old file or a beginning of the new one, and the new .REPO
      is begun only when the new .FILES is complete. Publishing again repairs everything. *)
  Theorem C85_died d s s1 : pdies sha unpack sign zip can d s s1 -> (forall p, can p = true) ->
    (forall p, ~ own d p -> mget p s1 = mget p s) /\
    (let same n := mget (in_coll d n) s1 = mget (in_coll d n) s in
     same (L ".REPO.zst") /\ same (L ".FILES.zst") \/
     exists fs gs fas sp k, published d s sp fs gs fas /\
       (mget (in_coll d (L ".FILES.zst")) s1 = Some (firstn k (zip (files_index fas))) /\ same (L ".REPO.zst") \/
        mget (in_coll d (L ".FILES.zst")) s1 = Some (zip (files_index fas)) /\ mget (in_coll d (L ".REPO.zst")) s1 = Some (firstn k (zip (gen_index gs))))) /\
    (forall s2 ns, publish d s1 = (s2, ns, Complete) -> exists fs gs fas, published d s s2 fs gs fas).
  Proof.
    intros D C. pose proof (fun p => pdies_frame d s s1 p D) as Fr. split; [exact Fr|]. split.
    - cbv zeta. rewrite <- !(zst_repo d), <- !(zst_files d). assert (Ns : forall n, In n own_names -> n <> L ".REPO" -> n <> L ".FILES" -> forall x y (z : store), mget (in_coll d n) (mset (files_path d) x (mset (meta_path d) y z)) = mget (in_coll d n) z).
      { intros n I A B x y z. rewrite !mget_other; [reflexivity| |]; unfold meta_path, files_path; apply own_ne; first [exact I|exact o_repo|exact o_files|exact A|exact B]. }
      assert (Ar : forall x y (z : store), mget (zst (meta_path d)) (mset (files_path d) x (mset (meta_path d) y z)) = mget (zst (meta_path d)) z) by (intros x y z; rewrite zst_repo; apply Ns; [exact o_repoz|discriminate|discriminate]).
      assert (Af : forall x y (z : store), mget (zst (files_path d)) (mset (files_path d) x (mset (meta_path d) y z)) = mget (zst (files_path d)) z) by (intros x y z; rewrite zst_files; apply Ns; [exact o_filesz|discriminate|discriminate]).
      assert (Rf : zst (meta_path d) <> zst (files_path d)) by (rewrite zst_repo, zst_files; distinct_own).
      assert (Done : forall mp fp u, let s2 := mset (files_path d) [] (mset (meta_path d) [] s) in paras s2 (walk (coll_path d) s2) [] [] = (mp, fp, Ok u) ->
        exists fs gs fas sp, published d s sp fs gs fas /\ text_of mp = gen_index gs /\ text_of fp = files_index fas).
      { intros mp fp u s2 P. destruct u. destruct (publish d s) as [[sp ns] e] eqn:E. assert (X := E). unfold RepoModel.publish in X. rewrite !C in X. cbn [negb] in X. fold s2 in X. rewrite P in X. injection X as Xs _ <-.
        destruct (C85_published d s sp ns E (C _) (C _)) as [(fs & gs & fas & Pb) _]. exists fs, gs, fas, sp. split; [exact Pb|].
        assert (M : mget (meta_path d) sp = Some (text_of mp)).
        { rewrite <- Xs. rewrite compress_frame by (rewrite zst_repo; unfold meta_path; distinct_own). rewrite compress_frame by (rewrite zst_files; unfold meta_path; distinct_own). rewrite mget_other by (unfold meta_path, files_path; distinct_own). apply mget_same. }
        assert (F : mget (files_path d) sp = Some (text_of fp)).
        { rewrite <- Xs. rewrite compress_frame by (rewrite zst_repo; unfold files_path; distinct_own). rewrite compress_frame by (rewrite zst_files; unfold files_path; distinct_own). apply mget_same. }
        pose proof (pb_repo _ _ _ _ _ _ Pb) as B1. pose proof (pb_list _ _ _ _ _ _ Pb) as B2. change (in_coll d (L ".REPO")) with (meta_path d) in B1. change (in_coll d (L ".FILES")) with (files_path d) in B2. split; congruence. }
      destruct D as [| Cm | mp fp r i j s2 Cm Cf P | mp fp u k s2 Cm Cf Cz P | mp fp u k s2 Cm Cf Cz P].
      + left. split; reflexivity.
      + left. split; apply mget_other; rewrite ?zst_repo, ?zst_files; unfold meta_path; distinct_own.
      + left. subst s2. rewrite !Ar, !Af. split; reflexivity.
      + right. destruct (Done mp fp u P) as (fs & gs & fas & sp & Pb & M & F). exists fs, gs, fas, sp, k. split; [exact Pb|]. left. rewrite <- F. split; [apply mget_same|]. rewrite mget_other by exact Rf. subst s2. rewrite !Ar. reflexivity.
      + right. destruct (Done mp fp u P) as (fs & gs & fas & sp & Pb & M & F). exists fs, gs, fas, sp, k. split; [exact Pb|]. right. rewrite <- F, <- M. split; [|apply mget_same]. rewrite mget_other by (intro X; apply Rf; symmetry; exact X). apply compress_done; [apply mget_same|apply C].
    - intros s2 ns E. destruct (C85_published d s1 s2 ns E (C _) (C _)) as [(fs & gs & fas & Pb) _]. exists fs, gs, fas. apply (published_ext d s s1); [|exact Pb]. intros f B. apply Fr, (below_not_own _ d f B).
  Qed.
End Publish.

(** ** a witness, and where the claim fails *)
Definition dir1 : dirurl := DU (L "base") (L "/depot") (L "http://h").
Definition dir2 : dirurl := DU (L "extra") (L "/depot") (L "http://h").
Definition lines_node (ls : list str) : node := Node KReg (text_of ls) 420 0 0 0 0.
(** archive contents: text; "A" and a name make an archive of that package, anything else is no archive *)
Definition x_unpack (c : str) : option archive :=
  match c with
  | x :: n => if ceqb x "A"%char then Some [(L ".META", lines_node ["N"%char :: n; L "V1.0"; L "r1"; L "B1700000000"]); (L ".MTREE", lines_node [L ".META"; L "usr/bin/" ++ n; L "usr/"])] else None
  | [] => None
  end.
Definition x_sha (c : str) : str := rev c.
Definition x_sign (b : str) : option str := Some (L "S" ++ b).
Definition x_zip (c : str) : str := L "Z" ++ c.
Definition x_can (p : str) : bool := true.
Definition x_pem (pk : str) : option unit := if seqb pk (L "key") then Some tt else None.
Definition x_verify (k : unit) (sg b : str) : bool := seqb sg (L "S" ++ b).
Definition s1 : store := [(L "/depot/base/.PKEY", L "key"); (L "/depot/base/foo.cards-1.0-1-any.tar.xz", L "Afoo"); (L "/depot/base/zip.cards-1.0-1-any.tar.xz", L "Azip"); (L "/home/k/.private.key", L "secret")].
Notation x_run arg ds l s := (repo_run x_sha x_unpack x_sign x_zip x_can unit x_pem x_verify (L "/home/k") arg ds l s).
Definition s1' : store := fst (fst (x_run None [dir1] [] s1)).
Definition gp (n : str) : gpkg := Gp (n ++ L ".cards-1.0-1-any.tar.xz") ["N"%char :: n; L "V1.0"; L "r1"; L "B1700000000"] (hex (x_sha (L "A" ++ n))) (hex (L "S" ++ x_sha (L "A" ++ n))) 4.
Definition fp (n : str) : farch := FA (n ++ L ".cards-1.0-1-any.tar.xz") (set_of [L "usr/bin/" ++ n; L "usr/"]).
Example C85_run_witness : x_run None [dir1] [] s1 = (s1', snd (fst (x_run None [dir1] [] s1)), Ok tt) /\
  mget (L "/depot/base/.REPO") s1' = Some (gen_index [gp (L "foo"); gp (L "zip")]) /\ mget (L "/depot/base/.FILES.zst") s1' = Some (x_zip (files_index [fp (L "foo"); fp (L "zip")])).
Proof. split; [vm_compute; reflexivity|]. split; vm_compute; reflexivity. Qed.
Example C85_client_witness : Forall2 regular [gp (L "foo"); gp (L "zip")] [L "foo"; L "zip"] /\ Forall good_line (flat_map gen_lines [gp (L "foo"); gp (L "zip")]).
Proof.
  split.
  - assert (R : forall n, (n = L "foo" \/ n = L "zip") -> regular (gp n) n).
    { assert (Q : forall n, n <> [] -> sfind (L ".cards-") ("@"%char :: gp_file (gp n)) <> None -> regular (gp n) n).
      { intros n Nn Sf. constructor; [exact Sf|reflexivity| | | |]; cbn [gp gp_meta].
        - intros s H. repeat (destruct H as [<-|H]; [split; [discriminate|intros v E; discriminate E]|]). destruct H.
        - intros v [H|[H|[H|[H|[]]]]]; try discriminate H. injection H as <-. exists 1%N. vm_compute. reflexivity.
        - intros v [H|[H|[H|[H|[]]]]]; discriminate H.
        - intros [H|[H|[H|[H|[]]]]]; discriminate H. }
      intros n [->| ->]; apply Q; try discriminate; vm_compute; discriminate. }
    constructor; [apply R; left; reflexivity|]. constructor; [apply R; right; reflexivity|constructor].
  - apply Forall_forall. intros l I. apply good_lineb_ok. assert (B : forallb good_lineb (flat_map gen_lines [gp (L "foo"); gp (L "zip")]) = true) by (vm_compute; reflexivity).
    rewrite forallb_forall in B. exact (B l I).
Qed.
(** *** a stray file stops the publication with the indexes cut before it: only what sorts before it is listed; the compressed ones stay *)
Definition s2 : store := mset (L "/depot/base/notes.txt") (L "hello") s1.
Theorem C85_stray_refuted : exists s ns, x_run None [dir1] [] s2 = (s, ns, Throw) /\ mget (L "/depot/base/.REPO") s = Some (gen_index [gp (L "foo")]) /\ mget (L "/depot/base/.REPO.zst") s = None.
Proof. eexists. eexists. split; [vm_compute; reflexivity|]. split; vm_compute; reflexivity. Qed.
(** *** an archive in a sub-directory is listed under its bare name: no client finds it, not even on the same machine *)
Definition s3 : store := [(L "/depot/base/.PKEY", L "key"); (L "/depot/base/old/foo.cards-1.0-1-any.tar.xz", L "Afoo"); (L "/home/k/.private.key", L "secret")].
Theorem C85_subdir_refuted : exists s ns m i, x_run None [dir1] [] s3 = (s, ns, Ok tt) /\ parse_repo [(L "base", mget (L "/depot/base/.REPO") s)] = Ok m /\ mget (L "foo") m = Some i /\
  mget (L "/depot/base/" ++ i_file i) s = None /\ check_sign x_sha unit x_pem x_verify (Ent (L "/depot/base") i) (Fs s []) = Throw.
Proof.
  eexists. eexists.
  destruct (look_ok (L "foo") (fun i => i_file i) (parse_repo [(L "base", Some (gen_index [gp (L "foo")]))]) (L "foo.cards-1.0-1-any.tar.xz")) as (m & i & H1 & H2 & H3); [vm_compute; reflexivity|].
  exists m, i. split; [vm_compute; reflexivity|]. split; [exact H1|]. split; [exact H2|]. rewrite H3. split; [vm_compute; reflexivity|].
  unfold check_sign, hash_of, e_path. cbn [e_dir e_rec]. rewrite H3. vm_compute. reflexivity.
Qed.
(** *** a check stops at the first wrong signature, and still says that all the packages were checked *)
Definition e_bad (n : str) : ent := Ent (L "/depot/base") (IRec (n ++ L ".cards-1.0-1-any.tar.xz") (put "I" (hex (L "forged")) (fun _ => None)) [] no_many []).
Theorem C85_all_checked_refuted : exists l ns, repo_run x_sha x_unpack x_sign x_zip x_can unit x_pem x_verify [] None [dir1] l s1 = (s1, ns, Ok tt) /\
  ns = [Wrong (L "foo"); Checked 2] /\ In (L "zip", e_bad (L "zip")) l /\ ~ signed x_sha unit x_pem x_verify s1 (e_bad (L "zip")).
Proof.
  exists [(L "foo", e_bad (L "foo")); (L "zip", e_bad (L "zip"))]. eexists. split; [vm_compute; reflexivity|]. split; [reflexivity|]. split; [right; left; reflexivity|].
  intro H. apply check_signed in H. vm_compute in H. discriminate H.
Qed.
(** *** one collection whose index cannot be opened: the collections after it are not published, and the run ends without an error *)
Definition x_can' (p : str) : bool := negb (prefixb (L "/depot/base/") p).
Definition s4 : store := mset (L "/depot/extra/bar.cards-1.0-1-any.tar.xz") (L "Abar") s1.
Theorem C85_unopened_refuted : repo_run x_sha x_unpack x_sign x_zip x_can' unit x_pem x_verify (L "/home/k") None [dir1; dir2] [] s4 =
  (s4, [Generating (L "/depot/base/.REPO") (L "/depot/base/.FILES"); NoOpen (L "/depot/base/.REPO")], Ok tt).
Proof. vm_compute. reflexivity. Qed.
(** *** a compressed index that cannot be written: the run ends as if it had been, and the old one stays beside the new lists (the message on the
    error stream, repo.cxx:177-182, is not part of the model) *)
Definition x_can_z (p : str) : bool := negb (seqb p (L "/depot/base/.REPO.zst")).
Definition s5 : store := mset (L "/depot/base/.REPO.zst") (L "old") s1.
Theorem C85_stale_refuted : exists s ns, repo_run x_sha x_unpack x_sign x_zip x_can_z unit x_pem x_verify (L "/home/k") None [dir1] [] s5 = (s, ns, Ok tt) /\
  mget (L "/depot/base/.REPO") s = Some (gen_index [gp (L "foo"); gp (L "zip")]) /\ mget (L "/depot/base/.REPO.zst") s = Some (L "old").
Proof. eexists. eexists. split; [vm_compute; reflexivity|]. split; vm_compute; reflexivity. Qed.
(** *** the number of packages signed is that of the old indexes *)
Theorem C85_count_refuted : exists s ns, x_run None [dir1] [] s1 = (s, ns, Ok tt) /\ mget (L "/depot/base/.REPO") s = Some (gen_index [gp (L "foo"); gp (L "zip")]) /\ In (Signed 0) ns.
Proof. eexists. eexists. split; [vm_compute; reflexivity|]. split; [vm_compute; reflexivity|]. right. right. left. reflexivity. Qed.
(** *** a publication that is cut: clients are served a beginning of the new compressed index *)
Theorem C85_cut_refuted : exists s, pdies x_sha x_unpack x_sign x_zip x_can dir1 s1 s /\ mget (L "/depot/base/.REPO.zst") s = Some (L "Z@foo") /\ mget (L "/depot/base/.FILES.zst") s = Some (x_zip (files_index [fp (L "foo"); fp (L "zip")])).
Proof.
  eexists. split; [eapply pd_meta with (k := 5); [reflexivity|reflexivity|reflexivity|vm_compute; reflexivity]|]. split; vm_compute; reflexivity.
Qed.
