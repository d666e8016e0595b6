(** C62: what 'cards sync' leaves behind. *)
From Verif Require Import Base BaseProofs StrModel FsModel ConfModel SyncModel.

(** specification: the directory of a collection on the server *)
Definition server_dir (arch version : str) (d : dirurl) : str := u_url d ++ L "/" ++ arch ++ L "/" ++ version ++ L "/" ++ u_coll d ++ L "/".
Lemma coll_url_dir arch version d : coll_url arch version d = server_dir arch version d.
Proof. reflexivity. Qed.
Section Sync.
  Variables (server : str -> outcome) (unz : str -> option str) (arch version : str).
  Notation steps := (steps server unz).
  Notation effect := (effect server unz).
  Notation sync := (sync_run server unz arch version).
  Notation plan := (plan arch version).
  Notation url := (coll_url arch version).

  (** ** frames *)
  Definition target (a : act) : str := match a with Fetch _ p => p | Unzip p => p end.
  Lemma effect_target s a p c ok : effect s a = (Some (p, c), ok) -> p = target a.
  Proof.
    destruct a as [u q|q]; cbn [SyncModel.effect target].
    - destruct (server u) as [[b|]|[b|]]; intro E; inversion E; reflexivity.
    - destruct (mget (zst q) s) as [z|]; [|intro E; inversion E]. destruct (unz z); intro E; inversion E; reflexivity.
  Qed.
  Lemma write_frame s a w ok p : effect s a = (w, ok) -> p <> target a -> mget p (write s w) = mget p s.
  Proof.
    intros E N. destruct w as [[q c]|]; [|reflexivity]. cbn [write]. rewrite mget_mset. rewrite (effect_target _ _ _ _ _ E). rewrite (proj2 (seqb_neq p (target a)) N). reflexivity.
  Qed.
  Lemma steps_frame p acts : Forall (fun a => p <> target a) acts -> forall s, mget p (snd (steps acts s)) = mget p s.
  Proof.
    induction 1 as [|a t N F IH]; intro s; [reflexivity|]. cbn [SyncModel.steps]. destruct (effect s a) as [w [|]] eqn:E; cbn [snd]; [rewrite IH|]; apply (write_frame s a w _ p E N).
  Qed.
  Lemma steps_app xs ys s : steps (xs ++ ys) s = (let '(ok, s1) := steps xs s in if ok then steps ys s1 else (false, s1)).
  Proof.
    revert s. induction xs as [|a t IH]; intro s; [cbn [app SyncModel.steps]; destruct (steps ys s); reflexivity|]. cbn [app SyncModel.steps]. destruct (effect s a) as [w [|]]; [apply IH|reflexivity].
  Qed.
  Lemma unzip_ok acts s : Forall (fun a => exists p, a = Unzip p) acts -> fst (steps acts s) = true.
  Proof.
    intro F. revert s. induction F as [|a t [p ->] F IH]; intro s; [reflexivity|]. cbn [SyncModel.steps SyncModel.effect]. destruct (mget (zst p) s) as [z|]; [|apply IH]. destruct (unz z); apply IH.
  Qed.
  (** paths *)
  Lemma rev_tail_neq (a b x y : str) : firstn 4 (rev x) <> firstn 4 (rev y) -> 4 <= length x -> 4 <= length y -> a ++ x <> b ++ y.
  Proof.
    intros N Lx Ly E. apply N. assert (H : forall a x : str, 4 <= length x -> firstn 4 (rev (a ++ x)) = firstn 4 (rev x)) by (intros a0 x0 H0; rewrite rev_app_distr, firstn_app; replace (4 - length (rev x0)) with 0 by (rewrite rev_length; lia); rewrite firstn_O, app_nil_r; reflexivity).
    rewrite <- (H a x Lx), <- (H b y Ly), E. reflexivity.
  Qed.
  Lemma in_coll_inj d d' n : in_coll d n = in_coll d' n -> coll_path d = coll_path d'.
  Proof. unfold in_coll. apply app_inv_tail. Qed.
  Ltac names := apply rev_tail_neq; [cbn; discriminate|cbn; lia|cbn; lia].
  Lemma kr d d' : in_coll d key_name <> in_coll d' repo_name. Proof. names. Qed.
  Lemma kf d d' : in_coll d key_name <> in_coll d' files_name. Proof. names. Qed.
  Lemma rf d d' : in_coll d repo_name <> in_coll d' files_name. Proof. names. Qed.
  Lemma zk d d' n : in_coll d (zst n) <> in_coll d' key_name.
  Proof. unfold in_coll, zst. replace (coll_path d ++ slash :: n ++ L ".zst") with ((coll_path d ++ slash :: n) ++ L ".zst") by (rewrite <- app_assoc; reflexivity). names. Qed.
  Lemma zr d d' n : in_coll d (zst n) <> in_coll d' repo_name.
  Proof. unfold in_coll, zst. replace (coll_path d ++ slash :: n ++ L ".zst") with ((coll_path d ++ slash :: n) ++ L ".zst") by (rewrite <- app_assoc; reflexivity). names. Qed.
  Lemma zf d d' n : in_coll d (zst n) <> in_coll d' files_name.
  Proof. unfold in_coll, zst. replace (coll_path d ++ slash :: n ++ L ".zst") with ((coll_path d ++ slash :: n) ++ L ".zst") by (rewrite <- app_assoc; reflexivity). names. Qed.
  Lemma zz d d' : in_coll d (zst repo_name) <> in_coll d' (zst files_name).
  Proof.
    unfold in_coll. intro E. replace (slash :: zst repo_name) with ((slash :: repo_name) ++ L ".zst") in E by reflexivity. replace (slash :: zst files_name) with ((slash :: files_name) ++ L ".zst") in E by reflexivity.
    rewrite !app_assoc in E. apply app_inv_tail in E. revert E. names.
  Qed.
  (** the index files of a collection *)
  Definition index (d : dirurl) (p : str) : Prop := p = in_coll d repo_name \/ p = in_coll d files_name.
  Lemma fetch_not_index ds d p : index d p -> Forall (fun a => p <> target a) (flat_map (fetches arch version) ds).
  Proof.
    intro I. apply Forall_forall. intros a Ia. apply in_flat_map in Ia as [d' [_ Ia]]. intro E. destruct I as [->| ->]; destruct Ia as [<-|[<-|[<-|[]]]]; cbn [target] in E; symmetry in E;
    first [exact (kr _ _ E)|exact (kf _ _ E)|exact (zr _ _ _ E)|exact (zf _ _ _ E)].
  Qed.
  Lemma unzips_are ds : Forall (fun a => exists p, a = Unzip p) (flat_map unzips ds).
  Proof. apply Forall_forall. intros a Ia. apply in_flat_map in Ia as [d [_ Ia]]. destruct Ia as [<-|[<-|[]]]; eexists; reflexivity. Qed.

  (** *** a sync that fails leaves every index as it was *)
  Theorem C62_failed ds s s' d p : sync ds s = (false, s') -> index d p -> mget p s' = mget p s.
  Proof.
    unfold sync_run, SyncModel.plan. rewrite steps_app. intros E I. pose proof (steps_frame p _ (fetch_not_index (remote ds) d p I) s) as F. destruct (steps (flat_map (fetches arch version) (remote ds)) s) as [[|] s1] eqn:G; cbn [snd] in F.
    - pose proof (unzip_ok _ s1 (unzips_are (remote ds))) as U. rewrite E in U. discriminate U.
    - injection E as <-. exact F.
  Qed.
  (** *** nothing else is touched, whatever happens *)
  Definition own (ds : list dirurl) (p : str) : Prop :=
    exists d n, In d ds /\ u_url d <> [] /\ In n [key_name; repo_name; files_name; zst repo_name; zst files_name] /\ p = in_coll d n.
  Lemma remote_In ds d : In d (remote ds) <-> In d ds /\ u_url d <> [].
  Proof. unfold remote. rewrite filter_In. destruct (u_url d); cbn [is_nil negb]; split; intros [A B]; split; try exact A; try discriminate; [destruct B; reflexivity|reflexivity]. Qed.
  Lemma target_own ds a : In a (plan ds) -> own ds (target a).
  Proof.
    unfold SyncModel.plan. rewrite in_app_iff, !in_flat_map. intros [[d [I H]]|[d [I H]]]; apply remote_In in I as [I U]; unfold own; exists d.
    - destruct H as [<-|[<-|[<-|[]]]]; cbn [target]; eexists; (split; [exact I|]); (split; [exact U|]); (split; [|reflexivity]); cbn [In]; auto 6.
    - destruct H as [<-|[<-|[]]]; cbn [target]; eexists; (split; [exact I|]); (split; [exact U|]); (split; [|reflexivity]); cbn [In]; auto 6.
  Qed.
  Theorem C62_frame ds s p : ~ own ds p -> mget p (snd (sync ds s)) = mget p s.
  Proof. intro N. apply steps_frame. apply Forall_forall. intros a I E. apply N. rewrite E. apply target_own, I. Qed.

  (** *** what a complete sync leaves *)
  Lemma fetch_kept p acts s : Forall (fun a => p <> target a) acts -> fst (steps acts s) = true -> mget p (snd (steps acts s)) = mget p s.
  Proof. intros F _. apply steps_frame, F. Qed.
  Lemma NoDup_split (xs ys : list dirurl) d : NoDup (map coll_path (xs ++ d :: ys)) -> forall d', In d' (xs ++ ys) -> coll_path d' <> coll_path d.
  Proof. rewrite map_app. cbn [map]. intros N d' I E. apply NoDup_remove_2 in N. apply N. rewrite <- E, <- map_app. apply in_map, I. Qed.
  Lemma others_fetch ds d n : In n [key_name; zst repo_name; zst files_name] -> (forall d', In d' ds -> coll_path d' <> coll_path d) -> Forall (fun a => in_coll d n <> target a) (flat_map (fetches arch version) ds).
  Proof.
    intros In_ N. apply Forall_forall. intros a Ia. apply in_flat_map in Ia as [d' [Id Ia]]. specialize (N d' Id). intro E.
    assert (K : forall m m', In m [key_name; zst repo_name; zst files_name] -> In m' [key_name; zst repo_name; zst files_name] -> in_coll d m = in_coll d' m' -> False).
    { intros m m' Im Im' Em. destruct Im as [<-|[<-|[<-|[]]]]; destruct Im' as [<-|[<-|[<-|[]]]];
      first [apply in_coll_inj in Em; congruence | exact (zk _ _ _ Em) | exact (zk _ _ _ (eq_sym Em)) | exact (zz _ _ Em) | exact (zz _ _ (eq_sym Em))]. }
    destruct Ia as [<-|[<-|[<-|[]]]]; cbn [target] in E; (eapply K; [exact In_| |exact E]); cbn [In]; auto.
  Qed.
  Lemma unzip_not ds d n : In n [key_name; zst repo_name; zst files_name] -> Forall (fun a => in_coll d n <> target a) (flat_map unzips ds).
  Proof.
    intro In_. apply Forall_forall. intros a Ia. apply in_flat_map in Ia as [d' [_ Ia]]. intro E. destruct In_ as [<-|[<-|[<-|[]]]]; destruct Ia as [<-|[<-|[]]]; cbn [target] in E;
    first [exact (kr _ _ E)|exact (kf _ _ E)|exact (zr _ _ _ E)|exact (zf _ _ _ E)].
  Qed.
  Lemma others_unzip ds d n : In n [repo_name; files_name] -> (forall d', In d' ds -> coll_path d' <> coll_path d) -> Forall (fun a => in_coll d n <> target a) (flat_map unzips ds).
  Proof.
    intros In_ N. apply Forall_forall. intros a Ia. apply in_flat_map in Ia as [d' [Id Ia]]. specialize (N d' Id). intro E. destruct In_ as [<-|[<-|[]]]; destruct Ia as [<-|[<-|[]]]; cbn [target] in E;
    first [apply in_coll_inj in E; congruence|exact (rf _ _ E)|exact (rf _ _ (eq_sym E))].
  Qed.
  (** the content after a complete download: the body, the old content if nothing came *)
  Definition received (u : str) (old new : option str) : Prop := exists b, server u = Body b /\ new = match b with Some c => Some c | None => old end.
  Lemma fetched s u p s1 : steps [Fetch u p] s = (true, s1) -> received u (mget p s) (mget p s1).
  Proof.
    cbn [SyncModel.steps SyncModel.effect]. unfold received. destruct (server u) as [[b|]|[b|]]; cbn [write]; intro E; try discriminate E; injection E as <-; eexists; (split; [reflexivity|]).
    - rewrite mget_mset, seqb_refl. reflexivity.
    - reflexivity.
  Qed.
  Lemma fetches_do d s s1 : steps (fetches arch version d) s = (true, s1) ->
    received (url d ++ slash :: key_name) (mget (in_coll d key_name) s) (mget (in_coll d key_name) s1) /\
    received (url d ++ zst repo_name) (mget (in_coll d (zst repo_name)) s) (mget (in_coll d (zst repo_name)) s1) /\
    received (url d ++ zst files_name) (mget (in_coll d (zst files_name)) s) (mget (in_coll d (zst files_name)) s1).
  Proof.
    unfold fetches. intro E. change [?a; ?b; ?c] with ([a] ++ [b] ++ [c]) in E. rewrite steps_app in E. destruct (steps [Fetch (url d ++ slash :: key_name) (in_coll d key_name)] s) as [[|] sa] eqn:Ea; [|discriminate E].
    rewrite steps_app in E. destruct (steps [Fetch (url d ++ zst repo_name) (in_coll d (zst repo_name))] sa) as [[|] sb] eqn:Eb; [|discriminate E].
    pose proof (fetched _ _ _ _ Ea) as Ra. pose proof (fetched _ _ _ _ Eb) as Rb. pose proof (fetched _ _ _ _ E) as Rc.
    assert (Fa : forall p, p <> in_coll d key_name -> mget p sa = mget p s) by (intros p N; pose proof (steps_frame p [Fetch (url d ++ slash :: key_name) (in_coll d key_name)] ltac:(constructor; [exact N|constructor]) s) as X; rewrite Ea in X; exact X).
    assert (Fb : forall p, p <> in_coll d (zst repo_name) -> mget p sb = mget p sa) by (intros p N; pose proof (steps_frame p [Fetch (url d ++ zst repo_name) (in_coll d (zst repo_name))] ltac:(constructor; [exact N|constructor]) sa) as X; rewrite Eb in X; exact X).
    assert (Fc : forall p, p <> in_coll d (zst files_name) -> mget p s1 = mget p sb) by (intros p N; pose proof (steps_frame p [Fetch (url d ++ zst files_name) (in_coll d (zst files_name))] ltac:(constructor; [exact N|constructor]) sb) as X; rewrite E in X; exact X).
    split; [|split].
    - rewrite (Fc (in_coll d key_name)) by (intro H; exact (zk _ _ _ (eq_sym H))). rewrite (Fb (in_coll d key_name)) by (intro H; exact (zk _ _ _ (eq_sym H))). exact Ra.
    - rewrite (Fc (in_coll d (zst repo_name))) by (apply zz). rewrite <- (Fa (in_coll d (zst repo_name))) by (apply zk). exact Rb.
    - rewrite <- (Fa (in_coll d (zst files_name))) by (apply zk). rewrite <- (Fb (in_coll d (zst files_name))) by (intro H; exact (zz _ _ (eq_sym H))). exact Rc.
  Qed.
  (** after the decompression of [z]: the content, or the old index if it cannot be decompressed *)
  Definition unpacked (z old new : option str) : Prop :=
    match z with
    | Some b => match unz b with Some c => new = Some c | None => new = old end
    | None => new = old
    end.
  Lemma unzips_do d s : let s1 := snd (steps (unzips d) s) in
    unpacked (mget (in_coll d (zst repo_name)) s) (mget (in_coll d repo_name) s) (mget (in_coll d repo_name) s1) /\
    unpacked (mget (in_coll d (zst files_name)) s) (mget (in_coll d files_name) s) (mget (in_coll d files_name) s1).
  Proof.
    assert (Zi : forall n, zst (in_coll d n) = in_coll d (zst n)) by (intro n; unfold zst, in_coll; rewrite <- app_assoc; reflexivity).
    assert (One : forall n t, unpacked (mget (in_coll d (zst n)) t) (mget (in_coll d n) t) (mget (in_coll d n) (snd (steps [Unzip (in_coll d n)] t)))).
    { intros n t. cbn [SyncModel.steps SyncModel.effect]. rewrite Zi. unfold unpacked. destruct (mget (in_coll d (zst n)) t) as [z|]; [|reflexivity]. destruct (unz z) as [c|]; [|reflexivity]. cbn [snd write]. rewrite mget_mset, seqb_refl. reflexivity. }
    cbv zeta. unfold unzips. change [?a; ?b] with ([a] ++ [b]). rewrite steps_app. pose proof (One repo_name s) as O1.
    assert (Fa : forall p, p <> in_coll d repo_name -> mget p (snd (steps [Unzip (in_coll d repo_name)] s)) = mget p s) by (intros p N; apply steps_frame; constructor; [exact N|constructor]).
    assert (Ok1 : fst (steps [Unzip (in_coll d repo_name)] s) = true) by (apply unzip_ok; constructor; [eexists; reflexivity|constructor]).
    destruct (steps [Unzip (in_coll d repo_name)] s) as [ok s1]. cbn [fst snd] in *. subst ok. pose proof (One files_name s1) as O2.
    assert (Fb : forall p, p <> in_coll d files_name -> mget p (snd (steps [Unzip (in_coll d files_name)] s1)) = mget p s1) by (intros p N; apply steps_frame; constructor; [exact N|constructor]). split.
    - rewrite Fb by apply rf. exact O1.
    - rewrite <- (Fa (in_coll d (zst files_name))) by apply zr. rewrite <- (Fa (in_coll d files_name)) by (intro H; exact (rf _ _ (eq_sym H))). exact O2.
  Qed.
  Theorem C62_complete ds s s' d : sync ds s = (true, s') -> NoDup (map coll_path (remote ds)) -> In d ds -> u_url d <> [] ->
    received (server_dir arch version d ++ L "/.PKEY") (mget (in_coll d key_name) s) (mget (in_coll d key_name) s') /\
    forall n, n = repo_name \/ n = files_name -> exists z, received (server_dir arch version d ++ n ++ L ".zst") (mget (in_coll d (zst n)) s) z /\ unpacked z (mget (in_coll d n) s) (mget (in_coll d n) s').
  Proof.
    rewrite <- coll_url_dir. intros E N I U. assert (R : In d (remote ds)) by (apply remote_In; split; assumption). apply in_split in R as [xs [ys R]]. unfold sync_run, SyncModel.plan in E. rewrite R in E, N. pose proof (NoDup_split xs ys d N) as Nd.
    assert (Nx : forall d', In d' xs -> coll_path d' <> coll_path d) by (intros d' H; apply Nd, in_app_iff; left; exact H). assert (Ny : forall d', In d' ys -> coll_path d' <> coll_path d) by (intros d' H; apply Nd, in_app_iff; right; exact H).
    rewrite !flat_map_app in E. cbn [flat_map] in E. rewrite <- !app_assoc in E.
    rewrite steps_app in E. pose proof (fun n H => steps_frame (in_coll d n) _ (others_fetch xs d n H Nx) s) as F1. pose proof (fun p H => steps_frame p _ (fetch_not_index xs d p H) s) as G1.
    destruct (steps (flat_map (fetches arch version) xs) s) as [[|] s1]; [|discriminate E]. cbn [snd] in F1, G1.
    rewrite steps_app in E. destruct (steps (fetches arch version d) s1) as [[|] s2] eqn:E2; [|discriminate E]. apply fetches_do in E2 as D2.
    assert (G2 : forall p, index d p -> mget p s2 = mget p s1).
    { intros p H. pose proof (steps_frame p (fetches arch version d)) as X. assert (Y : Forall (fun a => p <> target a) (fetches arch version d)) by (pose proof (fetch_not_index [d] d p H) as Z; cbn [flat_map] in Z; rewrite app_nil_r in Z; exact Z). specialize (X Y s1). rewrite E2 in X. exact X. }
    rewrite steps_app in E. pose proof (fun n H => steps_frame (in_coll d n) _ (others_fetch ys d n H Ny) s2) as F3. pose proof (fun p H => steps_frame p _ (fetch_not_index ys d p H) s2) as G3.
    destruct (steps (flat_map (fetches arch version) ys) s2) as [[|] s3]; [|discriminate E]. cbn [snd] in F3, G3.
    rewrite steps_app in E. pose proof (fun n H => steps_frame (in_coll d n) _ (unzip_not xs d n H) s3) as F4. pose proof (fun n H => steps_frame (in_coll d n) _ (others_unzip xs d n H Nx) s3) as G4.
    destruct (steps (flat_map unzips xs) s3) as [[|] s4]; [|discriminate E]. cbn [snd] in F4, G4.
    rewrite steps_app in E. pose proof (unzips_do d s4) as D5. cbv zeta in D5.
    pose proof (fun n H => steps_frame (in_coll d n) (unzips d) (let Z := unzip_not [d] d n H in ltac:(cbn [flat_map] in Z; rewrite app_nil_r in Z; exact Z)) s4) as F5.
    destruct (steps (unzips d) s4) as [[|] s5]; [|discriminate E]. cbn [snd] in D5, F5.
    pose proof (fun n H => steps_frame (in_coll d n) _ (unzip_not ys d n H) s5) as F6. pose proof (fun n H => steps_frame (in_coll d n) _ (others_unzip ys d n H Ny) s5) as G6. rewrite E in F6, G6. cbn [snd] in F6, G6.
    destruct D2 as [K [Zr Zf]].
    assert (Ik : In key_name [key_name; zst repo_name; zst files_name]) by (cbn [In]; auto). assert (Ir : In (zst repo_name) [key_name; zst repo_name; zst files_name]) by (cbn [In]; auto). assert (If : In (zst files_name) [key_name; zst repo_name; zst files_name]) by (cbn [In]; auto).
    assert (Jr : In repo_name [repo_name; files_name]) by (cbn [In]; auto). assert (Jf : In files_name [repo_name; files_name]) by (cbn [In]; auto). split.
    - rewrite (F6 _ Ik), (F5 _ Ik), (F4 _ Ik), (F3 _ Ik). rewrite <- (F1 _ Ik). exact K.
    - intros n [->| ->].
      + exists (mget (in_coll d (zst repo_name)) s2). split; [rewrite <- (F1 _ Ir); exact Zr|]. rewrite (G6 _ Jr). rewrite <- (G1 (in_coll d repo_name)) by (left; reflexivity). rewrite <- (G2 (in_coll d repo_name)) by (left; reflexivity). rewrite <- (G3 (in_coll d repo_name)) by (left; reflexivity). rewrite <- (G4 _ Jr). rewrite <- (F3 _ Ir), <- (F4 _ Ir). apply D5.
      + exists (mget (in_coll d (zst files_name)) s2). split; [rewrite <- (F1 _ If); exact Zf|]. rewrite (G6 _ Jf). rewrite <- (G1 (in_coll d files_name)) by (right; reflexivity). rewrite <- (G2 (in_coll d files_name)) by (right; reflexivity). rewrite <- (G3 (in_coll d files_name)) by (right; reflexivity). rewrite <- (G4 _ Jf). rewrite <- (F3 _ If), <- (F4 _ If). apply D5.
  Qed.

  (** *** the process dies at any moment *)
  Notation dies := (dies server unz).
  Lemma dies_app xs ys s s' : dies (xs ++ ys) s s' -> dies xs s s' \/ (exists s1, steps xs s = (true, s1) /\ dies ys s1 s').
Proof.
    revert s. induction xs as [|a t IH]; intros s D; [right; exists s; split; [reflexivity|exact D]|]. cbn [app] in D. inversion D as [? ?|? ? ? ? ? ? ? E|? ? ? ? ? E D']; subst.
    - left. constructor.
    - left. econstructor. exact E.
    - apply IH in D' as [D'|[s1 [E1 D']]].
      + left. econstructor; [exact E|exact D'].
      + right. exists s1. split; [cbn [SyncModel.steps]; rewrite E; exact E1|exact D'].
  Qed.
  Lemma dies_frame p acts s s' : dies acts s s' -> Forall (fun a => p <> target a) acts -> mget p s' = mget p s.
Proof.
    induction 1 as [acts s|a t s q c ok n E|a t s w s' E D IH]; intro F; [reflexivity| |].
    - inversion F as [|? ? N _]; subst. rewrite mget_mset, (effect_target _ _ _ _ _ E), (proj2 (seqb_neq p (target a)) N). reflexivity.
    - inversion F as [|? ? N F']; subst. rewrite (IH F'). apply (write_frame s a w true p E N).
  Qed.
  (** [z] is what the server sends under a name the plan fetches into [q], or what was there *)
  Definition source (ds : list dirurl) (s : store) (q z : str) : Prop :=
    mget q s = Some z \/ exists d n, In d ds /\ u_url d <> [] /\ (n = repo_name \/ n = files_name) /\ q = in_coll d (zst n) /\ server (server_dir arch version d ++ n ++ L ".zst") = Body (Some z).
  Lemma steps_source acts s s1 q z : steps acts s = (true, s1) -> Forall (fun a => exists u p, a = Fetch u p) acts -> mget q s1 = Some z -> mget q s = Some z \/ exists u, In (Fetch u q) acts /\ server u = Body (Some z).
Proof.
    intros E F. revert s E. induction F as [|a t [u [p ->]] F IH]; intros s E G; [cbn [SyncModel.steps] in E; injection E as <-; left; exact G|].
    cbn [SyncModel.steps SyncModel.effect] in E. destruct (server u) as [[b|]|[b|]] eqn:Su; cbn [write] in E; try discriminate E.
    2:{ destruct (IH _ E G) as [H|[v [H Sv]]]; [left; exact H|right; exists v; split; [right; exact H|exact Sv]]. }
    - destruct (IH _ E G) as [H|[v [H Sv]]]; [|right; exists v; split; [right; exact H|exact Sv]]. rewrite mget_mset in H. destruct (seqb q p) eqn:Q; [|left; exact H].
      apply seqb_eq in Q. subst q. right. exists u. split; [left; reflexivity|]. rewrite Su. congruence.
  Qed.
  Lemma dies_unzip acts s s' p : dies acts s s' -> Forall (fun a => exists q, a = Unzip q) acts -> Forall (fun a => zst p <> target a) acts ->
    mget p s' = mget p s \/ exists z c n, mget (zst p) s = Some z /\ unz z = Some c /\ mget p s' = Some (firstn n c).
Proof.
    induction 1 as [acts s|a t s q c ok n E|a t s w s' E D IH]; intros F Z; [left; reflexivity| |].
    - destruct (seqb p q) eqn:Q; [|left; rewrite mget_mset, Q; reflexivity]. apply seqb_eq in Q. subst q. right. pose proof (effect_target _ _ _ _ _ E) as T. inversion F as [|? ? [q ->] _]; subst. cbn [target SyncModel.effect] in E. cbn [target].
      destruct (mget (zst q) s) as [z|] eqn:M; [|discriminate E]. destruct (unz z) as [c'|] eqn:Uz; [|discriminate E]. injection E as <- <-. exists z, c', n. rewrite mget_mset, seqb_refl. auto.
    - inversion F as [|? ? [q ->] F']; subst. inversion Z as [|? ? Zq Z']; subst. specialize (IH F' Z'). rewrite (write_frame _ _ _ _ (zst p) E Zq) in IH. destruct IH as [IH|IH]; [|right; exact IH]. rewrite IH.
      destruct (seqb p q) eqn:Q.
      + apply seqb_eq in Q. subst q. cbn [SyncModel.effect] in E. destruct (mget (zst p) s) as [z|] eqn:M; [|injection E as <-; left; reflexivity]. destruct (unz z) as [c|] eqn:Uz; injection E as <-; [|left; reflexivity].
        right. exists z, c, (length c). rewrite firstn_all. cbn [write]. rewrite mget_mset, seqb_refl. auto.
      + left. apply (write_frame _ _ _ _ p E). cbn [target]. apply seqb_neq, Q.
  Qed.
  (** whenever the process dies, an index is the old one, or a (possibly cut) decompression of what the server offered *)
  Theorem C62_died ds s s' d n : dies (plan ds) s s' -> n = repo_name \/ n = files_name ->
    mget (in_coll d n) s' = mget (in_coll d n) s \/
    exists z c k, source ds s (in_coll d (zst n)) z /\ unz z = Some c /\ mget (in_coll d n) s' = Some (firstn k c).
Proof.
    unfold SyncModel.plan. intros D N. assert (I : index d (in_coll d n)) by (destruct N as [->| ->]; [left|right]; reflexivity). apply dies_app in D as [D|[s1 [E D]]].
    - left. exact (dies_frame _ _ _ _ D (fetch_not_index (remote ds) d _ I)).
    - assert (Zi : zst (in_coll d n) = in_coll d (zst n)) by (unfold zst, in_coll; rewrite <- app_assoc; reflexivity).
      assert (Zn : Forall (fun a => zst (in_coll d n) <> target a) (flat_map unzips (remote ds))) by (rewrite Zi; apply unzip_not; destruct N as [->| ->]; cbn [In]; auto).
      pose proof (steps_frame _ _ (fetch_not_index (remote ds) d _ I) s) as F. rewrite E in F. cbn [snd] in F.
      destruct (dies_unzip _ _ _ _ D (unzips_are (remote ds)) Zn) as [H|[z [c [k [Hz [Hu H]]]]]]; [left; congruence|]. right. exists z, c, k. split; [|split; assumption]. rewrite Zi in Hz.
      assert (Fe : Forall (fun a => exists u p, a = Fetch u p) (flat_map (fetches arch version) (remote ds))) by (apply Forall_forall; intros a Ia; apply in_flat_map in Ia as [d' [_ [<-|[<-|[<-|[]]]]]]; eexists; eexists; reflexivity).
      destruct (steps_source _ _ _ _ _ E Fe Hz) as [H0|[u [Iu Su]]]; [left; exact H0|]. right. apply in_flat_map in Iu as [d' [Id' Iu]]. apply remote_In in Id' as [Id' Ud'].
      destruct Iu as [Eu|[Eu|[Eu|[]]]]; injection Eu as Eu Ep.
      + exfalso. exact (zk _ _ _ (eq_sym Ep)).
      + exists d', repo_name. subst u. auto 6.
      + exists d', files_name. subst u. auto 6.
  Qed.
  (** and nothing outside the collections' own files has changed *)
  Theorem C62_died_frame ds s s' p : dies (plan ds) s s' -> ~ own ds p -> mget p s' = mget p s.
  Proof. intros D N. apply (dies_frame _ _ _ _ D). apply Forall_forall. intros a I E. apply N. rewrite E. apply target_own, I. Qed.
End Sync.

(** ** a witness, and where the claim fails *)
Definition base : dirurl := DU (L "base") (L "/var/lib/pkg/depot") (L "http://h").
Definition arch : str := L "x86_64".
Definition ver : str := L "saravane".
Definition at_ (n : str) : str := in_coll base n.
(** the decompressor: "Z" before the content *)
Definition unz (z : str) : option str := match z with c :: t => if Ascii.eqb c "Z"%char then Some t else None | [] => None end.
Definition old : store := [(at_ key_name, L "oldkey"); (at_ repo_name, L "oldrepo"); (at_ files_name, L "oldfiles"); (L "/etc/passwd", L "root")].
Definition key_url : str := coll_url arch ver base ++ slash :: key_name.
Definition repo_url : str := coll_url arch ver base ++ zst repo_name.
Definition files_url : str := coll_url arch ver base ++ zst files_name.
Definition serves (k r f : outcome) (u : str) : outcome := if seqb u key_url then k else if seqb u repo_url then r else if seqb u files_url then f else Broken None.
Definition good : str -> outcome := serves (Body (Some (L "newkey"))) (Body (Some (L "Znewrepo"))) (Body (Some (L "Znewfiles"))).
Example C62_witness : let '(ok, s) := sync_run good unz arch ver [base] old in
  ok = true /\ mget (at_ key_name) s = Some (L "newkey") /\ mget (at_ repo_name) s = Some (L "newrepo") /\ mget (at_ files_name) s = Some (L "newfiles") /\ mget (L "/etc/passwd") s = Some (L "root").
Proof. vm_compute. auto 8. Qed.
(** *** a death while an index is written leaves a cut index *)
Theorem C62_cut_refuted : exists s', dies good unz (plan arch ver [base]) old s' /\ mget (at_ repo_name) s' = Some (L "new") /\ mget (at_ repo_name) old = Some (L "oldrepo") /\
  mget (at_ repo_name) (snd (sync_run good unz arch ver [base] old)) = Some (L "newrepo").
Proof.
  eexists. split; [|split; [|split; vm_compute; reflexivity]].
  - unfold plan. cbn [remote filter u_url base is_nil negb flat_map app fetches unzips].
    eapply dies_later; [vm_compute; reflexivity|]. eapply dies_later; [vm_compute; reflexivity|]. eapply dies_later; [vm_compute; reflexivity|]. eapply dies_writing with (n := 3). vm_compute; reflexivity.
  - vm_compute. reflexivity.
Qed.
(** *** an index that cannot be decompressed is passed over: the sync succeeds, with a new key and the old index *)
Theorem C62_silent_refuted : exists server, (forall u, In u [key_url; repo_url; files_url] -> exists b, server u = Body (Some b)) /\
  let '(ok, s) := sync_run server unz arch ver [base] old in ok = true /\ mget (at_ key_name) s = Some (L "newkey") /\ mget (at_ repo_name) s = Some (L "oldrepo") /\ mget (at_ files_name) s = Some (L "newfiles").
Proof.
  exists (serves (Body (Some (L "newkey"))) (Body (Some (L "junk"))) (Body (Some (L "Znewfiles")))). split; [|vm_compute; auto].
  intros u [<-|[<-|[<-|[]]]]; eexists; vm_compute; reflexivity.
Qed.
(** *** a sync that fails half-way leaves the new key beside the old indexes *)
Theorem C62_key_refuted : let '(ok, s) := sync_run (serves (Body (Some (L "newkey"))) (Broken None) (Broken None)) unz arch ver [base] old in
  ok = false /\ mget (at_ key_name) s = Some (L "newkey") /\ mget (at_ repo_name) s = Some (L "oldrepo").
Proof. vm_compute. auto. Qed.
(** *** a download that breaks off leaves what was received in place of the old key *)
Theorem C62_torn_refuted : let '(ok, s) := sync_run (serves (Broken (Some (L "new"))) (Broken None) (Broken None)) unz arch ver [base] old in
  ok = false /\ mget (at_ key_name) s = Some (L "new") /\ mget (at_ key_name) old = Some (L "oldkey") /\ mget (at_ repo_name) s = Some (L "oldrepo").
Proof. vm_compute. auto. Qed.
