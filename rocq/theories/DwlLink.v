(** What the two models that see a download as one step (SyncModel: 'cards sync'; FetchModel: the packages) say of it, and what
    DwlModel says of its pieces, are the same: SyncModel's outcome and FetchModel's answer are computed from the course of the download. *)
From Verif Require Import Base BaseProofs StrModel FsModel MetaModel IndexModel ConfModel FetchModel SyncModel DwlModel DwlProps.
From Coq Require Import ZArith Lia.
Open Scope nat_scope.

(** the contents, without the dates *)
Definition contents (fs : list (str * (str * Z))) : list (str * str) := map (fun e => (fst e, fst (snd e))) fs.
Definition run_of (k : course) (old : option (str * Z)) : option (str * Z) * bool := DwlModel.get (k_open k) (k_room k) (k_now k) (k_pieces k) (k_end k) old.
(** what a download leaves where there was nothing *)
Definition outcome_of (k : course) : outcome := let '(v, ok) := run_of k None in if ok then Body (option_map fst v) else Broken (option_map fst v).
Definition answer_of (k : course) : option (option str) := let '(v, ok) := run_of k None in if ok then Some (option_map fst v) else None.

(** *** what it leaves where there was something: the same, or what was there *)
Theorem C113_over k old : run_of k old = (match fst (run_of k None) with Some v => Some v | None => old end, snd (run_of k None)).
Proof.
  unfold run_of, DwlModel.get. destruct (k_pieces k) as [|p ps]; [cbn [take_pieces start d_open d_disk]; destruct (k_end k); reflexivity|].
  assert (Cd : k_open k = true \/ k_open k = false) by (destruct (k_open k); auto). destruct Cd as [Co|Co].
  - rewrite !takes_start by exact Co. destruct (takes_streams (k_open k) (k_room k) (k_now k) (p :: ps) [] _ (opened_streams (k_room k) (k_now k))) as (r & A & _). destruct (take_pieces (k_open k) (k_room k) (k_now k) (p :: ps) (D (Some ([], k_now k)) [] true)) as [s ok]. cbn [fst snd app] in *. pose proof A as (O & c & Ec & _).
    rewrite O. destruct (k_end k) as [date|rest]; [destruct ok|]; cbn [fst snd].
    + destruct (all_passed _ _ r s A) as (n & P & _). rewrite P. reflexivity.
    + rewrite Ec. reflexivity.
    + destruct (proj1 (pass_streams _ _ r rest s A)) as (_ & c' & E' & _). rewrite E'. reflexivity.
  - rewrite !takes_closed by exact Co. cbn [start d_open d_disk]. destruct (k_end k); reflexivity.
Qed.

Lemma contents_mget p : forall fs, mget p (contents fs) = option_map fst (mget p fs).
Proof. induction fs as [|[q w] fs IH]; [reflexivity|]. unfold contents in *. cbn [map fst snd mget]. destruct (seqb p q); [reflexivity|exact IH]. Qed.
Definition same (s : list (str * str)) (fs : list (str * (str * Z))) : Prop := forall p, mget p s = option_map fst (mget p fs).
Lemma same_put s fs k p : same s fs ->
  same (match option_map fst (fst (run_of k None)) with Some c => mset p c s | None => s end) (put_at p (fst (run_of k (mget p fs))) fs).
Proof.
  intros H q. rewrite (C113_over k (mget p fs)). cbn [fst]. destruct (fst (run_of k None)) as [[c d]|]; cbn [option_map fst put_at].
  - rewrite !mget_mset. destruct (seqb q p); [reflexivity|apply H].
  - destruct (mget p fs) as [v|] eqn:M; cbn [put_at]; [|apply H]. rewrite mget_mset. destruct (seqb q p) eqn:Q; [|apply H]. apply seqb_eq in Q. subst q. rewrite H, M. reflexivity.
Qed.

(** *** 'cards sync' (SyncModel): a list of downloads goes as the courses say *)
Theorem C113_sync server unz : forall (l : list (want * course)) s fs, same s fs -> (forall w k, In (w, k) l -> server (asked_url w) = outcome_of k) ->
  exists s', steps server unz (map (fun e => SyncModel.Fetch (asked_url (fst e)) (stored_at (fst e))) l) s = (snd (get_all l fs), s') /\ same s' (fst (get_all l fs)).
Proof.
  induction l as [|[w k] l IH]; intros s fs H Sv; [exists s; split; [reflexivity|exact H]|]. cbn [map fst steps get_all effect]. rewrite (Sv w k) by (left; reflexivity).
  pose proof (same_put s fs k (stored_at w) H) as P. pose proof (C113_over k (mget (stored_at w) fs)) as O. change (DwlModel.get (k_open k) (k_room k) (k_now k) (k_pieces k) (k_end k) (mget (stored_at w) fs)) with (run_of k (mget (stored_at w) fs)).
  unfold outcome_of. destruct (run_of k (mget (stored_at w) fs)) as [v ok]. destruct (run_of k None) as [v0 ok0]. cbn [fst snd] in *. apply pair_equal_spec in O. destruct O as [_ ->].
  assert (Sv' : forall w k, In (w, k) l -> server (asked_url w) = outcome_of k) by (intros w' k' I; apply Sv; right; exact I).
  destruct ok0.
  - destruct (IH _ _ P Sv') as (s' & E & S'). exists s'. split; [|exact S']. rewrite <- E. destruct (option_map fst v0); reflexivity.
  - eexists. cbn [fst snd]. split; [|exact P]. destruct (option_map fst v0); reflexivity.
Qed.
(** *** and these are the downloads 'cards sync' does for a collection; the key's path has one slash more *)
Theorem C113_sync_plan arch version d : let want_of n := W n (coll_url arch version d) (coll_path d ++ L "/") in
  fetches arch version d = [SyncModel.Fetch (asked_url (want_of (L "/.PKEY"))) (coll_path d ++ L "/.PKEY");
                            SyncModel.Fetch (asked_url (want_of (L ".REPO"))) (stored_at (want_of (L ".REPO")));
                            SyncModel.Fetch (asked_url (want_of (L ".FILES"))) (stored_at (want_of (L ".FILES")))] /\
  stored_at (want_of (L "/.PKEY")) = coll_path d ++ L "//.PKEY".
Proof.
  cbv zeta. unfold fetches, asked_url, stored_at, sent_name, public_key, in_coll, zst, key_name, repo_name, files_name. cbn [w_name w_url w_dir].
  assert (Z : forall n, coll_path d ++ slash :: n = (coll_path d ++ L "/") ++ n) by (intro n; rewrite <- app_assoc; reflexivity).
  rewrite (proj2 (seqb_eq (L "/.PKEY") (L "/.PKEY")) eq_refl), (proj2 (seqb_neq (L ".REPO") (L "/.PKEY"))) by discriminate. rewrite (proj2 (seqb_neq (L ".FILES") (L "/.PKEY"))) by discriminate.
  split; [change (coll_path d ++ L "/.PKEY") with (coll_path d ++ slash :: L ".PKEY"); rewrite !Z; reflexivity|]. rewrite <- app_assoc. reflexivity.
Qed.
(** *** a package's download (FetchModel) goes as its course says *)
Theorem C113_fetch e k s fs t : same s fs -> let '(new, ok) := run_of k (mget (e_path e) fs) in
  if ok then exists s', download e (Fs s (answer_of k :: t)) = Ok (Fs s' t) /\ same s' (put_at (e_path e) new fs)
  else download e (Fs s (answer_of k :: t)) = Throw.
Proof.
  intro H. pose proof (same_put s fs k (e_path e) H) as P. pose proof (C113_over k (mget (e_path e) fs)) as O. unfold answer_of, download. destruct (run_of k (mget (e_path e) fs)) as [v ok]. destruct (run_of k None) as [v0 ok0]. cbn [fst snd f_net f_files] in *.
  apply pair_equal_spec in O. destruct O as [_ ->]. destruct ok0; [|reflexivity]. eexists. split; [|exact P]. destruct (option_map fst v0); reflexivity.
Qed.
(** for instance: a download in two pieces, one cut by a full device and one broken *)
Example C113_outcomes : map outcome_of [C true 100 7 [(L "ab", 1); (L "c", 0)] (Good 5); C true 2 7 [(L "ab", 1); (L "c", 0)] (Good 5); C true 100 7 [(L "ab", 1); (L "c", 0)] (Bad 1); C true 100 7 [] (Good 5); C true 100 7 [([], 0)] (Good 5); C false 100 7 [(L "ab", 1)] (Good 5)]
  = [Body (Some (L "abc")); Body (Some (L "ab")); Broken (Some (L "ab")); Body None; Body (Some []); Broken None].
Proof. vm_compute. reflexivity. Qed.
