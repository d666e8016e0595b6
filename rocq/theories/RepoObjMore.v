(** C111: what the repository object lists, and what it holds when an index was missing or broken *)
From Verif Require Import Base BaseProofs StrModel StrSpec StrProofs RulesModel FsModel FsProofs MetaModel MetaSpec MetaProofs DbModel DbSpec DbFacts GenDeps GenDepsProofs GenDepsProps HexModel FilesModel.
From Verif Require FilesProps.
From Verif Require Import IndexModel IndexProofs IndexProps FetchModel ConfModel DiffModel SizeModel DiffAmounts InstallModel IndexExact OrderProps InfoModel InfoProps InfoMembers RepoObjModel RepoObjProps.
From Coq Require Import ZArith Lia.
Open Scope nat_scope.

Lemma offered_placed l n : good_depots (at_colls l) -> offered (at_colls l) n -> exists p before d, last_named (at_colls l) n p before /\ offered_by l n d.
Proof.
  intros Gd (c & ps & p & I & Ip & R). unfold at_colls in I. apply in_map_iff in I as ((d & o) & E & I). cbn [fst snd] in E. injection E as Ec Eo. subst o. exact (C100_all l n d ps p Gd I Ip R).
Qed.
Lemma last_offered l n p before : last_named l n p before -> offered l n.
Proof. intros (l1 & c & ps1 & ps2 & l2 & El & R & _). exists c, (ps1 ++ p :: ps2), p. split; [rewrite El; apply in_elt|]. split; [apply in_elt|exact R]. Qed.
Lemma last_placed l n p before : good_depots (at_colls l) -> last_named (at_colls l) n p before -> exists d, offered_by l n d.
Proof. intros Gd Ln. destruct (offered_placed l n Gd (last_offered _ _ _ _ Ln)) as (_ & _ & d & _ & O). exists d. exact O. Qed.

Section More.
Variable cfg : list dirurl.
Variables (date : Z -> str) (machine version : str) (j_rel : N) (j_build : Z) (j_size j_space : N).
Notation ask := (call cfg date machine version j_rel j_build j_size j_space).
Notation run := (calls cfg date machine version j_rel j_build j_size j_space).
Notation after := (after cfg date machine version j_rel j_build j_size j_space).
Notation answer := (answer cfg date machine version j_rel j_build j_size j_space).
Notation added := (added cfg).
Notation listed := (listed cfg).
Notation stocked := (stocked cfg).
Notation held := RepoObjProps.held.

(** When no report was asked for before, that on a name that is not known is empty. *)
Theorem C111_info_none : forall w0 h n w' wr hr l, (forall q w, In (q, w) h -> forall x, q <> Info x) -> last_read w0 h wr hr -> stocked wr l -> ~ offered (at_colls l) n -> ~ added hr n ->
  answer w0 h (Info n) w' = Ok (AText []).
Proof.
  intros w0 h n w' wr hr l Nh Lr St No Na. destruct (served cfg date machine version j_rel j_build j_size j_space w0 h wr hr l Lr St) as (m & own & (_ & _ & _ & _ & Of) & Hd). unfold RepoObjProps.answer. set (o := after w0 h) in *. cbn [call]. rewrite after_load_held by apply Hd.
  destruct (mget n (b_map o)) as [i|] eqn:G.
  - exfalso. assert (X : mget n (b_map o) <> None) by (rewrite G; discriminate). apply (held_in _ _ _ _ _ n Hd) in X. rewrite Of in X. destruct X; contradiction.
  - cbn [snd]. f_equal. f_equal. unfold o, RepoObjProps.after.
    assert (Sf : forall h3 o1, (forall q w, In (q, w) h3 -> forall x, q <> Info x) -> b_shown (run h3 o1) = b_shown o1).
    { induction h3 as [|[q wq] h3 IH]; intros o1 H; [reflexivity|]. cbn [calls]. rewrite IH; [apply shown_frame; intro x; apply (H q wq); left; reflexivity|]. intros q1 w1 I1. apply (H q1 w1). right. exact I1. }
    rewrite Sf by exact Nh. unfold open_repo, load_repo. cbn [b_map empty_repo]. destruct (places_go (index_at cfg w0) blank [] []) as [[m1 own1] r]. reflexivity.
Qed.
(** The files of a package are those that parseFiles() has read for it since the indexes were last read: none before. *)
Theorem C111_paths : forall w0 h w h2 l, last_read w0 h w h2 -> stocked w l -> forall n w', exists k, answer w0 h (Paths n) w' = Ok (ASet k) /\ ssorted k /\ forall f, In f k <-> listed h2 n f.
Proof.
  intros w0 h w h2 l Lr St n w'. destruct (served cfg date machine version j_rel j_build j_size j_space w0 h w h2 l Lr St) as (m & own & _ & Hd). unfold RepoObjProps.answer. cbn [call snd]. eexists. split; [reflexivity|].
  destruct Hd as (_ & _ & _ & _ & _ & _ & Hf & _ & Hs). split; [exact (Hs n)|exact (Hf n)].
Qed.

(** *** getBinaryPackageList *)
Definition says (p : gpkg) (before : list str) (c : ascii) : str := text (last_of c (before ++ gp_meta p)).
Definition line_of (n : str) (p : gpkg) (before : list str) : str := L "(" ++ says p before "c" ++ L ") " ++ n ++ L " " ++ says p before "V" ++ L " " ++ says p before "D".
Lemma list_frame q wq o : q <> Listing -> b_list (fst (ask q wq o)) = b_list o.
Proof.
  intro Nq. assert (Ld : forall o, b_list (fst (load_repo cfg wq o)) = b_list o) by (intro o1; unfold load_repo; destruct (b_map o1); [|reflexivity]; destruct (places_go (index_at cfg wq) blank [] []) as [[m own] r]; reflexivity).
  assert (Al : forall o f, (forall o1, b_list (fst (f o1)) = b_list o1) -> b_list (fst (after_load cfg wq o f)) = b_list o).
  { intros o1 f Hf. unfold after_load. specialize (Ld o1). destruct (load_repo cfg wq o1) as [o2 r]. cbn [fst] in Ld. destruct r; [|exact Ld|exact Ld]. specialize (Hf o2). destruct (f o2) as [o3 a3]. cbn [fst] in *. congruence. }
  assert (Tc : forall n o1, b_list (touch n o1) = b_list o1) by (intros n o1; apply touch_same).
  destruct q as [|n|t n|t n|n|n|n| |x|x|n|n| |]; cbn [call]; try (apply Al; intro o1; cbn [fst]; first [reflexivity|apply Tc]).
  - cbn [fst]. apply Tc.
  - contradiction.
  - apply Al. intro o1. destruct (mget n (b_map o1)); reflexivity.
  - destruct (parse_files (files_at cfg wq) (b_files o)) as [m1| |]; [|reflexivity|reflexivity]. cbn [fst]. destruct (with_names_spec (keys m1) (Repo (b_map o) (b_own o) m1 (b_list o) (b_shown o))) as (_ & _ & _ & E & _). exact E.
  - rewrite Al; [reflexivity|]. reflexivity.
Qed.
Lemma fold_lines (m : list (str * irec)) : forall s x, In x (fold_left (fun s p => sins (listing_line p) s) m s) <-> In x s \/ exists p, In p m /\ x = listing_line p.
Proof.
  induction m as [|p m IH]; intros s x; cbn [fold_left]; [split; [auto|intros [H|(p & [] & _)]; exact H]|]. rewrite IH, sins_In. split.
  - intros [[->|H]|(q & I & ->)]; [right; exists p; split; [left; reflexivity|reflexivity]|left; exact H|right; exists q; split; [right; exact I|reflexivity]].
  - intros [H|(q & [<-|I] & ->)]; [left; right; exact H|left; left; reflexivity|right; exists q; split; [exact I|reflexivity]].
Qed.
Lemma fold_lines_sorted (m : list (str * irec)) : forall s, ssorted s -> ssorted (fold_left (fun s p => sins (listing_line p) s) m s).
Proof. induction m as [|p m IH]; intros s H; [exact H|]. cbn [fold_left]. apply IH, sins_sorted, H. Qed.
Lemma listing_step wq o : (exists k, ask Listing wq o = (fst (ask Listing wq o), Ok (ASet k)) /\ b_list (fst (ask Listing wq o)) = k /\ (ssorted (b_list o) -> ssorted k) /\ forall x, In x (b_list o) -> In x k) \/
  (forall k, snd (ask Listing wq o) <> Ok (ASet k)) /\ b_list (fst (ask Listing wq o)) = b_list o.
Proof.
  cbn [call]. unfold after_load. assert (Ld : b_list (fst (load_repo cfg wq o)) = b_list o) by (unfold load_repo; destruct (b_map o); [|reflexivity]; destruct (places_go (index_at cfg wq) blank [] []) as [[m own] r]; reflexivity).
  destruct (load_repo cfg wq o) as [o1 r]. cbn [fst] in Ld. destruct r; [left|right|right].
  - eexists. split; [reflexivity|]. cbn [fst b_list]. split; [reflexivity|]. rewrite Ld. split; [apply fold_lines_sorted|]. intros x I. apply fold_lines. left. exact I.
  - split; [intros k E; discriminate E|exact Ld].
  - split; [intros k E; discriminate E|exact Ld].
Qed.
(** the lines kept are those of the earlier replies *)
Definition replied (w0 : rworld) (h : list (query * rworld)) (x : str) : Prop :=
  exists h1 w1 h3 k1, h = h1 ++ (Listing, w1) :: h3 /\ answer w0 h1 Listing w1 = Ok (ASet k1) /\ In x k1.
Lemma kept_lines w0 : forall h, ssorted (b_list (after w0 h)) /\ forall x, In x (b_list (after w0 h)) <-> replied w0 h x.
Proof.
  induction h as [|[q wq] h IH] using rev_ind.
  - unfold RepoObjProps.after, open_repo, load_repo. cbn [calls b_map empty_repo]. destruct (places_go (index_at cfg w0) blank [] []) as [[m own] r]. cbn [fst b_list]. split; [constructor|]. intro x. split; [intros []|]. intros (h1 & w1 & h3 & k1 & E & _). destruct h1; discriminate E.
  - destruct IH as [Is IH]. rewrite after_app. cbn [calls]. set (o := after w0 h) in *.
    assert (Sn : forall x, replied w0 (h ++ [(q, wq)]) x <-> replied w0 h x \/ q = Listing /\ exists k1, snd (ask Listing wq o) = Ok (ASet k1) /\ In x k1).
    { intro x. split.
      - intros (h1 & w1 & h3 & k1 & E & A & I). destruct h3 as [|y h3] using rev_ind.
        + apply app_inj_tail in E as [<- E]. injection E as -> ->. right. split; [reflexivity|]. exists k1. split; [exact A|exact I].
        + clear IHh3. rewrite app_comm_cons, app_assoc in E. apply app_inj_tail in E as [-> _]. left. exists h1, w1, h3, k1. split; [reflexivity|]. split; [exact A|exact I].
      - intros [(h1 & w1 & h3 & k1 & -> & A & I)|(-> & k1 & A & I)].
        + exists h1, w1, (h3 ++ [(q, wq)]), k1. split; [rewrite <- app_assoc; reflexivity|]. split; [exact A|exact I].
        + exists h, wq, [], k1. split; [reflexivity|]. split; [exact A|exact I]. }
    assert (Dq : q = Listing \/ q <> Listing) by (destruct q; first [left; reflexivity|right; discriminate]). destruct Dq as [->|Nq].
    + destruct (listing_step wq o) as [(k & E & Eb & Ks & Kin)|[No Eb]].
      * rewrite Eb. split; [exact (Ks Is)|]. intro x. rewrite Sn. split.
        -- intro I. right. split; [reflexivity|]. exists k. split; [rewrite E; reflexivity|exact I].
        -- intros [H|(_ & k1 & A & I)]; [apply Kin, IH, H|]. rewrite E in A. cbn [snd] in A. injection A as <-. exact I.
      * rewrite Eb. split; [exact Is|]. intro x. rewrite IH, Sn. split; [auto|]. intros [H|(_ & k1 & A & _)]; [exact H|destruct (No k1 A)].
    + rewrite list_frame by exact Nq. split; [exact Is|]. intro x. rewrite IH, Sn. split; [auto|]. intros [H|(K & _)]; [exact H|contradiction].
Qed.
(** The list of the binaries has a line for every package that is offered, one without details for every other name asked about, and the lines of
    every list it has given before, also those of packages that are gone. *)
Theorem C111_listing : forall w0 h w h2 l w', last_read w0 h w h2 -> stocked w l -> exists k, answer w0 h Listing w' = Ok (ASet k) /\ ssorted k /\ forall x, In x k <->
  (exists n p before, last_named (at_colls l) n p before /\ x = line_of n p before) \/ (exists n, ~ offered (at_colls l) n /\ added h2 n /\ x = L "() " ++ n ++ L "  ") \/ replied w0 h x.
Proof.
  intros w0 h w h2 l w' Lr St. destruct (served cfg date machine version j_rel j_build j_size j_space w0 h w h2 l Lr St) as (m & own & (_ & _ & Ks & Rd & Of) & Hd). destruct (kept_lines w0 h) as [Ls Lk]. unfold RepoObjProps.answer. set (o := after w0 h) in *. cbn [call].
  rewrite after_load_held by apply Hd. cbn [snd]. eexists. split; [reflexivity|]. split; [apply fold_lines_sorted, Ls|]. intro x. rewrite fold_lines, Lk.
  assert (Ck : forall n p before i, last_named (at_colls l) n p before -> mget n m = Some i -> listing_line (n, i) = line_of n p before).
  { intros n p before i Ln G. destruct (last_placed l n p before (proj1 (proj2 St)) Ln) as (d & Ob). destruct (Rd n p before d Ln Ob) as (i' & G' & _ & Ca & _). rewrite G in G'. injection G' as <-. unfold listing_line, line_of, says, i_text. cbn [fst snd].
    rewrite (carried_last p before i "c" Ca), (carried_last p before i "V" Ca), (carried_last p before i "D" Ca) by (cbn; tauto). reflexivity. }
  assert (Hk : ssorted (keys (b_map o))) by apply Hd. destruct Hd as (_ & _ & _ & H4 & H5 & _). split.
  - intros [R|((n & i) & I & ->)]; [right; right; exact R|]. apply (in_keyed _ n i Hk) in I. destruct (mget n m) as [j|] eqn:G.
    + rewrite (H4 n j G) in I. injection I as <-. left. assert (O : offered (at_colls l) n) by (apply Of; rewrite G; discriminate). destruct (offered_placed l n (proj1 (proj2 St)) O) as (p & before & d & Ln & _). exists n, p, before. split; [exact Ln|exact (Ck n p before j Ln G)].
    + right. left. specialize (H5 n G). rewrite I in H5. destruct H5 as [-> A]. exists n. split; [intro O; apply Of in O; exact (O G)|]. split; [exact A|reflexivity].
  - intros [(n & p & before & Ln & ->)|[(n & No & A & ->)|R]]; [right|right|left; exact R].
    + pose proof (last_offered _ _ _ _ Ln) as O. apply Of in O. destruct (mget n m) as [i|] eqn:G; [|contradiction]. exists (n, i). split; [apply (in_keyed _ n i Hk), H4, G|symmetry; exact (Ck n p before i Ln G)].
    + destruct (mget n m) as [i|] eqn:G; [exfalso; apply No, Of; rewrite G; discriminate|]. specialize (H5 n G). destruct (mget n (b_map o)) as [i|] eqn:Gi; [|contradiction]. destruct H5 as [-> _]. exists (n, blank). split; [apply (in_keyed _ n blank Hk), Gi|reflexivity].
Qed.
End More.
