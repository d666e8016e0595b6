(** C116: repeating a removal that was killed (pkgrm::run, pkgrm.cxx:59-87, with pkgdbh.cxx:903-972, on the models of DbModel.v and
    CrashModel.v). *)
From Verif Require Import Base BaseProofs StrModel StrSpec StrProofs RulesModel RulesSpec RulesProofs FsModel FsSpec FsProofs FsOps FsExtract
  MetaModel MetaSpec MetaProofs DbModel DbSpec DbLoad DbOps DbRun DbInv EngineFs EngineRoot DbFacts DbProps DbExamples RemoveProps
  CrashModel CrashSpec CrashProofs CrashProps CrashExact.

(** *** specification *)
(** two directories of the database with the same files in them *)
Definition same_entry (a b : option dbdir) : Prop :=
  match a, b with None, None => True | Some x, Some y => forall f, mget f x = mget f y | _, _ => False end.
Definition same_base (d d' : disk) : Prop := forall n, same_entry (mget n d) (mget n d').
(** [f']: what is left of the file system [f] when some of the files that only [name] lists are gone *)
Definition half_files (root : str) (name : str) (d : disk) (f f' : fs) : Prop := tree f' /\ forall q,
  fget f' q = fget f q \/ (fget f' q = None /\ (where_meta q \/ exists x, lists_alone d name x /\ at_path root x q)).
(** [d']: what is left of the database [d] when some files of the record of [name] are gone, but not its list of files *)
Definition half_record (name : str) (d d' : disk) : Prop :=
  (forall n, n <> name -> same_entry (mget n d) (mget n d')) /\
  exists dir dir', mget name d = Some dir /\ mget name d' = Some dir' /\
    forall f, mget f dir' = mget f dir \/ (mget f dir' = None /\ f <> L "files" /\ nodot f).

Lemma same_entry_refl a : same_entry a a.
Proof. destruct a; cbn; auto. Qed.
Lemma half_record_refl name d : mget name d <> None -> half_record name d d.
Proof.
  intro N. destruct (mget name d) as [dir|] eqn:G; [|congruence]. split; [intros n _; apply same_entry_refl|].
  exists dir, dir. split; [exact G|]. split; [exact G|]. auto.
Qed.

Section Again.
  Variables (junk : bool) (machine : str) (re : str -> str -> option bool) (sh : str -> fs -> fs * bool) (root : str).
  Notation session := (session junk machine re sh root).
  Notation R := (comps root).

  (** *** the database *)
  Lemma half_lists name d d' n x : half_record name d d' -> (lists d' n x <-> lists d n x).
  Proof.
    intros [O (dir & dir' & G & G' & H)]. destruct (str_eq_dec n name) as [->|N].
    - assert (F : mget (L "files") dir' = mget (L "files") dir) by (destruct (H (L "files")) as [E|(_ & Z & _)]; [exact E|congruence]).
      unfold lists. split; intros (dr & c & A & B & C); [rewrite G' in A|rewrite G in A]; injection A as <-; [exists dir, c|exists dir', c]; split; auto; split; [congruence|exact C|congruence|exact C].
    - specialize (O n N). unfold same_entry in O. unfold lists.
      destruct (mget n d) as [a|] eqn:Ga, (mget n d') as [b|] eqn:Gb; try contradiction.
      + split; intros (dr & c & A & B & C); injection A as <-; eexists; exists c; (split; [reflexivity|]); (split; [|exact C]); [rewrite O; exact B|rewrite <- O; exact B].
      + split; intros (dr & c & A & _); discriminate A.
  Qed.
  Lemma half_alone name d d' x : half_record name d d' -> (lists_alone d' name x <-> lists_alone d name x).
  Proof.
    intro H. unfold lists_alone. split; intros [A B]; (split; [apply (half_lists name d d' name x H), A|]); intros n Nn Nm Z; apply (B n Nn Nm); apply (half_lists name d d' n x H), Z.
  Qed.
  Lemma half_load name d d' m : half_record name d d' -> nodot name -> load junk d = Ok m -> exists m', load junk d' = Ok m'.
  Proof.
    intros [O (dir & dir' & G & G' & H)] Nd Lo. apply load_ok. intros n dr Nn Gn.
    assert (K : forall k a, nondot k = true -> mget k d = Some a -> exists r, load_pkg k a = Ok r).
    { intros k a Nk Gk. destruct (load_record junk d m k Lo Nk) as [r Gr]; [congruence|]. apply load_spec in Lo as [_ [P _]].
      apply P in Gr as [_ [a' [Ga L]]]. exists r. congruence. }
    destruct (str_eq_dec n name) as [->|N].
    - assert (dr = dir') as -> by congruence. destruct (K name dir Nn G) as [r Hr]. apply load_pkg_ok in Hr as (ls & c & r0 & M & F & Me & _).
      unfold load_pkg. assert (F' : mget (L "files") dir' = Some c) by (destruct (H (L "files")) as [E|(_ & Z & _)]; [congruence|congruence]). rewrite F'.
      destruct (H (L "META")) as [E|(E & _)]; rewrite E.
      + destruct (mget (L "META") dir) as [t|]; [rewrite M; cbn; rewrite Me; cbn; eauto|cbn; eauto].
      + cbn. eauto.
    - specialize (O n N). rewrite Gn in O. destruct (mget n d) as [a|] eqn:Ga; [|contradiction]. destruct (K n a Nn Ga) as [r Hr]. exists r.
      rewrite <- Hr. apply load_pkg_same; symmetry; apply O.
  Qed.
  Lemma half_known name d d' m' : half_record name d d' -> nodot name -> load junk d' = Ok m' -> name_exists m' name = true.
  Proof.
    intros [_ (dir & dir' & _ & G' & _)] Nd Lo. apply (name_exists_known junk d' m' name Lo). exists name. split; [exact Nd|]. split; [congruence|left; reflexivity].
  Qed.
  Lemma half_scripts name d d' scripts : half_record name d d' -> no_rm_scripts scripts d name -> no_rm_scripts scripts d' name.
  Proof.
    intros [_ (dir & dir' & G & G' & H)] [E|E]; [left; exact E|right]. intros dr Gd. rewrite G' in Gd. injection Gd as <-. destruct (E dir G) as [P Q].
    split; [destruct (H (L "PRER")) as [Z|[Z _]]|destruct (H (L "POSTR")) as [Z|[Z _]]]; congruence.
  Qed.
  (** removing the record *)
  Definition dropped (name : str) (d : disk) : disk :=
    match mget name d with
    | None => d
    | Some dir => match filter (fun e => negb (nondot (fst e))) dir with [] => mdel name d | l => mset name l d end
    end.
  Lemma mget_filter {A} (p : str -> bool) k (l : list (str * A)) : mget k (filter (fun e => p (fst e)) l) = if p k then mget k l else None.
  Proof.
    induction l as [|[x v] l IH]; [destruct (p k); reflexivity|]. cbn [filter fst]. destruct (p x) eqn:P.
    - cbn [mget]. destruct (seqb k x) eqn:E; [apply seqb_eq in E; subst; rewrite P; reflexivity|exact IH].
    - rewrite IH. cbn [mget]. destruct (seqb k x) eqn:E; [apply seqb_eq in E; subst; rewrite P; reflexivity|reflexivity].
  Qed.
  Lemma half_dropped name d d' : half_record name d d' -> same_base (dropped name d) (dropped name d').
  Proof.
    intros [O (dir & dir' & G & G' & H)]. unfold dropped. rewrite G, G'.
    set (l := filter (fun e => negb (nondot (fst e))) dir). set (l' := filter (fun e => negb (nondot (fst e))) dir').
    assert (E : forall f, mget f l = mget f l').
    { intro f. unfold l, l'. rewrite !(mget_filter (fun s => negb (nondot s))). destruct (nondot f) eqn:N; [reflexivity|]. cbn [negb].
      destruct (H f) as [Z|(_ & _ & Z)]; [symmetry; exact Z|]. apply nondot_spec in Z. congruence. }
    intro n. destruct (str_eq_dec n name) as [->|N].
    - destruct l as [|e l1] eqn:El, l' as [|e' l1'] eqn:El'.
      + rewrite !mget_mdel, seqb_refl. exact Logic.I.
      + exfalso. destruct e' as [k v]. specialize (E k). cbn [mget] in E. rewrite seqb_refl in E. discriminate E.
      + exfalso. destruct e as [k v]. specialize (E k). cbn [mget] in E. rewrite seqb_refl in E. discriminate E.
      + rewrite !mget_mset, seqb_refl. exact E.
    - assert (Sq : seqb n name = false) by (apply seqb_neq, N). specialize (O n N).
      destruct l, l'; rewrite ?mget_mdel, ?mget_mset, Sq; exact O.
  Qed.
  (** what a removal does *)
  Lemma rm_done scripts conf name f d m rules dir : load junk d = Ok m -> name_exists m name = true -> read_rules_file conf = inl rules ->
    no_rm_scripts scripts d name -> mget name d = Some dir ->
    session (Remove scripts conf name) (World f d) = (None, World (del_files root
      (fold_left (fun a p => sminus a (r_files (snd p))) (mdel name (m_pkgs m)) (match mget name (m_pkgs m) with Some r => r_files r | None => [] end))
      (cleanup_meta f root)) (dropped name d)).
  Proof.
    intros Lo Nx Rr NS G. unfold DbModel.session. cbn [w_db w_fs]. rewrite Lo. unfold rm_run. rewrite Rr, Nx. cbn [negb w_db w_fs].
    assert (S0 : scripts = true -> mget (L "PRER") dir = None /\ mget (L "POSTR") dir = None) by (intro St; destruct NS as [Z|Z]; [congruence|exact (Z dir G)]).
    rewrite G. destruct scripts.
    - destruct (S0 eq_refl) as [-> ->]. cbn [remove_files]. unfold remove_refs. cbn [w_db w_fs]. rewrite G. unfold dropped. rewrite G. cbn [finish sminus fold_left].
      destruct (filter _ dir); reflexivity.
    - cbn [remove_files]. unfold remove_refs. cbn [w_db w_fs]. rewrite G. unfold dropped. rewrite G. cbn [finish sminus fold_left].
      destruct (filter _ dir); reflexivity.
  Qed.

  (** *** the files *)
  Hypothesis Rs : ends_slash root = true.
  Lemma fget_present (f : fs) p : fget f p <> None -> In p (map fst f).
  Proof.
    induction f as [|[k v] f IH]; cbn [fget map fst]; [congruence|]. destruct (peqb p k) eqn:E; [intros _; left; symmetry; apply peqb_eq, E|].
    intro N. right. exact (IH N).
  Qed.
  Lemma below_decide (f : fs) q (P : path -> Prop) : (forall p, {P p} + {~ P p}) ->
    (forall p, below q p -> fget f p <> None -> P p) \/ exists p, below q p /\ fget f p <> None /\ ~ P p.
  Proof.
    intro Dp. assert (G : forall ks : list path, (forall p, In p ks -> below q p -> fget f p <> None -> P p) \/ exists p, below q p /\ fget f p <> None /\ ~ P p).
    { induction ks as [|k ks IH]; [left; intros p []|]. destruct IH as [IH|IH]; [|right; exact IH].
      destruct (Dp k) as [Pk|Nk]; [left; intros p [<-|I]; [intros _ _; exact Pk|exact (IH p I)]|].
      destruct (belowb q k) eqn:B; [apply belowb_below in B|left; intros p [<-|I]; [intro Z; apply belowb_below in Z; congruence|exact (IH p I)]].
      destruct (fget f k) eqn:Gk.
      - right. exists k. split; [exact B|]. split; [congruence|exact Nk].
      - left. intros p [<-|I]; [congruence|exact (IH p I)]. }
    destruct (G (map fst f)) as [A|A]; [left|right; exact A]. intros p B N. exact (A p (fget_present f p N) B N).
  Qed.
  (** what the deleting loop leaves: a listed path goes if and only if all there is below it is listed *)
  Definition at_names (xs : list str) (q : path) : Prop := exists x, In x xs /\ q = R ++ comps x.
  Lemma at_names_dec xs q : {at_names xs q} + {~ at_names xs q}.
  Proof.
    destruct (in_dec path_eq_dec q (map (fun x => R ++ comps x) xs)) as [I|I].
    - left. apply in_map_iff in I as (x & <- & I). exists x. split; [exact I|reflexivity].
    - right. intros (x & J & ->). apply I. apply in_map_iff. exists x. split; [reflexivity|exact J].
  Qed.
  Lemma del_files_exact xs f q : tree f -> ssorted xs -> (forall x, In x xs -> exists cs, plain x cs) -> (forall x, In x xs -> fits root f x) ->
    (at_names xs q /\ (forall p, below q p -> fget f p <> None -> at_names xs p) /\ fget (del_files root xs f) q = None) \/
    ((~ at_names xs q \/ exists p, below q p /\ fget f p <> None /\ ~ at_names xs p) /\ fget (del_files root xs f) q = fget f q).
  Proof.
    intros T S Pl Fi. set (g := del_files root xs f).
    assert (Tg : tree g) by (apply del_files_tree; auto).
    assert (Fr : forall p, ~ at_names xs p -> fget g p = fget f p).
    { intros p N. apply (del_files_frame root Rs). intros x I ->. apply N. exists x. split; [exact I|reflexivity]. }
    destruct (at_names_dec xs q) as [Pq|Nq]; [|right; split; [left; exact Nq|exact (Fr q Nq)]].
    destruct (below_decide f q (at_names xs) (at_names_dec xs)) as [A|(p & B & N & NP)].
    - left. split; [exact Pq|]. split; [exact A|]. destruct Pq as (x & I & ->). apply (del_files_deep root Rs xs f x T S Pl Fi I).
      intros p B N. exact (A p B N).
    - right. split; [right; exists p; split; [exact B|]; split; assumption|].
      assert (D : dir_at g q) by (apply (tree_below g q p Tg); [rewrite (Fr p NP); exact N|exact B]).
      destruct (del_files_sub root Rs xs f q) as [Z|Z]; [exact Z|]. destruct D as [o [Go _]]. unfold g in Go. congruence.
  Qed.
  Lemma names_nonroot xs q : (forall x, In x xs -> exists cs, plain x cs) -> at_names xs q -> q <> [].
  Proof.
    intros Pl (x & I & ->). destruct (Pl x I) as [cs Px]. rewrite (plain_comps _ _ Px). destruct (plain_comp _ _ Px) as [_ Nc]. destruct R; [exact Nc|discriminate].
  Qed.
  Lemma below_not_meta p q : below q p -> q <> [] -> p <> [] /\ ~ where_meta p.
  Proof.
    intros [u [Nu Eu]] Nq. destruct q as [|c q]; [congruence|]. split; [rewrite Eu; discriminate|].
    intros (m & _ & E). rewrite Eu in E. destruct q, u; try discriminate E; congruence.
  Qed.
  (** the loop, run again on what it had left *)
  Lemma del_files_again_at xs f f' q : tree f -> tree f' -> ssorted xs -> (forall x, In x xs -> exists cs, plain x cs) ->
    (forall x, In x xs -> fits root f x) -> (forall x, In x xs -> fits root f' x) ->
    (forall p, p = q \/ (below q p /\ q <> []) -> fget f' p = fget f p \/ (fget f' p = None /\ at_names xs p)) ->
    fget (del_files root xs f') q = fget (del_files root xs f) q.
  Proof.
    intros T T' S Pl Fi Fi' H.
    destruct (del_files_exact xs f q T S Pl Fi) as [(P & A & Z)|(A & Z)]; destruct (del_files_exact xs f' q T' S Pl Fi') as [(P' & A' & Z')|(A' & Z')]; rewrite Z, Z'.
    - reflexivity.
    - destruct A' as [A'|(p & B & N & NP)]; [contradiction|]. exfalso. apply NP. apply (A p B).
      destruct (H p (or_intror (conj B (names_nonroot xs q Pl P)))) as [E|[E _]]; congruence.
    - destruct A as [A|(p & B & N & NP)]; [contradiction|]. exfalso. apply NP. apply (A' p B).
      destruct (H p (or_intror (conj B (names_nonroot xs q Pl P')))) as [E|[_ E]]; [congruence|contradiction].
    - destruct (H q (or_introl eq_refl)) as [E|[E P]]; [exact E|].
      destruct A' as [A'|(p & B & N & _)]; [contradiction|]. exfalso. pose proof (tree_below f' q p T' N B) as [o [Go _]]. congruence.
  Qed.
  Lemma del_files_again xs f f' q : tree f -> tree f' -> ssorted xs -> (forall x, In x xs -> exists cs, plain x cs) ->
    (forall x, In x xs -> fits root f x) -> (forall x, In x xs -> fits root f' x) ->
    (forall p, ~ where_meta p -> fget f' p = fget f p \/ (fget f' p = None /\ at_names xs p)) ->
    ~ where_meta q -> fget (del_files root xs f') q = fget (del_files root xs f) q.
  Proof.
    intros T T' S Pl Fi Fi' H Nq. apply del_files_again_at; auto. intros p [->|[B N]]; [exact (H q Nq)|].
    exact (H p (proj2 (below_not_meta p q B N))).
  Qed.

  (** *** the theorems *)
  (** the worlds a removal of [name] goes through before the list of files of its record is deleted: files are deleted one by one in the
      reverse order of their names (pkgdbh.cxx:961-970), then the record (pkgdbh.cxx:915-931), the list of files last but for later names *)
  Inductive killed_removal (name : str) (f : fs) (d : disk) : fs -> disk -> Prop :=
  | kr_files l before after : ssorted l -> (forall x, In x l <-> lists_alone d name x) -> rev l = before ++ after ->
      killed_removal name f d (fold_left (del_one root) before (cleanup_meta f root)) d
  | kr_record l before after d' : ssorted l -> (forall x, In x l <-> lists_alone d name x) ->
      remove_calls name d = before ++ after -> after <> [] -> ~ files_unlinked name before -> image false (execs (lift d) before) d' ->
      killed_removal name f d (del_files root l (cleanup_meta f root)) d'.
  Lemma half_deleted name d f xs : tree f -> (forall x, In x xs -> lists_alone d name x) ->
    half_files root name d f (fold_left (del_one root) xs (cleanup_meta f root)).
  Proof.
    intros T I. destruct (cleanup_spec f root T) as [Tc _]. split; [apply del_fold_tree, Tc|]. intro q.
    assert (C : fget (cleanup_meta f root) q = fget f q \/ (fget (cleanup_meta f root) q = None /\ where_meta q)).
    { destruct (in_dec path_eq_dec q meta_comps) as [M|M]; [|left; destruct (cleanup_spec f root T) as [_ Fc]; exact (Fc q M)].
      destruct (cleanup_sub root f T q) as [E|E]; [left; exact E|right; split; [exact E|apply meta_where, M]]. }
    destruct (at_names_dec xs q) as [(x & Ix & ->)|N].
    - destruct (del_fold_sub root Rs xs (cleanup_meta f root) (R ++ comps x)) as [E|E].
      + rewrite E. destruct C as [C|[C M]]; [left; exact C|right; split; [exact C|left; exact M]].
      + right. split; [exact E|]. right. exists x. split; [exact (I x Ix)|reflexivity].
    - rewrite (del_fold_frame root Rs); [|intros x Ix ->; apply N; exists x; split; [exact Ix|reflexivity]].
      destruct C as [C|[C M]]; [left; exact C|right; split; [exact C|left; exact M]].
  Qed.
  (** killed at any of these points it has only taken files that no other package lists and files of the record other than the list *)
  Theorem C116_reached name f d f' d' : nodot name -> tree f -> mget name d <> None -> killed_removal name f d f' d' ->
    half_files root name d f f' /\ half_record name d d'.
  Proof.
    intros Nd T G H. destruct H as [l before after S I E|l before after d' S I E Na U Im].
    - split; [|apply half_record_refl, G]. apply half_deleted; [exact T|]. intros x J. apply I, in_rev. rewrite E. apply in_app_iff. left. exact J.
    - split; [apply half_deleted; [exact T|intros x J; apply I, in_rev, J]|].
      destruct (mget name d) as [dir|] eqn:Gd; [|congruence]. unfold remove_calls in E. rewrite Gd in E. apply prefix_map in E as [l1 [l2 [El ->]]]; [|exact Na].
      destruct (unlinks name l1 (lift d) (lift_dir dir)) as [pd [A [B C]]]; [rewrite mget_lift, Gd; reflexivity|].
      split.
      + intros n N. pose proof (Im n) as In_. rewrite (B n N) in In_. rewrite mget_lift in In_. destruct (mget n d) as [a|] eqn:Ga, (mget n d') as [b|] eqn:Gb; cbn [option_map] in In_; try contradiction; [|exact Logic.I].
        intro x. pose proof (image_lift false _ d' d n Im) as Z. rewrite (B n N), mget_lift in Z. specialize (Z eq_refl x). unfold file_in in Z. rewrite Ga, Gb in Z. symmetry. exact Z.
      + pose proof (Im name) as Ix. rewrite A in Ix. destruct (mget name d') as [dir'|] eqn:Gd'; [|contradiction]. exists dir, dir'.
        split; [exact Gd|]. split; [reflexivity|]. intro x. specialize (Ix x). rewrite C in Ix. destruct (smem x l1) eqn:Sx.
        * right. destruct (mget x dir') eqn:Gx; [contradiction|]. split; [reflexivity|]. apply smem_In in Sx. split.
          -- intros ->. apply U. apply in_map, Sx.
          -- assert (J : In x (l1 ++ l2)) by (apply in_app_iff; left; exact Sx). rewrite <- El in J. apply filter_In in J as [_ J]. exact (proj1 (nondot_spec x) J).
        * left. rewrite mget_lift_dir in Ix. destruct (mget x dir) as [s|]; cbn [option_map] in Ix; destruct (mget x dir') as [s'|]; try contradiction; [|reflexivity].
          destruct Ix as [->|[Z _]]; [reflexivity|discriminate Z].
  Qed.
  (** the package is still installed, with the same list of files; so is every other *)
  Theorem C116_still_there name f d f' d' m : nodot name -> load junk d = Ok m -> half_files root name d f f' -> half_record name d d' ->
    (exists m', load junk d' = Ok m') /\ known d' name /\ (forall n x, lists d' n x <-> lists d n x) /\
    (forall n, n <> name -> same_entry (mget n d) (mget n d')) /\
    forall q, fget f' q <> fget f q -> where_meta q \/ exists x, lists_alone d name x /\ at_path root x q.
  Proof.
    intros Nd Lo [_ Hf] Hr. split; [exact (half_load name d d' m Hr Nd Lo)|]. split.
    { destruct Hr as [_ (dir & dir' & _ & G' & _)]. exists name. split; [exact Nd|]. split; [congruence|left; reflexivity]. }
    split; [intros n x; exact (half_lists name d d' n x Hr)|]. split; [apply Hr|].
    intros q N. destruct (Hf q) as [E|[_ E]]; [contradiction|exact E].
  Qed.
  (** repeated, the removal ends as if it had never been killed *)
  Theorem C116_again scripts conf name f d f' d' w1 : nodot name -> no_rm_scripts scripts d name -> tree f ->
    (forall y, lists d name y -> well_spelled root f y) ->
    session (Remove scripts conf name) (World f d) = (None, w1) -> half_files root name d f f' -> half_record name d d' ->
    exists w2, session (Remove scripts conf name) (World f' d') = (None, w2) /\ same_base (w_db w1) (w_db w2) /\
      forall q, ~ where_meta q -> fget (w_fs w2) q = fget (w_fs w1) q.
  Proof.
    intros Nd NS T W E Hf Hr. pose proof Hr as [_ (dir & dir' & G & G' & _)].
    pose proof (rm_session_full junk machine re sh root scripts conf name (World f d) w1 Nd NS E) as (l & S & I & Ew & _ & _ & m & Lo & Nx & (rules & Rr) & El).
    cbn [w_fs w_db] in *. rewrite (rm_done scripts conf name f d m rules dir Lo Nx Rr NS G) in E. rewrite <- El in E.
    assert (E1 : w1 = World (del_files root l (cleanup_meta f root)) (dropped name d)) by (inversion E; reflexivity). clear E.
    destruct (half_load name d d' m Hr Nd Lo) as [m' Lo']. pose proof (half_known name d d' m' Hr Nd Lo') as Nx'.
    pose proof (rm_done scripts conf name f' d' m' rules dir' Lo' Nx' Rr (half_scripts name d d' scripts Hr NS) G') as E'.
    destruct (rm_session_full junk machine re sh root scripts conf name (World f' d') _ Nd (half_scripts name d d' scripts Hr NS) E') as (l' & S' & I' & _ & _ & _ & m2 & Lo2 & _ & _ & El').
    cbn [w_fs w_db] in *. rewrite Lo' in Lo2. injection Lo2 as <-. rewrite <- El' in E'.
    assert (l' = l) as ->.
    { apply ssorted_ext; [exact S'|exact S|]. intro x. rewrite (I' x), (I x). apply half_alone, Hr. }
    eexists. split; [exact E'|]. rewrite E1. cbn [w_db w_fs]. split; [apply half_dropped, Hr|]. intros q Nq.
    destruct Hf as [T' Hf]. destruct (cleanup_spec f root T) as [Tc Fc]. destruct (cleanup_spec f' root T') as [Tc' Fc'].
    assert (Sub : forall p, fget f' p = fget f p \/ fget f' p = None) by (intro p; destruct (Hf p) as [Z|[Z _]]; auto).
    apply del_files_again; auto.
    - intros x J. apply I in J as [J _]. exact (proj1 (W x J)).
    - intros x J. apply I in J as [J _]. apply (spelled_fits root f x T (W x J)).
    - intros x J. apply I in J as [J _]. apply (fits_sub root f' (cleanup_meta f' root) x (cleanup_sub root f' T')).
      apply (fits_sub root f f' x Sub). intro Es. apply ends_slash_iff in Es as [y ->]. apply (proj2 (W _ J) y eq_refl).
    - intros p Np. assert (M : ~ In p meta_comps) by (intro Z; exact (Np (meta_where p Z))). rewrite (Fc p M), (Fc' p M).
      destruct (Hf p) as [Z|[Z [Y|(x & Lx & Px)]]]; [left; exact Z|contradiction|]. right. split; [exact Z|]. exists x. split; [apply I, Lx|exact Px].
  Qed.
  (** however often it is killed in this way *)
  Inductive killed_often (name : str) : fs -> disk -> fs -> disk -> Prop :=
  | ko_never f d : killed_often name f d f d
  | ko_more f d f1 d1 f2 d2 : killed_often name f d f1 d1 -> killed_removal name f1 d1 f2 d2 -> killed_often name f d f2 d2.
  Lemma half_trans name d d1 d2 f f1 f2 : half_files root name d f f1 -> half_record name d d1 -> half_files root name d1 f1 f2 -> half_record name d1 d2 ->
    half_files root name d f f2 /\ half_record name d d2.
  Proof.
    intros [T1 H1] R1 [T2 H2] R2. split.
    - split; [exact T2|]. intro q. destruct (H2 q) as [E|[E C]].
      + rewrite E. exact (H1 q).
      + right. split; [exact E|]. destruct C as [C|(x & Lx & Px)]; [left; exact C|]. right. exists x. split; [apply (half_alone name d d1 x R1), Lx|exact Px].
    - destruct R1 as [O1 (a & b & G1 & G2 & F1)]. destruct R2 as [O2 (b' & c & G3 & G4 & F2)]. rewrite G2 in G3. injection G3 as <-. split.
      + intros n N. specialize (O1 n N). specialize (O2 n N). unfold same_entry in *.
        destruct (mget n d), (mget n d1), (mget n d2); try contradiction; auto. intro x. rewrite O1. apply O2.
      + exists a, c. split; [exact G1|]. split; [exact G4|]. intro x. destruct (F2 x) as [E|(E & N1 & N2)]; [rewrite E; exact (F1 x)|]. right. split; [exact E|]. split; assumption.
  Qed.
  Theorem C116_often scripts conf name f d f' d' w1 : nodot name -> no_rm_scripts scripts d name -> tree f ->
    (forall y, lists d name y -> well_spelled root f y) ->
    session (Remove scripts conf name) (World f d) = (None, w1) -> killed_often name f d f' d' ->
    exists w2, session (Remove scripts conf name) (World f' d') = (None, w2) /\ same_base (w_db w1) (w_db w2) /\
      forall q, ~ where_meta q -> fget (w_fs w2) q = fget (w_fs w1) q.
  Proof.
    intros Nd NS T W E K.
    assert (G : mget name d <> None).
    { intro Z. unfold DbModel.session in E. cbn [w_db w_fs] in E. destruct (load junk d); [|discriminate|discriminate]. unfold rm_run in E.
      destruct (read_rules_file conf); [|discriminate]. destruct (negb (name_exists _ _)); [discriminate|]. cbn [w_db] in E. rewrite Z in E.
      destruct scripts; unfold remove_files, remove_refs in E; cbn [w_db] in E; rewrite Z in E; discriminate. }
    apply (C116_again scripts conf name f d f' d' w1 Nd NS T W E); revert T G K; clear - Nd Rs; intros T G K;
      assert (X : half_files root name d f f' /\ half_record name d d'); try apply X.
    all: induction K as [f d|f d f1 d1 f2 d2 K IH M];
      [split; [split; [exact T|left; reflexivity]|apply half_record_refl, G]|];
      destruct (IH T G) as [A B];
      assert (G1 : mget name d1 <> None) by (destruct B as [_ (a & b & _ & Gb & _)]; congruence);
      destruct (C116_reached name f1 d1 f2 d2 Nd (proj1 A) G1 M) as [A2 B2]; exact (half_trans name d d1 d2 f f1 f2 A B A2 B2).
  Qed.
End Again.

(** once the list of files is deleted, and until the directory of the record is, nothing works any more (C13) *)
Theorem C116_window_refuted junk machine re sh root op name f d d' dir before after : nondot name = true -> mget name d = Some dir ->
  remove_calls name d = before ++ after -> after <> [] -> files_unlinked name before -> image false (execs (lift d) before) d' ->
  exists e, session junk machine re sh root op (World f d') = (Some e, World (cleanup_meta f root) d').
Proof.
  intros Nd G E Na U Im. pose proof (C13_remove_window_refuted false junk name d d' dir before after Nd G E Na U Im) as N.
  unfold session. cbn [w_db w_fs]. destruct (load junk d') as [m| |] eqn:Lo; [exfalso; exact (N m eq_refl)| |]; eauto.
Qed.

(** *** a concrete case: the removal of foo is killed after usr/foo.txt is deleted, repeated, and killed after META is deleted *)
Definition foo_names : list str := [L "usr/"; L "usr/bin/"; L "usr/bin/tool"; L "usr/foo.txt"].
Lemma lists_foo_alone x : lists (w_db w_foo) (L "foo") x <-> In x foo_names.
Proof. apply files_of_lists. vm_compute. reflexivity. Qed.
Lemma foo_only n x : n <> L "foo" -> ~ lists (w_db w_foo) n x.
Proof.
  intros N (dir & c & G & _). assert (K : keys (w_db w_foo) = [L "foo"]) by (vm_compute; reflexivity).
  assert (Z : mget n (w_db w_foo) = None) by (apply mget_None; rewrite K; intros [Z|[]]; exact (N (eq_sym Z))). congruence.
Qed.
Lemma foo_alone x : In x foo_names <-> lists_alone (w_db w_foo) (L "foo") x.
Proof.
  unfold lists_alone. rewrite lists_foo_alone. split; [|tauto]. intro I. split; [exact I|]. intros n _ N. exact (foo_only n x N).
Qed.
Definition f_half : fs := del_one rt (cleanup_meta (w_fs w_foo) rt) (L "usr/foo.txt").
Definition f_bare : fs := del_files rt foo_names (cleanup_meta f_half rt).
Definition d_bare : disk := mset (L "foo") (mdel (L "META") (match mget (L "foo") (w_db w_foo) with Some dir => dir | None => [] end)) (w_db w_foo).
Lemma foo_plain y : In y foo_names -> exists cs, plain y cs.
Proof.
  intros [<-|[<-|[<-|[<-|[]]]]].
  - exists [L "usr"]. change (L "usr/") with (join slash [L "usr"] ++ [slash]). constructor; [discriminate|lits].
  - exists [L "usr"; L "bin"]. change (L "usr/bin/") with (join slash [L "usr"; L "bin"] ++ [slash]). constructor; [discriminate|lits].
  - exists [L "usr"; L "bin"; L "tool"]. change (L "usr/bin/tool") with (join slash [L "usr"; L "bin"; L "tool"]). constructor; [discriminate|lits].
  - exists [L "usr"; L "foo.txt"]. change (L "usr/foo.txt") with (join slash [L "usr"; L "foo.txt"]). constructor; [discriminate|lits].
Qed.
Lemma foo_well y : In y foo_names -> well_spelled rt (w_fs w_foo) y.
Proof.
  intro I. split; [exact (foo_plain y I)|]. destruct I as [<-|[<-|[<-|[<-|[]]]]].
  - intros _ _. right. apply dirb_dir. vm_compute. reflexivity.
  - intros _ _. right. apply dirb_dir. vm_compute. reflexivity.
  - intros y E. apply (f_equal (@rev ascii)) in E. rewrite rev_app_distr in E. discriminate.
  - intros y E. apply (f_equal (@rev ascii)) in E. rewrite rev_app_distr in E. discriminate.
Qed.
Lemma foo_names_sorted : ssorted foo_names.
Proof. assert (E : foo_names = set_of foo_names) by (vm_compute; reflexivity). rewrite E. apply set_of_sorted. Qed.
Theorem C116_case : nodot (L "foo") /\ no_rm_scripts false (w_db w_foo) (L "foo") /\ tree (w_fs w_foo) /\
  (forall y, lists (w_db w_foo) (L "foo") y -> well_spelled rt (w_fs w_foo) y) /\
  killed_often rt (L "foo") (w_fs w_foo) (w_db w_foo) f_bare d_bare /\
  fget f_half [L "usr"; L "foo.txt"] = None /\ fget f_half [L "usr"; L "bin"; L "tool"] = Some (reg (L "foo tool")) /\
  (exists w1, ses (Remove false None (L "foo")) w_foo = (None, w1)) /\
  ses (Remove false None (L "foo")) (World f_bare d_bare) = (None, World f_bare []) /\ fget f_bare [L "usr"] = None.
Proof.
  split; [intros v E; discriminate E|]. split; [left; reflexivity|]. split; [exact tree_w_foo|].
  split; [intros y Ly; apply foo_well, lists_foo_alone, Ly|].
  split.
  { apply (ko_more rt (L "foo") (w_fs w_foo) (w_db w_foo) f_half (w_db w_foo)).
    - apply (ko_more rt (L "foo") (w_fs w_foo) (w_db w_foo) (w_fs w_foo) (w_db w_foo)); [apply ko_never|].
      apply (kr_files rt (L "foo") (w_fs w_foo) (w_db w_foo) foo_names [L "usr/foo.txt"] [L "usr/bin/tool"; L "usr/bin/"; L "usr/"]);
        [exact foo_names_sorted|exact foo_alone|reflexivity].
    - apply (kr_record rt (L "foo") f_half (w_db w_foo) foo_names [CUnlink (L "foo") (L "META")] [CUnlink (L "foo") (L "files"); CRmdir (L "foo")] d_bare);
        [exact foo_names_sorted|exact foo_alone|vm_compute; reflexivity|discriminate|intros [Z|[]]; discriminate Z|].
      intro n. assert (K : keys (w_db w_foo) = [L "foo"]) by (vm_compute; reflexivity).
      destruct (str_eq_dec n (L "foo")) as [->|N].
      + assert (A : exists dir, mget (L "foo") (w_db w_foo) = Some dir) by (vm_compute; eauto). destruct A as [dir A].
        unfold d_bare. rewrite mget_mset, seqb_refl, A. unfold execs. cbn [fold_left exec]. rewrite mget_mset, seqb_refl.
        unfold pget. rewrite mget_lift, A. cbn [option_map]. intro x. rewrite !mget_mdel, mget_lift_dir.
        destruct (seqb x (L "META")); [exact Logic.I|]. destruct (mget x dir); cbn [option_map]; [left; reflexivity|exact Logic.I].
      + assert (Z : mget n (w_db w_foo) = None) by (apply mget_None; rewrite K; intros [Y|[]]; exact (N (eq_sym Y))).
        assert (S : seqb n (L "foo") = false) by (apply seqb_neq, N). unfold d_bare. rewrite mget_mset, S, Z. unfold execs. cbn [fold_left exec].
        rewrite mget_mset, S, mget_lift, Z. exact Logic.I. }
  split; [vm_compute; reflexivity|]. split; [vm_compute; reflexivity|].
  split; [eexists; vm_compute; reflexivity|]. split; vm_compute; reflexivity.
Qed.
