(** C74, C75: what 'cards create <collection>' builds and which archives it deletes. *)
From Verif Require Import Base BaseProofs StrModel StrProofs FsModel FsSpec FsOps FsProofs FsMisc FsProps RebuildModel.
From Coq Require Import Lia.

(** ** specification *)
(** the repository has the package of the port [n] in the version and release of the recipe, and its archive is there *)
Definition up_to_date (v : view) (n : str) : Prop := exists b p, mget n (v_bins v) = Some b /\ mget n (v_ports v) = Some p /\
  v_exists v (b_dir b ++ slash :: b_file b) = true /\ b_version b = p_version p /\ b_release b = p_release p.
(** a package of the repository lists the library [lib] *)
Definition lists_lib (v : view) (n lib : str) : Prop := exists b, mget n (v_bins v) = Some b /\ In lib (b_libs b).
Definition file_with (v : view) (n pat : str) : Prop := exists b x, mget n (v_bins v) = Some b /\ In x (b_files b) /\ occurs pat x.
(** where the library [lib] of the package [m] of the port [n] may come from: a dependency of the package, the installed system, the
    package's own files, a port of a lower level or its library package *)
Definition provided (v : view) (n m lib : str) : Prop :=
  (exists b d, mget m (v_bins v) = Some b /\ In d (b_deps b) /\ file_with v d (slash :: lib)) \/
  (exists x, In x (v_installed v) /\ occurs lib x) \/
  file_with v m lib \/
  (exists pn p q, mget n (v_ports v) = Some pn /\ In (p, q) (v_ports v) /\ p_level q < p_level pn /\ bin_exists v p = true /\ (lists_lib v p lib \/ lists_lib v (dot_lib p) lib)).

(** ** proofs *)
Lemma hit_occurs p s : hit p s = true <-> occurs p s.
Proof.
  unfold hit. pose proof (sfind_None p s) as N. destruct (sfind p s) as [n|] eqn:E; [|split; [intro H; discriminate H|]; intro O; exfalso; apply (proj1 N eq_refl O)]. split; [|reflexivity]. intros _. destruct (sfind_Some p s n E) as (H & _). eexists _, _. exact H.
Qed.
Lemma in_deps_iff v m lib : in_deps v m lib = true <-> exists b d, mget m (v_bins v) = Some b /\ In d (b_deps b) /\ file_with v d (slash :: lib).
Proof.
  unfold in_deps, deps_of. rewrite existsb_exists. split.
  - intros [d [Id H]]. destruct (mget m (v_bins v)) as [b|] eqn:G; [|destruct Id]. apply existsb_exists in H as [x [Ix H]]. apply hit_occurs in H. unfold files_of in Ix. destruct (mget d (v_bins v)) as [b'|] eqn:G'; [|destruct Ix]. exists b, d. split; [reflexivity|]. split; [exact Id|]. exists b', x. auto.
  - intros (b & d & G & Id & b' & x & G' & Ix & O). exists d. rewrite G. split; [exact Id|]. apply existsb_exists. exists x. unfold files_of. rewrite G'. split; [exact Ix|]. apply hit_occurs, O.
Qed.
Lemma in_system_iff v lib : in_system v lib = true <-> exists x, In x (v_installed v) /\ occurs lib x.
Proof. unfold in_system. rewrite existsb_exists. split; intros [x [I H]]; exists x; (split; [exact I|]); apply hit_occurs, H. Qed.
Lemma in_own_iff v m lib : in_own v m lib = true <-> file_with v m lib.
Proof.
  unfold in_own, files_of, file_with. rewrite existsb_exists. split.
  - intros [x [I H]]. destruct (mget m (v_bins v)) as [b|] eqn:G; [|destruct I]. exists b, x. split; [reflexivity|]. split; [exact I|apply hit_occurs, H].
  - intros (b & x & -> & I & O). exists x. split; [exact I|apply hit_occurs, O].
Qed.
Lemma in_libs_iff v m lib : smem lib (libs_of v m) = true <-> lists_lib v m lib.
Proof.
  unfold libs_of, lists_lib. rewrite smem_In. split.
  - destruct (mget m (v_bins v)) as [b|]; [intro H; exists b; auto|intros []].
  - intros (b & -> & H). exact H.
Qed.
Lemma in_dot_lib_iff v n lib : in_dot_lib v n lib = true <-> lists_lib v (dot_lib n) lib.
Proof.
  unfold in_dot_lib. rewrite andb_true_iff, in_libs_iff. split; [tauto|]. intro H. split; [|exact H]. destruct H as (b & G & _). unfold bin_exists. rewrite G. reflexivity.
Qed.
Lemma in_lower_iff v n lib : in_lower v n lib = true <->
  exists pn p q, mget n (v_ports v) = Some pn /\ In (p, q) (v_ports v) /\ p_level q < p_level pn /\ bin_exists v p = true /\ (lists_lib v p lib \/ lists_lib v (dot_lib p) lib).
Proof.
  unfold in_lower, level_of. rewrite existsb_exists. split.
  - intros [k [K H]]. apply in_seq in K. destruct (mget n (v_ports v)) as [pn|] eqn:G; [|lia]. apply existsb_exists in H as [[p q] [I H]]. cbn [fst snd] in H. apply andb_true_iff in H as [H H3]. apply andb_true_iff in H as [H1 H2]. apply Nat.eqb_eq in H2.
    exists pn, p, q. split; [reflexivity|]. split; [exact I|]. split; [lia|]. split; [exact H1|]. apply orb_true_iff in H3 as [H3|H3]; [left; apply in_libs_iff, H3|right; apply in_dot_lib_iff, H3].
  - intros (pn & p & q & G & I & Lt & B & H). rewrite G. exists (p_level q). split; [apply in_seq; lia|]. apply existsb_exists. exists (p, q). split; [exact I|]. cbn [fst snd]. rewrite B, Nat.eqb_refl. cbn [andb]. apply orb_true_iff. destruct H as [H|H]; [left; apply in_libs_iff, H|right; apply in_dot_lib_iff, H].
Qed.
Lemma found_main_iff v n lib : found_main v n lib = true <-> provided v n n lib \/ lists_lib v (dot_lib n) lib.
Proof. unfold found_main, provided. rewrite !orb_true_iff, in_deps_iff, in_system_iff, in_own_iff, in_dot_lib_iff, in_lower_iff. tauto. Qed.
Lemma found_lib_iff v n lib : found_lib v n lib = true <-> provided v n (dot_lib n) lib.
Proof. unfold found_lib, provided. rewrite !orb_true_iff, in_deps_iff, in_system_iff, in_own_iff, in_lower_iff. tauto. Qed.
Lemma find_first {A} (f : A -> bool) l : match find f l with
  | Some x => exists a b, l = a ++ x :: b /\ f x = true /\ forall y, In y a -> f y = false
  | None => forall y, In y l -> f y = false end.
Proof.
  induction l as [|x t IH]; cbn [find]; [intros y []|]. destruct (f x) eqn:E; [exists [], t; split; [reflexivity|]; split; [exact E|intros y []]|].
  destruct (find f t) as [z|]; [destruct IH as (a & b & -> & H & K); exists (x :: a), b; split; [reflexivity|]; split; [exact H|]; intros y [<-|I]; [exact E|exact (K y I)]|]. intros y [<-|I]; [exact E|exact (IH y I)].
Qed.
Lemma lib_loop_found v n libs : lib_loop v n libs true = (true, []).
Proof. induction libs as [|l t IH]; cbn [lib_loop]; [reflexivity|]. exact IH. Qed.
(** past the versions *)
Lemma judge_up v n : up_to_date v n -> judge v n = match missing_main v n with
    | Some lib => Missing lib
    | None => if bin_exists v (dot_lib n) then match lib_loop v n (libs_of v (dot_lib n)) false with (true, _) => UpToDate | (false, lib) => Missing lib end else UpToDate end.
Proof.
  intros (b & p & G & P & X & V & R). unfold judge. rewrite G, P, X. cbn [negb]. rewrite (proj2 (seqb_eq _ _) V). cbn [negb]. rewrite (proj2 (N.eqb_eq _ _) R). reflexivity.
Qed.

(** ** C74 *)
(** A port is built exactly when its package is missing, has no archive, or differs in version or release from the recipe. *)
Theorem C74_built_iff : forall v n, In n (keys (v_ports v)) -> (builds (judge v n) = true <-> ~ up_to_date v n).
Proof.
  intros v n I. assert (Hp : exists p, mget n (v_ports v) = Some p). { destruct (mget n (v_ports v)) as [p|] eqn:E; [eauto|]. apply mget_None in E. contradiction. } destruct Hp as [p P]. split.
  - intros H U. rewrite (judge_up v n U) in H. destruct (missing_main v n); [discriminate H|]. destruct (bin_exists v (dot_lib n)); [|discriminate H]. destruct (lib_loop v n (libs_of v (dot_lib n)) false) as [[|] l]; discriminate H.
  - intro N. unfold judge. destruct (mget n (v_bins v)) as [b|] eqn:G; [|reflexivity]. rewrite P. destruct (v_exists v (b_dir b ++ slash :: b_file b)) eqn:X; [|reflexivity]. cbn [negb].
    destruct (seqb (b_version b) (p_version p)) eqn:V; [|reflexivity]. cbn [negb]. destruct (b_release b =? p_release p)%N eqn:R; [|reflexivity]. exfalso. apply N. exists b, p. apply seqb_eq in V. apply N.eqb_eq in R. auto 10.
Qed.
(** A port that is up to date and has no library package: reported exactly when one of its libraries comes from nowhere, with the first such library. *)
Theorem C74_libraries : forall v n b, up_to_date v n -> mget n (v_bins v) = Some b -> mget (dot_lib n) (v_bins v) = None ->
  (judge v n = UpToDate <-> forall lib, In lib (b_libs b) -> provided v n n lib) /\
  (forall lib, judge v n = Missing lib <-> exists l1 l2, b_libs b = l1 ++ lib :: l2 /\ ~ provided v n n lib /\ forall x, In x l1 -> provided v n n x).
Proof.
  intros v n b U G D. rewrite (judge_up v n U). assert (B : bin_exists v (dot_lib n) = false) by (unfold bin_exists; rewrite D; reflexivity). rewrite B.
  assert (F : forall lib, found_main v n lib = true <-> provided v n n lib). { intro lib. rewrite found_main_iff. split; [|tauto]. intros [H|(b' & E & _)]; [exact H|congruence]. }
  assert (F' : forall lib, found_main v n lib = false <-> ~ provided v n n lib). { intro lib. rewrite <- F. destruct (found_main v n lib); split; intro H; congruence. }
  unfold missing_main, libs_of. rewrite G. pose proof (find_first (fun lib => negb (found_main v n lib)) (b_libs b)) as S. destruct (find (fun lib => negb (found_main v n lib)) (b_libs b)) as [x|].
  - destruct S as (l1 & l2 & E & H & K). apply negb_true_iff, F' in H. split.
    + split; [intro Q; discriminate Q|]. intro Q. exfalso. apply H, Q. rewrite E. apply in_app_iff. right. left. reflexivity.
    + intro lib. split.
      * intro Q. injection Q as <-. exists l1, l2. split; [exact E|]. split; [exact H|]. intros y I. apply F. apply K in I. apply negb_false_iff in I. exact I.
      * intros (m1 & m2 & E' & H' & K'). f_equal. rewrite E in E'. clear - E' H H' K K' F. assert (K2 : forall y, In y l1 -> provided v n n y) by (intros y I; apply F; apply K in I; apply negb_false_iff in I; exact I). clear K.
        revert m1 E' K'. induction l1 as [|y t IH]; intros [|z m1] E' K'; cbn [app] in E'.
        -- congruence.
        -- injection E' as -> _. exfalso. apply H, K'. left. reflexivity.
        -- injection E' as -> _. exfalso. apply H', K2. left. reflexivity.
        -- injection E' as _ E'. apply (IH (fun y0 I => K2 y0 (or_intror I)) m1 E'). intros y0 I. apply K'. right. exact I.
  - split.
    + split; [intros _ lib I; apply F; apply S in I; apply negb_false_iff in I; exact I|reflexivity].
    + intro lib. split; [intro Q; discriminate Q|]. intros (m1 & m2 & E & H & _). exfalso. apply H, F. assert (I : In lib (b_libs b)) by (rewrite E; apply in_app_iff; right; left; reflexivity). apply S in I. apply negb_false_iff in I. exact I.
Qed.
(** With a library package n.lib: nothing is said only if all the libraries of the main package are provided (or listed by n.lib) and the
    first library of n.lib is; the other libraries of n.lib are never looked at. *)
Theorem C74_dot_lib_partial : forall v n bl, up_to_date v n -> mget (dot_lib n) (v_bins v) = Some bl ->
  (judge v n = UpToDate <-> (forall lib, lists_lib v n lib -> provided v n n lib \/ lists_lib v (dot_lib n) lib) /\ exists l t, b_libs bl = l :: t /\ provided v n (dot_lib n) l).
Proof.
  intros v n bl U G. rewrite (judge_up v n U). assert (B : bin_exists v (dot_lib n) = true) by (unfold bin_exists; rewrite G; reflexivity). rewrite B.
  unfold missing_main. pose proof (find_first (fun lib => negb (found_main v n lib)) (libs_of v n)) as S. destruct (find (fun lib => negb (found_main v n lib)) (libs_of v n)) as [x|].
  - destruct S as (l1 & l2 & E & H & _). split; [intro Q; discriminate Q|]. intros [Q _]. exfalso. apply negb_true_iff in H. assert (X : found_main v n x = true); [|congruence]. apply found_main_iff, Q, in_libs_iff, smem_In. rewrite E. apply in_app_iff. right. left. reflexivity.
  - assert (Q : forall lib, lists_lib v n lib -> provided v n n lib \/ lists_lib v (dot_lib n) lib) by (intros lib I; apply found_main_iff; apply in_libs_iff, smem_In, S, negb_false_iff in I; exact I).
    unfold libs_of. rewrite G. destruct (b_libs bl) as [|l t]; cbn [lib_loop]; [split; [intro X; discriminate X|intros [_ (l & t & X & _)]; discriminate X]|]. cbn [orb]. destruct (found_lib v n l) eqn:F.
    + rewrite lib_loop_found. split; [|reflexivity]. intros _. split; [exact Q|]. exists l, t. split; [reflexivity|apply found_lib_iff, F].
    + split; [intro X; discriminate X|]. intros [_ (l' & t' & E & P)]. injection E as <- _. apply found_lib_iff in P. congruence.
Qed.
(** so a library of n.lib that comes from nowhere may go unnoticed, and a library package that uses no library is always reported, with no name *)
Definition one_bin (libs files : list str) : bin := Bin (L "/depot/cli") (L "x.tar") (L "cli") [] [] (L "1") 1 libs [] files.
Definition w_view (libs : list str) : view := View [(L "curl", one_bin [] []); (L "curl.lib", one_bin libs [])] [(L "curl", Port (L "1") 1 1)] (fun _ => true) [L "usr/lib/liba.so.1"].
Theorem C74_unnoticed_refuted : up_to_date (w_view [L "liba.so.1"; L "libgone.so"]) (L "curl") /\ ~ provided (w_view [L "liba.so.1"; L "libgone.so"]) (L "curl") (L "curl.lib") (L "libgone.so") /\
  judge (w_view [L "liba.so.1"; L "libgone.so"]) (L "curl") = UpToDate.
Proof.
  split; [eexists _, _; split; [reflexivity|]; split; [reflexivity|]; split; [reflexivity|]; split; reflexivity|]. split; [|vm_compute; reflexivity]. intro H.
  assert (X : found_lib (w_view [L "liba.so.1"; L "libgone.so"]) (L "curl") (L "libgone.so") = true) by (apply found_lib_iff; exact H). vm_compute in X. discriminate X.
Qed.
Theorem C74_blank_refuted : up_to_date (w_view []) (L "curl") /\ judge (w_view []) (L "curl") = Missing [].
Proof. split; [eexists _, _; split; [reflexivity|]; split; [reflexivity|]; split; [reflexivity|]; split; reflexivity|]. vm_compute. reflexivity. Qed.
(** When every build makes its port up to date and spoils no other, a run that succeeds leaves every port of the collection up to date;
    the ports it built are those that were not up to date when their turn came. *)
Theorem C74_collection : forall build order v tr v', build_all false build order v [] = (tr, Some v') ->
  (forall n w w', build n w = Some w' -> up_to_date w' n /\ (forall m, up_to_date w m -> up_to_date w' m) /\ keys (v_ports w') = keys (v_ports w)) -> incl order (keys (v_ports v)) ->
  (forall n, In n order -> up_to_date v' n) /\ map (fun e => fst (fst e)) tr = order /\ (forall n x b, In (n, x, b) tr -> b = true -> ~ up_to_date v n).
Proof.
  intros build order v tr v' E Hb. assert (G : forall order v tr0 tr v', build_all false build order v tr0 = (tr, Some v') -> incl order (keys (v_ports v)) ->
    (forall n, In n order \/ up_to_date v n -> up_to_date v' n) /\ exists t, tr = tr0 ++ t /\ map (fun e => fst (fst e)) t = order /\ (forall n x b, In (n, x, b) t -> b = true -> ~ up_to_date v n)).
  { clear order v tr v' E. induction order as [|n t IH]; intros v tr0 tr v' E K; cbn [build_all] in E.
    - injection E as <- <-. split; [intros n [[]|H]; exact H|]. exists []. split; [symmetry; apply app_nil_r|]. split; [reflexivity|intros n x b []].
    - cbv zeta in E. assert (In' : In n (keys (v_ports v))) by (apply K; left; reflexivity). pose proof (C74_built_iff v n In') as J. destruct (builds (judge v n)) eqn:B; cbn [andb negb] in E.
      + destruct (build n v) as [w|] eqn:Bw; [|discriminate E]. destruct (Hb n v w Bw) as (U1 & U2 & U3). destruct (IH w _ tr v' E) as (A & t' & -> & M & F); [intros y Hy; rewrite U3; apply K; right; exact Hy|]. split.
        * intros y [[<-|H]|H]; [apply A; right; exact U1|apply A; left; exact H|apply A; right; apply U2, H].
        * exists ((n, judge v n, true) :: t'). split; [rewrite <- app_assoc; reflexivity|]. split; [cbn [map fst]; f_equal; exact M|]. intros y x b [Q|Q] Tb; [injection Q as <- _ _; apply J; reflexivity|]. intro U. apply (F y x b Q Tb). apply U2, U.
      + destruct (IH v _ tr v' E) as (A & t' & -> & M & F); [intros y Hy; apply K; right; exact Hy|]. assert (Un : up_to_date v n). { unfold judge in B. destruct (mget n (v_bins v)) as [b|] eqn:Gb; [|discriminate B]. destruct (v_exists v (b_dir b ++ slash :: b_file b)) eqn:X; [|discriminate B]. cbn [negb] in B.
          destruct (mget n (v_ports v)) as [p|] eqn:P; [|apply mget_None in P; contradiction]. destruct (seqb (b_version b) (p_version p)) eqn:V; [|discriminate B]. cbn [negb] in B. destruct (b_release b =? p_release p)%N eqn:R; [|discriminate B]. exists b, p. apply seqb_eq in V. apply N.eqb_eq in R. auto 10. }
        split; [intros y [[<-|H]|H]; [apply A; right; exact Un|apply A; left; exact H|apply A; right; exact H]|]. exists ((n, judge v n, false) :: t'). split; [rewrite <- app_assoc; reflexivity|]. split; [cbn [map fst]; f_equal; exact M|]. intros y x b [Q|Q] Tb; [injection Q as _ _ <-; discriminate Tb|exact (F y x b Q Tb)]. }
  intro K. destruct (G order v [] tr v' E K) as (A & t & Et & M & F). cbn [app] in Et. subst t. split; [intros n H; apply A; left; exact H|]. split; [exact M|exact F].
Qed.
(** --dry builds nothing and reports every port as it stands *)
Theorem C74_dry : forall build order v, build_all true build order v [] = (map (fun n => (n, judge v n, false)) order, Some v).
Proof.
  intros build order v. assert (G : forall order tr, build_all true build order v tr = (tr ++ map (fun n => (n, judge v n, false)) order, Some v)).
  { induction order0 as [|n t IH]; intro tr; cbn [build_all map]; [rewrite app_nil_r; reflexivity|]. cbv zeta. rewrite andb_false_r. rewrite IH, <- app_assoc. reflexivity. }
  exact (G order []).
Qed.
(** a build as it should be: the package gets the version and release of the recipe *)
Definition good_build (n : str) (v : view) : option view :=
  match mget n (v_ports v) with
  | Some p => Some (View (mset n (Bin (L "/depot/cli") (n ++ L ".tar") (L "cli") [] [] (p_version p) (p_release p) [] [] []) (v_bins v)) (v_ports v) (fun x => v_exists v x || prefixb (L "/depot/cli/") x) (v_installed v))
  | None => None
  end.
Example C74_witness : (forall n w w', good_build n w = Some w' -> up_to_date w' n /\ (forall m, up_to_date w m -> up_to_date w' m) /\ keys (v_ports w') = keys (v_ports w)) /\
  (let v := View [(L "b", one_bin [] [])] [(L "a", Port (L "1") 1 0); (L "b", Port (L "1") 1 0); (L "c", Port (L "2") 1 1)] (fun x => seqb x (L "/depot/cli/x.tar")) [] in
   match build_all false good_build [L "a"; L "b"; L "c"] v [] with (tr, Some _) => tr | _ => [] end = [(L "a", NoBinary, true); (L "b", UpToDate, false); (L "c", NoBinary, true)]).
Proof.
  split; [|vm_compute; reflexivity]. intros n w w' E. unfold good_build in E. destruct (mget n (v_ports w)) as [p|] eqn:P; [|discriminate E]. injection E as <-. split; [|split; [|reflexivity]].
  - eexists _, p. cbn [v_bins v_ports v_exists]. rewrite mget_mset, seqb_refl. split; [reflexivity|]. split; [exact P|]. cbn [b_dir b_file b_version b_release]. split; [|split; reflexivity]. apply orb_true_iff. right. reflexivity.
  - intros m (b & q & G & Q & X & V & R). unfold up_to_date. cbn [v_bins v_ports v_exists]. rewrite mget_mset. destruct (seqb m n) eqn:B.
    + apply seqb_eq in B. subst m. rewrite P in Q. injection Q as <-. eexists _, p. split; [reflexivity|]. split; [exact P|]. cbn [b_dir b_file b_version b_release]. split; [|split; reflexivity]. apply orb_true_iff. right. reflexivity.
    + exists b, q. split; [exact G|]. split; [exact Q|]. split; [rewrite X; reflexivity|]. auto.
Qed.
Example C74_hypotheses : up_to_date (w_view [L "liba.so.1"]) (L "curl") /\ judge (w_view [L "liba.so.1"]) (L "curl") = UpToDate /\
  judge (View [(L "curl", one_bin [L "liba.so.1"; L "libgone.so"] [])] [(L "curl", Port (L "1") 1 1)] (fun _ => true) [L "usr/lib/liba.so.1"]) (L "curl") = Missing (L "libgone.so").
Proof. split; [eexists _, _; split; [reflexivity|]; split; [reflexivity|]; split; [reflexivity|]; split; reflexivity|]. split; vm_compute; reflexivity. Qed.

(** ** C75 *)
(** the package [n] is a main package of the collection [c] and the ports no longer have it *)
Definition orphan (c : str) (v : view) (n : str) (b : bin) : Prop := In (n, b) (v_bins v) /\ b_coll b = c /\ b_group b = [] /\ b_nls b = [] /\ ~ In n (keys (v_ports v)).
Lemma orphans_iff c v n b : In (n, b) (orphans c v) <-> orphan c v n b.
Proof.
  unfold orphans, orphan. rewrite filter_In. cbn [fst snd]. rewrite !andb_true_iff, seqb_eq. rewrite <- mget_None. split.
  - intros (I & (C & G) & P). split; [exact I|]. split; [exact C|]. destruct (b_group b); [|discriminate G]. destruct (b_nls b); [|discriminate G]. split; [reflexivity|]. split; [reflexivity|]. destruct (mget n (v_ports v)); [discriminate P|reflexivity].
  - intros (I & C & -> & -> & ->). auto.
Qed.
Definition archive_at (b : bin) : path := comps (b_dir b) ++ [b_file b].
Definition del_one (f : fs) (e : str * bin) : fs := removeFile f (b_dir (snd e)) (b_dir (snd e) ++ slash :: b_file (snd e)).
Lemma del_archives es : (forall e, In e es -> clean_base (b_dir (snd e)) /\ comp (b_file (snd e))) -> forall f, tree f ->
  tree (fold_left del_one es f) /\
  (forall q, fget (fold_left del_one es f) q = fget f q \/ (fget (fold_left del_one es f) q = None /\ exists e, In e es /\ q = archive_at (snd e))) /\
  (forall e, In e es -> fget (fold_left del_one es f) (archive_at (snd e)) = None \/ exists x, fget f (archive_at (snd e)) = Some x /\ n_kind x = KDir).
Proof.
  induction es as [|[n b] t IH]; intros H f T; cbn [fold_left].
  - split; [exact T|]. split; [auto|intros e []].
  - destruct (H (n, b) (or_introl eq_refl)) as [Cb Cf]. cbn [snd] in Cb, Cf.
    assert (NN : [b_file b] <> []) by discriminate. assert (FF : Forall comp [b_file b]) by (constructor; [exact Cf|constructor]).
    destruct (C39_prune (b_dir b) [b_file b] f Cb NN FF T) as (T1 & K1 & D1). change (removeFile f (b_dir b) (under (b_dir b) [b_file b])) with (del_one f (n, b)) in *.
    destruct (IH (fun e I => H e (or_intror I)) _ T1) as (T2 & K2 & D2). set (f1 := del_one f (n, b)) in *. set (f2 := fold_left del_one t f1) in *.
    assert (K1' : forall q, fget f1 q = fget f q \/ (fget f1 q = None /\ q = archive_at b)).
    { intro q. destruct (K1 q) as [E|[E (ds & es' & Nd & Ed & Eq)]]; [left; exact E|]. right. split; [exact E|]. destruct ds as [|d ds]; [contradiction|]. cbn [app] in Ed. injection Ed as <- Ed. destruct ds as [|? ?]; [|discriminate Ed]. exact Eq. }
    split; [exact T2|]. split.
    + intro q. destruct (K2 q) as [E|[E (e & I & Eq)]]; [|right; split; [exact E|]; exists e; split; [right; exact I|exact Eq]]. rewrite E. destruct (K1' q) as [E1|[E1 Eq]]; [left; exact E1|]. right. split; [exact E1|]. exists (n, b). split; [left; reflexivity|exact Eq].
    + intros e [<-|I].
      * cbn [snd]. assert (G : fget f1 (archive_at b) = None \/ exists x, fget f (archive_at b) = Some x /\ n_kind x = KDir).
        { destruct (fget f (archive_at b)) as [x|] eqn:Ex; [|left; destruct (K1' (archive_at b)) as [E1|[E1 _]]; [rewrite E1; exact Ex|exact E1]]. destruct (n_kind x) eqn:Kx; try (left; apply (D1 x Ex); left; rewrite Kx; discriminate). right. exists x. auto. }
        destruct G as [G|G]; [left|right; exact G]. destruct (K2 (archive_at b)) as [E|[E _]]; [rewrite E; exact G|exact E].
      * destruct (D2 e I) as [E|(x & Ex & Kx)]; [left; exact E|]. destruct (K1' (archive_at (snd e))) as [E1|[E1 _]]; [right; exists x; split; [rewrite <- E1; exact Ex|exact Kx]|congruence].
Qed.
(** Without --dry, the archives of the packages of the collection that no port makes any more are deleted, and nothing else changes. *)
Theorem C75_deletes : forall c v f, tree f -> (forall n b, orphan c v n b -> clean_base (b_dir b) /\ comp (b_file b)) ->
  let f' := check_binaries false c v f in tree f' /\
  (forall q, fget f' q = fget f q \/ (fget f' q = None /\ exists n b, orphan c v n b /\ q = archive_at b)) /\
  (forall n b, orphan c v n b -> fget f' (archive_at b) = None \/ exists x, fget f (archive_at b) = Some x /\ n_kind x = KDir).
Proof.
  intros c v f T H. cbv zeta. change (check_binaries false c v f) with (fold_left del_one (orphans c v) f).
  destruct (del_archives (orphans c v)) with (f := f) as (A & B & C); [intros [n b] I; apply orphans_iff in I; exact (H n b I)|exact T|].
  split; [exact A|]. split.
  - intro q. destruct (B q) as [E|[E ([n b] & I & Eq)]]; [left; exact E|]. right. split; [exact E|]. exists n, b. split; [apply orphans_iff, I|exact Eq].
  - intros n b O. apply (C (n, b)). apply orphans_iff, O.
Qed.
(** The archives of the groups (old.lib) of such a package stay. *)
Definition o_bin (file group : str) : bin := Bin (L "/depot/cli") file (L "cli") group [] (L "1") 1 [] [] [].
Definition o_view : view := View [(L "kept", o_bin (L "kept.tar") []); (L "old", o_bin (L "old.tar") []); (L "old.lib", o_bin (L "old.lib.tar") (L "lib"))] [(L "kept", Port (L "1") 1 0)] (fun _ => true) [].
Definition o_node : node := Node KReg (L "x") 420 0 0 1 0.
Definition o_fs : fs := [([], root_dir); ([L "depot"], root_dir); ([L "depot"; L "cli"], root_dir); ([L "depot"; L "cli"; L "kept.tar"], o_node); ([L "depot"; L "cli"; L "old.lib.tar"], o_node); ([L "depot"; L "cli"; L "old.tar"], o_node)].
Theorem C75_dry : forall c v f, check_binaries true c v f = f.
Proof. reflexivity. Qed.
Theorem C75_groups_refuted : let f' := check_binaries false (L "cli") o_view o_fs in
  fget f' [L "depot"; L "cli"; L "old.tar"] = None /\ fget f' [L "depot"; L "cli"; L "old.lib.tar"] = Some o_node /\ fget f' [L "depot"; L "cli"; L "kept.tar"] = Some o_node.
Proof. cbv zeta. split; [|split]; vm_compute; reflexivity. Qed.
Example C75_witness : orphan (L "cli") o_view (L "old") (o_bin (L "old.tar") []) /\ forall n b, orphan (L "cli") o_view n b -> clean_base (b_dir b) /\ comp (b_file b).
Proof.
  split; [split; [right; left; reflexivity|]; split; [reflexivity|]; split; [reflexivity|]; split; [reflexivity|]; intro H; vm_compute in H; destruct H as [H|[]]; discriminate H|].
  intros n b (I & _). destruct I as [I|[I|[I|[]]]]; injection I as <- <-; (split; [exists (L "/depot/cl"), "i"%char; split; [reflexivity|discriminate]|]; split; [discriminate|]; split; [intro H; vm_compute in H; repeat (destruct H as [H|H]; [discriminate H|]); destruct H|discriminate]).
Qed.
