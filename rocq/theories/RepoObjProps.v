(** C111: one package-repository object over any sequence of questions *)
From Verif Require Import Base BaseProofs StrModel StrSpec StrProofs RulesModel FsModel FsProofs MetaModel MetaSpec MetaProofs DbModel DbSpec DbFacts GenDeps GenDepsProofs GenDepsProps HexModel FilesModel.
From Verif Require FilesProps.
From Verif Require Import IndexModel IndexProofs IndexProps FetchModel ConfModel DiffModel SizeModel DiffAmounts InstallModel IndexExact OrderProps InfoModel InfoProps InfoMembers RepoObjModel.
From Coq Require Import ZArith Lia.
Open Scope nat_scope.
Notation files_of := FilesProps.files_of.

(** *** the reading, with and without what is left when it fails *)
Lemma idx_go_ok : forall ls p seen, match idx_lines ls p with
  | Ok q => idx_go ls p seen = (q, seen ++ stored ls p, Ok tt)
  | Throw => snd (idx_go ls p seen) = Throw
  | UB => snd (idx_go ls p seen) = UB
  end.
Proof.
  induction ls as [|s t IH]; intros p seen; cbn [idx_lines idx_go stored].
  - rewrite app_nil_r. reflexivity.
  - destruct (idx_line s p) as [q| |]; cbn [rbind]; [|reflexivity|reflexivity]. specialize (IH q (seen ++ if is_nil s then [p_name p] else [])).
    destruct (idx_lines t q) as [q'| |]; [|exact IH|exact IH]. rewrite IH, <- app_assoc. reflexivity.
Qed.
Lemma places_go_ok : forall dirs i m own, match parse_places dirs i m own with
  | Ok (m', own') => places_go dirs i m own = (m', own', Ok tt)
  | Throw => snd (places_go dirs i m own) = Throw
  | UB => snd (places_go dirs i m own) = UB
  end.
Proof.
  induction dirs as [|[d o] t IH]; intros i m own; cbn [parse_places places_go]; [reflexivity|]. cbv zeta. destruct o as [x|]; [|apply IH].
  destruct (parse_lines x) as [ls|]; [|reflexivity]. set (p0 := P false [] _ no_many [] m). pose proof (idx_go_ok ls p0 []) as G.
  destruct (idx_lines ls p0) as [q| |]; cbn [rbind].
  - rewrite G. cbn [List.app]. apply IH.
  - destruct (idx_go ls p0 []) as [[q seen] r]. cbn [snd] in G. subst r. reflexivity.
  - destruct (idx_go ls p0 []) as [[q seen] r]. cbn [snd] in G. subst r. reflexivity.
Qed.

(** names are only added while an index is read, and what has been stored has a name in the map *)
Lemma store_grows p n : mget n (p_map p) <> None -> mget n (p_map (store p)) <> None.
Proof.
  intro H. unfold store. set (z := if _ && _ then _ else _). assert (Z : mget n (snd z) <> None).
  { unfold z. destruct (_ && _); [|exact H]. destruct (mget (i_base (p_info p)) (p_map p)); [exact H|]. cbn [snd]. rewrite mget_mset. destruct (seqb n (i_base (p_info p))); [discriminate|exact H]. }
  destruct z as [i1 m1]. cbn [snd] in Z. cbn [p_map]. rewrite mget_mset. destruct (seqb n (p_name p)); [discriminate|exact Z].
Qed.
Lemma store_has p : mget (p_name p) (p_map (store p)) <> None.
Proof. unfold store. destruct (if _ && _ then _ else _) as [i1 m1]. cbn [p_map]. rewrite mget_mset, seqb_refl. discriminate. Qed.
Lemma idx_line_grows s p q : idx_line s p = Ok q -> (forall n, mget n (p_map p) <> None -> mget n (p_map q) <> None) /\ (s = [] -> mget (p_name p) (p_map q) <> None).
Proof.
  intro E. unfold idx_line in E. destruct (has_tag "@" s) eqn:T.
  { injection E as <-. split; [|intros ->; discriminate T]. intros n H. unfold at_line. destruct (sfind (L ".cards-") s); exact H. }
  destruct (if p_found p then tag_line s p else None) as [r|] eqn:G.
  - destruct (p_found p); [|discriminate G]. rewrite E in G. split; [rewrite (tag_line_map s p q G); auto|]. intros ->. discriminate G.
  - destruct s as [|c v]; injection E as <-; [split; [apply store_grows|intros _; apply store_has]|split; [auto|discriminate]].
Qed.
Lemma idx_go_grows : forall ls p seen q seen' r, idx_go ls p seen = (q, seen', r) -> (forall n, In n seen -> mget n (p_map p) <> None) ->
  (forall n, mget n (p_map p) <> None -> mget n (p_map q) <> None) /\ (forall n, In n seen' -> mget n (p_map q) <> None).
Proof.
  induction ls as [|s t IH]; intros p seen q seen' r E H; cbn [idx_go] in E.
  - injection E as <- <- _. auto.
  - destruct (idx_line s p) as [p1| |] eqn:Es; [|injection E as <- <- _; auto|injection E as <- <- _; auto]. destruct (idx_line_grows s p p1 Es) as [G1 G2].
    destruct (IH _ _ _ _ _ E) as [I1 I2].
    { intros n I. apply in_app_iff in I. destruct I as [I|I]; [apply G1, H, I|]. destruct s as [|c v]; cbn [is_nil] in I; [|destruct I]. destruct I as [<-|[]]. apply G2. reflexivity. }
    split; [intros n I; apply I1, G1, I|exact I2].
Qed.
Lemma idx_line_sorted s p q : ssorted (keys (p_map p)) -> idx_line s p = Ok q -> ssorted (keys (p_map q)).
Proof. apply idx_line_keyed. Qed.
Lemma idx_go_sorted : forall ls p seen q seen' r, ssorted (keys (p_map p)) -> idx_go ls p seen = (q, seen', r) -> ssorted (keys (p_map q)).
Proof.
  induction ls as [|s t IH]; intros p seen q seen' r H E; cbn [idx_go] in E; [injection E as <- _ _; exact H|].
  destruct (idx_line s p) as [p1| |] eqn:Es; [|injection E as <- _ _; exact H|injection E as <- _ _; exact H]. exact (IH _ _ _ _ _ (idx_line_sorted s p p1 H Es) E).
Qed.
Lemma places_go_sound : forall dirs i m own m' own' r, places_go dirs i m own = (m', own', r) -> ssorted (keys m) -> (forall n, mget n own <> None -> mget n m <> None) ->
  ssorted (keys m') /\ (forall n, mget n own' <> None -> mget n m' <> None).
Proof.
  induction dirs as [|[d o] t IH]; intros i m own m' own' r E Hs Ho; cbn [places_go] in E; [injection E as <- <- _; auto|]. cbv zeta in E. destruct o as [x|]; [|exact (IH _ _ _ _ _ _ E Hs Ho)].
  destruct (parse_lines x) as [ls|]; [|injection E as <- <- _; auto]. set (p0 := P false [] _ no_many [] m) in E. destruct (idx_go ls p0 []) as [[q seen] r0] eqn:G.
  destruct (idx_go_grows _ _ _ _ _ _ G) as [G1 G2]; [intros n []|]. pose proof (idx_go_sorted ls p0 [] q seen r0 Hs G) as Gs.
  assert (Go : forall n, mget n (named_in d seen own) <> None -> mget n (p_map q) <> None).
  { intros n. rewrite named_in_get. destruct (smem n seen) eqn:S1; [intros _; apply G2, smem_In, S1|]. intro K. apply G1, Ho, K. }
  destruct r0; [exact (IH _ _ _ _ _ _ E Gs Go)|injection E as <- <- _; auto|injection E as <- <- _; auto].
Qed.

(** *** the files *)
Lemma pf_line_pair l p0 p1 m : pf_name p1 = pf_name p0 -> pf_found p1 = pf_found p0 ->
  (forall n, mget n (pf_map p1) <> None <-> mget n (pf_map p0) <> None \/ mget n m <> None) -> (forall n f, In f (files_of (pf_map p1) n) <-> In f (files_of (pf_map p0) n) \/ In f (files_of m n)) ->
  let q0 := pf_line p0 l in let q1 := pf_line p1 l in
  pf_name q1 = pf_name q0 /\ pf_found q1 = pf_found q0 /\ (forall n, mget n (pf_map q1) <> None <-> mget n (pf_map q0) <> None \/ mget n m <> None) /\
  (forall n f, In f (files_of (pf_map q1) n) <-> In f (files_of (pf_map q0) n) \/ In f (files_of m n)).
Proof.
  intros En Ef Hk Hf. unfold pf_line. rewrite En, Ef. destruct (if starts_at l then sfind dot_cards l else None) as [k|]; [cbn [pf_name pf_found pf_map]; auto|].
  destruct (pf_found p0) eqn:F; [|rewrite F, Ef; auto]. destruct l as [|c l]; cbn [pf_name pf_found pf_map]; [auto|]. split; [reflexivity|]. split; [reflexivity|]. split.
  - intro n. unfold add_file. rewrite !mget_mset. destruct (seqb n (pf_name p0)); [split; [left|]; discriminate|apply Hk].
  - intros n f. rewrite !FilesProps.files_of_add, Hf. tauto.
Qed.
Lemma pf_lines_pair m : forall ls p0 p1, pf_name p1 = pf_name p0 -> pf_found p1 = pf_found p0 ->
  (forall n, mget n (pf_map p1) <> None <-> mget n (pf_map p0) <> None \/ mget n m <> None) -> (forall n f, In f (files_of (pf_map p1) n) <-> In f (files_of (pf_map p0) n) \/ In f (files_of m n)) ->
  let q0 := fold_left pf_line ls p0 in let q1 := fold_left pf_line ls p1 in
  pf_name q1 = pf_name q0 /\ pf_found q1 = pf_found q0 /\ (forall n, mget n (pf_map q1) <> None <-> mget n (pf_map q0) <> None \/ mget n m <> None) /\
  (forall n f, In f (files_of (pf_map q1) n) <-> In f (files_of (pf_map q0) n) \/ In f (files_of m n)).
Proof.
  induction ls as [|l t IH]; intros p0 p1 A B C D; [cbn; auto|]. cbn [fold_left]. destruct (pf_line_pair l p0 p1 m A B C D) as (A' & B' & C' & D'). exact (IH _ _ A' B' C' D').
Qed.
Lemma pf_dirs_pair m : forall dirs p0 p1, pf_name p1 = pf_name p0 -> pf_found p1 = pf_found p0 ->
  (forall n, mget n (pf_map p1) <> None <-> mget n (pf_map p0) <> None \/ mget n m <> None) -> (forall n f, In f (files_of (pf_map p1) n) <-> In f (files_of (pf_map p0) n) \/ In f (files_of m n)) ->
  match pf_dirs dirs p0 with
  | Ok q0 => exists q1, pf_dirs dirs p1 = Ok q1 /\ (forall n, mget n (pf_map q1) <> None <-> mget n (pf_map q0) <> None \/ mget n m <> None) /\
               (forall n f, In f (files_of (pf_map q1) n) <-> In f (files_of (pf_map q0) n) \/ In f (files_of m n))
  | Throw => pf_dirs dirs p1 = Throw
  | UB => pf_dirs dirs p1 = UB
  end.
Proof.
  induction dirs as [|[c [x|]] t IH]; intros p0 p1 A B C D; cbn [pf_dirs]; [exists p1; auto| |exact (IH _ _ A B C D)].
  destruct (parse_lines x) as [ls|]; [|reflexivity]. destruct (pf_lines_pair m ls p0 p1 A B C D) as (A' & B' & C' & D'). exact (IH _ _ A' B' C' D').
Qed.
(** reading the lists of files again adds what they hold now to what was there *)
Lemma parse_files_adds dirs m : match parse_files dirs [] with
  | Ok m0 => exists m1, parse_files dirs m = Ok m1 /\ (forall n, mget n m1 <> None <-> mget n m0 <> None \/ mget n m <> None) /\ (forall n f, In f (files_of m1 n) <-> In f (files_of m0 n) \/ In f (files_of m n))
  | Throw => parse_files dirs m = Throw
  | UB => parse_files dirs m = UB
  end.
Proof.
  unfold parse_files. pose proof (pf_dirs_pair m dirs (PF [] false []) (PF [] false m) eq_refl eq_refl) as H. cbn [pf_map mget] in H.
  assert (H1 : forall n, mget n m <> None <-> (@None (list str) <> None) \/ mget n m <> None) by (intro n; split; [auto|intros [K|K]; [exfalso; apply K; reflexivity|exact K]]).
  assert (H2 : forall n f, In f (files_of m n) <-> In f (files_of [] n) \/ In f (files_of m n)) by (intros n f; split; [auto|intros [[]|K]; exact K]).
  specialize (H H1 H2). destruct (pf_dirs dirs (PF [] false [])) as [q0| |]; [|rewrite H; reflexivity|rewrite H; reflexivity]. destruct H as (q1 & E & K1 & K2). rewrite E. exists (pf_map q1). auto.
Qed.
Lemma add_file_sorted n f m : (forall k, ssorted (files_of m k)) -> forall k, ssorted (files_of (add_file n f m) k).
Proof.
  intros H k. unfold FilesProps.files_of, add_file. rewrite mget_mset. destruct (seqb k n) eqn:E; [|apply H]. apply seqb_eq in E. subst k. apply sins_sorted. specialize (H n). unfold FilesProps.files_of in H. exact H.
Qed.
Lemma pf_sorted ls : forall p, (forall k, ssorted (files_of (pf_map p) k)) -> forall k, ssorted (files_of (pf_map (fold_left pf_line ls p)) k).
Proof.
  induction ls as [|l t IH]; intros p H; [exact H|]. cbn [fold_left]. apply IH. unfold pf_line. destruct (if starts_at l then sfind dot_cards l else None); [exact H|]. destruct (pf_found p); [|exact H]. destruct l; [exact H|]. cbn [pf_map]. apply add_file_sorted, H.
Qed.
Lemma parse_files_sorted dirs m m' : parse_files dirs m = Ok m' -> (forall k, ssorted (files_of m k)) -> forall k, ssorted (files_of m' k).
Proof.
  unfold parse_files. intros E H. assert (G : forall dirs p q, pf_dirs dirs p = Ok q -> (forall k, ssorted (files_of (pf_map p) k)) -> forall k, ssorted (files_of (pf_map q) k)).
  { clear. induction dirs as [|[c [x|]] t IH]; intros p q E H; cbn [pf_dirs] in E; [injection E as <-; exact H| |exact (IH _ _ E H)]. destruct (parse_lines x) as [ls|]; [|discriminate E]. exact (IH _ _ E (pf_sorted ls p H)). }
  destruct (pf_dirs dirs (PF [] false m)) as [q| |] eqn:D; [|discriminate E|discriminate E]. injection E as <-. exact (G _ _ _ D H).
Qed.

(** a record whose release is not a number: std::stoi throws *)
Definition broken_record (ls : list str) : Prop :=
  exists f a v b, ls = ("@"%char :: f) :: a ++ ("r"%char :: v) :: b /\ sfind (L ".cards-") ("@"%char :: f) <> None /\ stoi_u16 v = Throw /\
    (forall s, In s a -> s <> [] /\ (forall x, s <> "@"%char :: x) /\ forall x, s <> "r"%char :: x) /\ forall x, In ("R"%char :: x) a -> 10 <= length x.
Lemma broken_lines a v b : stoi_u16 v = Throw -> (forall s, In s a -> s <> [] /\ (forall x, s <> "@"%char :: x) /\ forall x, s <> "r"%char :: x) -> (forall x, In ("R"%char :: x) a -> 10 <= length x) ->
  forall p seen, p_found p = true -> exists q, idx_go (a ++ ("r"%char :: v) :: b) p seen = (q, seen, Throw) /\ p_map q = p_map p.
Proof.
  intros Ev. induction a as [|s t IH]; intros Ha HR p seen F; cbn [List.app idx_go].
  - assert (E : idx_line ("r"%char :: v) p = Throw) by (unfold idx_line; cbn [has_tag]; change (ceqb "r" "@") with false; cbv iota; rewrite F; unfold tag_line; change (ceqb "r" "N") with false; change (ceqb "r" "r") with true; cbv iota; rewrite Ev; reflexivity).
    rewrite E. exists p. split; reflexivity.
  - destruct (Ha s (or_introl eq_refl)) as (Ne & At & Nr). destruct (tag_line_step s p Ne) as (i & E & _); [intros x ->; destruct (Nr x eq_refl)|intros x ->; apply HR; left; reflexivity|exact F|exact At|].
    rewrite E. destruct s as [|c s]; [contradiction|]. cbn [is_nil]. rewrite app_nil_r.
    destruct (IH (fun x I => Ha x (or_intror I)) (fun x I => HR x (or_intror I)) (P true (stepn (p_name p) (c :: s)) i (stepm (p_many p) (c :: s)) (stepd (p_deps p) (c :: s)) (p_map p)) seen eq_refl) as (q & Eq & Em). exists q. split; [exact Eq|exact Em].
Qed.
Lemma broken_go bad p seen : broken_record bad -> exists q, idx_go bad p seen = (q, seen, Throw) /\ p_map q = p_map p.
Proof.
  intros (f & a & v & b & -> & Hf & Ev & Ha & HR). cbn [idx_go]. unfold idx_line at 1. cbn [has_tag]. rewrite ceqb_refl. unfold at_line. destruct (sfind (L ".cards-") ("@"%char :: f)) as [k|]; [|contradiction]. cbn [is_nil]. rewrite app_nil_r.
  set (p1 := P true _ _ _ _ _). destruct (broken_lines a v b Ev Ha HR p1 seen eq_refl) as (q & Eq & Em). exists q. split; [exact Eq|exact Em].
Qed.
Lemma idx_go_app a : forall b p seen q, idx_lines a p = Ok q -> idx_go (a ++ b) p seen = idx_go b q (seen ++ stored a p).
Proof.
  induction a as [|s t IH]; intros b p seen q E; cbn [List.app idx_go idx_lines stored] in *; [injection E as <-; rewrite app_nil_r; reflexivity|]. destruct (idx_line s p) as [q1| |]; cbn [rbind] in E; [|discriminate E|discriminate E].
  rewrite (IH b q1 _ q E), <- app_assoc. reflexivity.
Qed.
Lemma broken_places ls bad d rest : Forall good_line ls -> Forall good_line bad -> broken_record bad -> forall dirs i m own m' own',
  parse_places (dirs ++ [(d, Some (text_of ls))]) i m own = Ok (m', own') -> places_go (dirs ++ (d, Some (text_of (ls ++ bad))) :: rest) i m own = (m', own', Throw).
Proof.
  intros Gl Gb Br. induction dirs as [|[d0 o] t IH]; intros i m own m' own' E; cbn [List.app parse_places places_go] in *; cbv zeta in *.
  - rewrite (parse_text _ Gl) in E. assert (Ga : Forall good_line (ls ++ bad)) by (apply Forall_app; split; assumption). rewrite (parse_text _ Ga).
    set (p0 := P false [] _ no_many [] m) in *. destruct (idx_lines ls p0) as [p| |] eqn:El; cbn [rbind] in E; [|discriminate E|discriminate E]. injection E as <- <-. rewrite (idx_go_app ls bad p0 [] p El). cbn [List.app].
    destruct (broken_go bad p (stored ls p0) Br) as (q & Eq & Em). rewrite Eq, Em. reflexivity.
  - destruct o as [x|]; [|exact (IH _ _ _ _ _ E)]. destruct (parse_lines x) as [lx|]; [|discriminate E]. set (p0 := P false [] _ no_many [] m) in *. pose proof (idx_go_ok lx p0 []) as G.
    destruct (idx_lines lx p0) as [p| |]; cbn [rbind] in E; [|discriminate E|discriminate E]. rewrite G. exact (IH _ _ _ _ _ E).
Qed.

(** *** the object *)
Section Obj.
Variable cfg : list dirurl.
Variables (date : Z -> str) (machine version : str) (j_rel : N) (j_build : Z) (j_size j_space : N).
Notation ask := (call cfg date machine version j_rel j_build j_size j_space).
(** the object opened in the world [w0], after the calls [h]; the reply to one more call *)
Definition after (w0 : rworld) (h : list (query * rworld)) : repo := calls cfg date machine version j_rel j_build j_size j_space h (fst (open_repo cfg w0)).
Definition answer (w0 : rworld) (h : list (query * rworld)) (q : query) (w : rworld) : res ans := snd (ask q w (after w0 h)).
Definition opens (w0 : rworld) : Prop := snd (open_repo cfg w0) = Ok tt.

(** *** the specification *)
(** the questions about one package *)
Definition mentions (q : query) (n : str) : Prop :=
  match q with Text _ k | Num _ k | Libs k | Deps k | Paths k => k = n | _ => False end.
(** [n] is added by the call [q] in [w]: asked about, or named by an index of files that is read *)
Definition adds (w : rworld) (q : query) (n : str) : Prop :=
  mentions q n \/ q = Read_files /\ exists m0, parse_files (map (fun d => (u_coll d, w_files w d)) cfg) [] = Ok m0 /\ mget n m0 <> None.
Definition added (h : list (query * rworld)) (n : str) : Prop := exists q w, In (q, w) h /\ adds w q n.
(** [f] is a file of [n] in the indexes of files that [h] reads *)
Definition listed (h : list (query * rworld)) (n f : str) : Prop :=
  exists w m0, In (Read_files, w) h /\ parse_files (map (fun d => (u_coll d, w_files w d)) cfg) [] = Ok m0 /\ In f (files_of m0 n).
(** the last time the indexes were read on purpose was in [w], when the object was made or by refresh(); [h2] is what was asked since *)
Definition last_read (w0 : rworld) (h : list (query * rworld)) (w : rworld) (h2 : list (query * rworld)) : Prop :=
  (h = h2 /\ w = w0 \/ exists h1, h = h1 ++ (Refresh, w) :: h2) /\ forall w1, ~ In (Refresh, w1) h2.
(** the collections hold, in the order of the configuration, the packages [l]; or they hold these and then a record that cannot be read *)
Definition whole (w : rworld) (l : shelves) : Prop := index_at cfg w = files l.
Definition cut_short (w : rworld) (l : shelves) : Prop := exists l1 d ps bad rest, l = l1 ++ [(d, Some ps)] /\
  index_at cfg w = files l1 ++ (d, Some (text_of (flat_map gen_lines ps ++ bad))) :: rest /\ Forall good_line bad /\ broken_record bad.
(** what is read in [w] are the packages [l], at least one *)
Definition stocked (w : rworld) (l : shelves) : Prop := (whole w l \/ cut_short w l) /\ good_depots (at_colls l) /\ exists n, offered (at_colls l) n.

(** *** what an object that has something keeps *)
Definition held (m : list (str * irec)) (own : list (str * dirurl)) (A : str -> Prop) (F : str -> str -> Prop) (o : repo) : Prop :=
  ssorted (keys (b_map o)) /\ b_own o = own /\ b_map o <> [] /\ (forall n i, mget n m = Some i -> mget n (b_map o) = Some i) /\
  (forall n, mget n m = None -> match mget n (b_map o) with Some i => i = blank /\ A n | None => ~ A n end) /\
  (forall n, mget n own <> None -> mget n m <> None) /\ (forall n f, In f (files_of (b_files o) n) <-> F n f) /\
  (forall n, mget n (b_files o) <> None -> mget n (b_map o) <> None) /\ forall n, ssorted (files_of (b_files o) n).
Lemma held_ext m own A A' F F' o : (forall n, A n <-> A' n) -> (forall n f, F n f <-> F' n f) -> held m own A F o -> held m own A' F' o.
Proof.
  intros Ha Hf (H1 & H2 & H3 & H4 & H5 & H6 & H7 & H8 & H9). split; [exact H1|]. split; [exact H2|]. split; [exact H3|]. split; [exact H4|]. split; [|split; [exact H6|split; [|split; [exact H8|exact H9]]]].
  - intros n N. specialize (H5 n N). destruct (mget n (b_map o)); [destruct H5 as [E K]; split; [exact E|apply Ha, K]|intro K; apply H5, Ha, K].
  - intros n f. rewrite H7. apply Hf.
Qed.
Lemma mget_touch n o k : mget k (b_map (touch n o)) = match mget k (b_map o) with Some i => Some i | None => if seqb k n then Some blank else None end.
Proof.
  unfold touch. destruct (mget n (b_map o)) as [i|] eqn:G.
  - destruct (mget k (b_map o)) eqn:K; [reflexivity|]. destruct (seqb k n) eqn:E; [|reflexivity]. apply seqb_eq in E. congruence.
  - cbn [b_map]. rewrite mget_mset. destruct (seqb k n) eqn:E; [apply seqb_eq in E; subst k; rewrite G; reflexivity|]. destruct (mget k (b_map o)); reflexivity.
Qed.
Lemma touch_same n o : b_own (touch n o) = b_own o /\ b_files (touch n o) = b_files o /\ b_list (touch n o) = b_list o /\ b_shown (touch n o) = b_shown o.
Proof. unfold touch. destruct (mget n (b_map o)); auto. Qed.
Lemma touch_sorted n o : ssorted (keys (b_map o)) -> ssorted (keys (b_map (touch n o))).
Proof. unfold touch. destruct (mget n (b_map o)); [auto|]. cbn [b_map]. apply mset_keys_sorted. Qed.
Lemma touch_ne n o : b_map (touch n o) <> [].
Proof. intro E. pose proof (mget_touch n o n) as K. rewrite E, seqb_refl in K. cbn [mget] in K. destruct (mget n (b_map o)); discriminate K. Qed.
Lemma with_names_spec ns : forall o, (forall k, mget k (b_map (with_names ns o)) = match mget k (b_map o) with Some i => Some i | None => if smem k ns then Some blank else None end) /\
  b_own (with_names ns o) = b_own o /\ b_files (with_names ns o) = b_files o /\ b_list (with_names ns o) = b_list o /\ b_shown (with_names ns o) = b_shown o /\
  (ssorted (keys (b_map o)) -> ssorted (keys (b_map (with_names ns o)))) /\ (b_map o <> [] -> b_map (with_names ns o) <> []).
Proof.
  induction ns as [|n t IH]; intro o; cbn [with_names fold_left].
  - split; [intro k; cbn [smem]; destruct (mget k (b_map o)); reflexivity|]. split; [reflexivity|]. split; [reflexivity|]. split; [reflexivity|]. split; [reflexivity|]. split; auto.
  - fold (with_names t (touch n o)). destruct (IH (touch n o)) as (I1 & I2 & I3 & I4 & I5 & I6 & I7). destruct (touch_same n o) as (T1 & T2 & T3 & T4).
    split; [|split; [congruence|split; [congruence|split; [congruence|split; [congruence|split]]]]].
    + intro k. rewrite I1, mget_touch. cbn [smem]. destruct (mget k (b_map o)); [reflexivity|]. destruct (seqb k n); reflexivity.
    + intro K. apply I6, touch_sorted, K.
    + intros _. apply I7, touch_ne.
Qed.
Lemma touch_held m own A F n o : held m own A F o -> held m own (fun k => A k \/ n = k) F (touch n o).
Proof.
  intros (H1 & H2 & H3 & H4 & H5 & H6 & H7 & H8 & H9). destruct (touch_same n o) as (T1 & T2 & _). unfold held. rewrite T1, T2. split; [apply touch_sorted, H1|]. split; [exact H2|]. split; [apply touch_ne|].
  split; [intros k i G; rewrite mget_touch, (H4 k i G); reflexivity|]. split; [|split; [exact H6|split; [exact H7|split; [|exact H9]]]].
  - intros k N. specialize (H5 k N). rewrite mget_touch. destruct (mget k (b_map o)) as [i|]; [destruct H5 as [E K]; auto|]. destruct (seqb k n) eqn:E; [apply seqb_eq in E; subst k; auto|]. apply seqb_neq in E. intros [K|K]; [exact (H5 K)|apply E; symmetry; exact K].
  - intros k K. rewrite mget_touch. specialize (H8 k K). destruct (mget k (b_map o)); [discriminate|contradiction].
Qed.
Lemma load_held w o : b_map o <> [] -> load_repo cfg w o = (o, Ok tt).
Proof. unfold load_repo. destruct (b_map o); [contradiction|reflexivity]. Qed.
Lemma after_load_held {w o} f : b_map o <> [] -> after_load cfg w o f = let '(o2, a) := f o in (o2, Ok a).
Proof. intro N. unfold after_load. rewrite (load_held w o N). reflexivity. Qed.
Lemma keys_smem {A} n (m : list (str * A)) : smem n (keys m) = true <-> mget n m <> None.
Proof.
  rewrite smem_In. unfold keys. rewrite in_map_iff. induction m as [|[k v] m IH]; cbn [mget].
  - split; [intros (x & _ & []) |intro K; exfalso; apply K; reflexivity].
  - destruct (seqb n k) eqn:E; [apply seqb_eq in E; subst k; split; [discriminate|intros _; exists (n, v); split; [reflexivity|left; reflexivity]]|]. apply seqb_neq in E. rewrite <- IH.
    split; intros (x & Ex & I); [destruct I as [<-|I]; [exfalso; apply E; symmetry; exact Ex|]|]; exists x; (split; [exact Ex|]); [exact I|right; exact I].
Qed.
Lemma call_held m own A F q w o : (q <> Refresh) -> held m own A F o ->
  held m own (fun n => A n \/ adds w q n) (fun n f => F n f \/ listed [(q, w)] n f) (fst (ask q w o)).
Proof.
  intros Nr Hd. pose proof Hd as (H1 & H2 & H3 & H4 & H5 & H6 & H7 & H8 & H9).
  assert (Li : q <> Read_files -> forall n f, ~ listed [(q, w)] n f) by (intros N n f (w1 & m0 & [I|[]] & _); injection I as I _; exact (N I)).
  assert (Same : q <> Read_files -> (forall n, ~ mentions q n) -> forall o', b_map o' = b_map o -> b_own o' = b_own o -> b_files o' = b_files o -> held m own (fun n => A n \/ adds w q n) (fun n f => F n f \/ listed [(q, w)] n f) o').
  { intros Nf Nm o' E1 E2 E3. apply (held_ext m own A _ F); [intro n; split; [auto|]; intros [K|[K|[K _]]]; [exact K|destruct (Nm n K)|contradiction]|intros n f; split; [auto|]; intros [K|K]; [exact K|destruct (Li Nf n f K)]|].
    unfold held. rewrite E1, E2, E3. exact Hd. }
  assert (Tou : forall n, q <> Read_files -> (forall k, mentions q k <-> n = k) -> held m own (fun k => A k \/ adds w q k) (fun k f => F k f \/ listed [(q, w)] k f) (touch n o)).
  { intros n Nf Nm. apply (held_ext m own (fun k => A k \/ n = k) _ F); [intro k; split; [intros [K|K]; [left; exact K|right; left; apply Nm, K]|intros [K|[K|[K _]]]; [left; exact K|right; apply Nm, K|contradiction]]|intros k f; split; [auto|]; intros [K|K]; [exact K|destruct (Li Nf k f K)]|].
    apply touch_held, Hd. }
  destruct q as [|n|t n|t n|n|n|n| |x|x|n|n| |]; cbn [call]; try (rewrite after_load_held by exact H3; cbn [fst]).
  - apply Same; [discriminate|intros k []|reflexivity|reflexivity|reflexivity].
  - apply Same; [discriminate|intros k []|reflexivity|reflexivity|reflexivity].
  - apply Tou; [discriminate|intro k; reflexivity].
  - apply Tou; [discriminate|intro k; reflexivity].
  - apply Tou; [discriminate|intro k; reflexivity].
  - apply Tou; [discriminate|intro k; reflexivity].
  - cbn [fst]. apply Tou; [discriminate|intro k; reflexivity].
  - apply Same; [discriminate|intros k []|reflexivity|reflexivity|reflexivity].
  - apply Same; [discriminate|intros k []|reflexivity|reflexivity|reflexivity].
  - apply Same; [discriminate|intros k []|reflexivity|reflexivity|reflexivity].
  - apply Same; [discriminate|intros k []|reflexivity|reflexivity|reflexivity].
  - destruct (mget n (b_map o)); cbn [fst]; apply Same; try discriminate; try reflexivity; intros k [].
  - pose proof (parse_files_adds (files_at cfg w) (b_files o)) as Pa. destruct (parse_files (files_at cfg w) []) as [m0| |] eqn:E0.
    + destruct Pa as (m1 & E1 & K1 & K2). rewrite E1. cbn [fst]. set (o1 := Repo (b_map o) (b_own o) m1 (b_list o) (b_shown o)). destruct (with_names_spec (keys m1) o1) as (W1 & W2 & W3 & _ & _ & W6 & W7).
      unfold held. rewrite W2, W3. cbn [b_own b_files o1]. split; [apply W6, H1|]. split; [exact H2|]. split; [apply W7, H3|]. split; [intros k i G; rewrite W1; cbn [b_map o1]; rewrite (H4 k i G); reflexivity|].
      assert (Ad : forall k, mget k m0 <> None -> adds w Read_files k) by (intros k K; right; split; [reflexivity|exists m0; auto]).
      split; [|split; [exact H6|split; [|split]]].
      * intros k N. specialize (H5 k N). rewrite W1. cbn [b_map o1]. destruct (mget k (b_map o)) as [i|] eqn:G; [destruct H5 as [E K]; auto|]. destruct (smem k (keys m1)) eqn:Sk.
        -- split; [reflexivity|]. right. apply Ad. apply keys_smem, K1 in Sk. destruct Sk as [Sk|Sk]; [exact Sk|]. exfalso. exact (H8 k Sk G).
        -- intros [K|[[]|(_ & m2 & E2 & K)]]; [exact (H5 K)|]. change (parse_files (files_at cfg w) [] = Ok m2) in E2. rewrite E0 in E2. injection E2 as <-. assert (X : smem k (keys m1) = true) by (apply keys_smem, K1; left; exact K). congruence.
      * intros k f. rewrite K2, H7. split.
        -- intros [K|K]; [right; exists w, m0; split; [left; reflexivity|auto]|left; exact K].
        -- intros [K|(w1 & m2 & [I|[]] & E2 & K)]; [right; exact K|]. injection I as <-. change (parse_files (files_at cfg w) [] = Ok m2) in E2. rewrite E0 in E2. injection E2 as <-. left. exact K.
      * intros k K. rewrite W1. cbn [b_map o1]. destruct (mget k (b_map o)); [discriminate|]. apply keys_smem in K. rewrite K. discriminate.
      * exact (parse_files_sorted _ _ _ E1 H9).
    + rewrite Pa. cbn [fst]. apply (held_ext m own A _ F); [intro k; split; [auto|]; intros [K|[[]|(_ & m2 & E2 & _)]]; [exact K|change (parse_files (files_at cfg w) [] = Ok m2) in E2; congruence]|intros k f; split; [auto|]; intros [K|(w1 & m2 & [I|[]] & E2 & _)]; [exact K|]; injection I as <-; change (parse_files (files_at cfg w) [] = Ok m2) in E2; congruence|exact Hd].
    + rewrite Pa. cbn [fst]. apply (held_ext m own A _ F); [intro k; split; [auto|]; intros [K|[[]|(_ & m2 & E2 & _)]]; [exact K|change (parse_files (files_at cfg w) [] = Ok m2) in E2; congruence]|intros k f; split; [auto|]; intros [K|(w1 & m2 & [I|[]] & E2 & _)]; [exact K|]; injection I as <-; change (parse_files (files_at cfg w) [] = Ok m2) in E2; congruence|exact Hd].
  - contradiction.
Qed.
Lemma calls_held m own : forall h A F o, (forall w1, ~ In (Refresh, w1) h) -> held m own A F o ->
  held m own (fun n => A n \/ added h n) (fun n f => F n f \/ listed h n f) (calls cfg date machine version j_rel j_build j_size j_space h o).
Proof.
  induction h as [|[q w] t IH]; intros A F o Nr Hd; cbn [calls].
  - refine (held_ext _ _ _ _ _ _ _ _ _ Hd); [intro n; split; [auto|]; intros [K|(q & w & [] & _)]; exact K|intros n f; split; [auto|]; intros [K|(w & m0 & [] & _)]; exact K].
  - assert (Nq : q <> Refresh) by (intros ->; apply (Nr w); left; reflexivity). pose proof (call_held m own A F q w o Nq Hd) as Hc.
    refine (held_ext _ _ _ _ _ _ _ _ _ (IH _ _ _ _ Hc)); [| |intros w1 I; apply (Nr w1); right; exact I].
    + intro n. split; [intros [[K|K]|(q1 & w1 & I & K)]; [left; exact K|right; exists q, w; split; [left; reflexivity|exact K]|right; exists q1, w1; split; [right; exact I|exact K]]|].
      intros [K|(q1 & w1 & [I|I] & K)]; [left; left; exact K|injection I as -> ->; left; right; exact K|right; exists q1, w1; auto].
    + intros n f. split; [intros [[K|(w1 & m0 & [I|[]] & K)]|(w1 & m0 & I & K)]; [left; exact K|right; exists w1, m0; split; [left; exact I|exact K]|right; exists w1, m0; split; [right; exact I|exact K]]|].
      intros [K|(w1 & m0 & [I|I] & K)]; [left; left; exact K|left; right; exists w1, m0; split; [left; exact I|exact K]|right; exists w1, m0; auto].
Qed.
Lemma load_empty w m own ls sh : fst (places_go (index_at cfg w) blank [] []) = (m, own) -> m <> [] ->
  held m own (fun _ => False) (fun _ _ => False) (fst (load_repo cfg w (Repo [] [] [] ls sh))).
Proof.
  intros E Ne. unfold load_repo. cbn [b_map]. destruct (places_go (index_at cfg w) blank [] []) as [[m' own'] r] eqn:Eg. cbn [fst] in E. injection E as -> ->.
  destruct (places_go_sound _ _ _ _ _ _ _ Eg) as [Ss Os]; [constructor|intros n K; exfalso; apply K; reflexivity|]. cbn [fst b_files b_list b_shown]. unfold held. cbn [b_map b_own b_files].
  split; [exact Ss|]. split; [reflexivity|]. split; [exact Ne|]. split; [auto|]. split; [intros n N; rewrite N; auto|]. split; [exact Os|]. split; [intros n f; split; [intros []|intros []]|]. split; [intros n K; exfalso; apply K; reflexivity|]. intro n. constructor.
Qed.
Lemma calls_app h1 : forall h2 o, calls cfg date machine version j_rel j_build j_size j_space (h1 ++ h2) o = calls cfg date machine version j_rel j_build j_size j_space h2 (calls cfg date machine version j_rel j_build j_size j_space h1 o).
Proof. induction h1 as [|[q w] t IH]; intros h2 o; [reflexivity|]. cbn [List.app calls]. apply IH. Qed.
Lemma after_app w0 h1 h2 : after w0 (h1 ++ h2) = calls cfg date machine version j_rel j_build j_size j_space h2 (after w0 h1).
Proof. unfold after. apply calls_app. Qed.
Lemma refresh_state w o : fst (ask Refresh w o) = fst (load_repo cfg w (Repo [] [] [] (b_list o) (b_shown o))).
Proof. cbn [call]. unfold after_load. destruct (load_repo cfg w (Repo [] [] [] (b_list o) (b_shown o))) as [o1 r]. destruct r; reflexivity. Qed.
Lemma held_after w0 h w h2 m own : last_read w0 h w h2 -> fst (places_go (index_at cfg w) blank [] []) = (m, own) -> m <> [] ->
  held m own (added h2) (listed h2) (after w0 h).
Proof.
  intros [[[-> ->]|[h1 ->]] Nr] E Ne.
  - refine (held_ext _ _ _ _ _ _ _ _ _ (calls_held m own h2 _ _ _ Nr (load_empty w0 m own [] [] E Ne))); [intro n; tauto|intros n f; tauto].
  - rewrite after_app. cbn [calls]. rewrite refresh_state.
    refine (held_ext _ _ _ _ _ _ _ _ _ (calls_held m own h2 _ _ _ Nr (load_empty w m own _ _ E Ne))); [intro n; tauto|intros n f; tauto].
Qed.

(** what is read in a world that holds the packages [l] *)
Definition read_as (l : shelves) (m : list (str * irec)) (own : list (str * dirurl)) : Prop :=
  parse_repo (indexes (at_colls l)) = Ok m /\ read_places (files l) = Ok (m, own) /\ ssorted (keys m) /\
  (forall n p before d, last_named (at_colls l) n p before -> offered_by l n d -> exists i, mget n m = Some i /\ faithful p i /\ carried p before i /\ neat i /\ mget n own = Some d) /\
  forall n, mget n m <> None <-> offered (at_colls l) n.
Lemma reading w l : stocked w l -> exists m own r, places_go (index_at cfg w) blank [] [] = (m, own, r) /\ m <> [] /\ read_as l m own /\ (whole w l -> r = Ok tt) /\ (cut_short w l -> r = Throw).
Proof.
  intros (Ei & Gd & Ex). destruct (places_ok l [] blank [] [] Gd ltac:(intros c _; reflexivity)) as (m & own & E & Ed & K). pose proof (places_go_ok (files l) blank [] []) as G. rewrite E in G.
  destruct (C27_exact (at_colls l) Gd) as (m' & Em & Kf & Kin). pose proof Em as Em'. unfold parse_repo in Em'. rewrite Ed in Em'. injection Em' as <-.
  assert (Gw : whole w l -> places_go (index_at cfg w) blank [] [] = (m, own, Ok tt)) by (intro Ew; rewrite Ew; exact G).
  assert (Gc : cut_short w l -> places_go (index_at cfg w) blank [] [] = (m, own, Throw)).
  { intros (l1 & d & ps & bad & rest & El & Ew & Gb & Br). rewrite Ew. apply broken_places; [|exact Gb|exact Br|].
    - destruct (Gd (u_coll d) (Some ps)) as [_ Gp]; [rewrite El; unfold at_colls; rewrite map_app; apply in_app_iff; right; left; reflexivity|]. exact (proj2 (Gp ps eq_refl)).
    - rewrite El in E. unfold files in E |- *. rewrite map_app in E. exact E. }
  assert (Gx : exists r, places_go (index_at cfg w) blank [] [] = (m, own, r)) by (destruct Ei as [Ew|Ec]; eexists; [exact (Gw Ew)|exact (Gc Ec)]). destruct Gx as (r & Er). exists m, own, r. split; [exact Er|].
  assert (Rw : (whole w l -> r = Ok tt) /\ (cut_short w l -> r = Throw)) by (split; intro H; [apply Gw in H|apply Gc in H]; rewrite Er in H; apply pair_equal_spec in H; apply H).
  assert (Of : forall n, mget n m <> None <-> offered (at_colls l) n).
  { intro n. split.
    - intro Nn. destruct (mget n m) as [i|] eqn:Gn; [|contradiction]. destruct (Kf n i Gn) as (p & b & (l1 & c & ps1 & ps2 & l2 & El & R & _) & _). exists c, (ps1 ++ p :: ps2), p. split; [rewrite El; apply in_elt|]. split; [apply in_elt|exact R].
    - intros (c & ps & p & I & Ip & R). destruct (Kin n c ps p I Ip R) as (i & ->). discriminate. }
  split.
  - intros ->. destruct Ex as (n & O). apply Of in O. apply O. reflexivity.
  - split; [|exact Rw]. split; [exact Em|]. split; [exact E|]. split; [exact (parse_keyed _ _ [] m ltac:(constructor) Ed)|]. split; [|exact Of].
    intros n p before d Ln Ob. destruct Ln as (l1 & c & ps1 & ps2 & l2 & El & R & Rest). destruct (Kin n c (ps1 ++ p :: ps2) p) as (i & Gn); [rewrite El; apply in_elt|apply in_elt|exact R|].
    destruct (Kf n i Gn) as (q & b & Lq & F & A). destruct (last_named_unique (at_colls l) n p before q b) as [<- <-]; [exists l1, c, ps1, ps2, l2; split; [exact El|split; [exact R|exact Rest]]|exact Lq|].
    exists i. split; [exact Gn|]. split; [exact F|]. split; [exact A|]. split.
    + assert (N0 : forall x j, mget x (@nil (str * irec)) = Some j -> neat j) by (intros x j X; discriminate X). exact (parse_neat (indexes (at_colls l)) blank [] m neat_blank N0 Ed n i Gn).
    + destruct (K n) as [(d' & Of' & Go)|[No _]]; [rewrite (offered_unique _ _ _ _ Ob Of'); exact Go|]. exfalso. destruct Ob as (k1 & ps & x & k2 & Ek & Ix & Rx & _). apply (No d ps x); [rewrite Ek; apply in_elt|exact Ix|exact Rx].
Qed.
Lemma served w0 h w h2 l : last_read w0 h w h2 -> stocked w l -> exists m own, read_as l m own /\ held m own (added h2) (listed h2) (after w0 h).
Proof.
  intros Lr St. destruct (reading w l St) as (m & own & r & E & Ne & R & _). exists m, own. split; [exact R|]. apply (held_after w0 h w h2 m own Lr); [rewrite E; reflexivity|exact Ne].
Qed.
Lemma held_in m own A F o n : held m own A F o -> (mget n (b_map o) <> None <-> mget n m <> None \/ A n).
Proof.
  intros (_ & _ & _ & H4 & H5 & _). specialize (H4 n). specialize (H5 n). destruct (mget n m) as [i|].
  - rewrite (H4 i eq_refl). split; [left|]; discriminate.
  - specialize (H5 eq_refl). destruct (mget n (b_map o)); [split; [intros _; right; apply H5|discriminate]|split; [intro K; exfalso; apply K; reflexivity|intros [K|K]; [exfalso; apply K; reflexivity|destruct (H5 K)]]].
Qed.
Lemma held_look m own A F o n : held m own A F o -> look n o = match mget n m with Some i => i | None => blank end.
Proof.
  intros (_ & _ & _ & H4 & H5 & _). unfold look. specialize (H4 n). specialize (H5 n). destruct (mget n m) as [i|]; [rewrite (H4 i eq_refl); reflexivity|]. specialize (H5 eq_refl). destruct (mget n (b_map o)); [apply H5|reflexivity].
Qed.

Section Read.
Variables (w0 : rworld) (h : list (query * rworld)) (w : rworld) (h2 : list (query * rworld)) (l : shelves).
Hypothesis Hread : last_read w0 h w h2.
Hypothesis Hst : stocked w l.

(** Which names exist: those that the collections offered when the indexes were last read, and those that were asked about since. *)
Theorem C111_exists : forall n w', exists b, answer w0 h (Exists n) w' = Ok (ABool b) /\ (b = true <-> offered (at_colls l) n \/ added h2 n).
Proof.
  intros n w'. destruct (served w0 h w h2 l Hread Hst) as (m & own & (_ & _ & _ & _ & Of) & Hd). unfold answer. cbn [call]. rewrite after_load_held by apply Hd. cbn [snd]. eexists. split; [reflexivity|].
  rewrite <- Of, <- (held_in m own (added h2) (listed h2) _ n Hd). destruct (mget n (b_map (after w0 h))); split; intro K; [discriminate|reflexivity|discriminate K|exfalso; apply K; reflexivity].
Qed.
(** The list of the packages is those names, in order. *)
Theorem C111_all : forall w', exists k, answer w0 h All w' = Ok (ASet k) /\ ssorted k /\ forall n, In n k <-> offered (at_colls l) n \/ added h2 n.
Proof.
  intros w'. destruct (served w0 h w h2 l Hread Hst) as (m & own & (_ & _ & _ & _ & Of) & Hd). unfold answer. cbn [call]. rewrite after_load_held by apply Hd. cbn [snd]. eexists. split; [reflexivity|]. split; [apply Hd|].
  intro n. rewrite <- smem_In, keys_smem, (held_in m own (added h2) (listed h2) _ n Hd), Of. reflexivity.
Qed.
(** Of a package that is offered: where its archive is, its file, hash and signature are those of the index; its version is the last one read up to it. *)
Theorem C111_text : forall n p before d w', last_named (at_colls l) n p before -> offered_by l n d ->
  answer w0 h (Text Dir n) w' = Ok (AText (u_depot d ++ L "/" ++ u_coll d)) /\ answer w0 h (Text File n) w' = Ok (AText (gp_file p)) /\
  answer w0 h (Text Hash n) w' = Ok (AText (gp_hash p)) /\ answer w0 h (Text Sign n) w' = Ok (AText (gp_sig p)) /\
  answer w0 h (Text Version n) w' = Ok (AText (text (last_of "V" (before ++ gp_meta p)))).
Proof.
  intros n p before d w' Ln Ob. destruct (served w0 h w h2 l Hread Hst) as (m & own & (_ & _ & _ & Rd & _) & Hd). destruct (Rd n p before d Ln Ob) as (i & G & Fa & Ca & _ & Go). unfold answer. cbn [call]. rewrite !after_load_held by apply Hd. cbn [snd text_of_what].
  rewrite !(held_look _ _ _ _ _ n Hd), G. unfold dir_of. destruct Hd as (_ & -> & _). rewrite Go. split; [reflexivity|]. split; [rewrite (fa_file _ _ Fa); reflexivity|]. unfold i_text.
  rewrite (fa_hash _ _ Fa), (fa_sig _ _ Fa), (carried_last p before i "V" Ca) by (cbn; tauto). split; [reflexivity|]. split; reflexivity.
Qed.
(** Its numbers: each is unset when no line read so far gives it. The size of the archive is that of the index in 32 bits. *)
Theorem C111_num : forall n p before d w', last_named (at_colls l) n p before -> offered_by l n d ->
  answer w0 h (Num Release n) w' = Ok (ANum (match last_of "r" (before ++ gp_meta p) with Some v => match stoi_u16 v with Ok k => Some (Z.of_N k) | _ => None end | None => None end)) /\
  answer w0 h (Num BuildTime n) w' = Ok (ANum (option_map epoch (last_of "B" (before ++ gp_meta p)))) /\
  answer w0 h (Num Space n) w' = Ok (ANum (option_map (fun v => Z.of_N (atoi_u32 v)) (last_of "S" (before ++ gp_meta p)))) /\
  answer w0 h (Num Size n) w' = Ok (ANum (Some (Z.of_N (gp_size p mod 2 ^ 32)))).
Proof.
  intros n p before d w' Ln Ob. destruct (served w0 h w h2 l Hread Hst) as (m & own & (_ & _ & _ & Rd & _) & Hd). destruct (Rd n p before d Ln Ob) as (i & G & Fa & Ca & _ & Go). unfold answer. cbn [call]. rewrite !after_load_held by apply Hd. cbn [snd].
  rewrite !(held_look _ _ _ _ _ n Hd), G. cbn [num_of]. unfold i_release, i_build, i_space. rewrite (carried_last p before i "r" Ca), (carried_last p before i "B" Ca), (carried_last p before i "S" Ca) by (cbn; tauto).
  split; [destruct (last_of "r" (before ++ gp_meta p)) as [v|]; [destruct (stoi_u16 v)|]; reflexivity|]. split; [reflexivity|]. split; [destruct (last_of "S" (before ++ gp_meta p)); reflexivity|].
  pose proof (size_read p i 0 Fa) as Sz. destruct (i_size i) as [z|] eqn:Es; [|unfold i_size in Es; rewrite (fa_size _ _ Fa) in Es; discriminate Es]. cbn [known option_map] in *. f_equal. f_equal. f_equal.
  assert (Zp : (0 <= z)%Z). { unfold i_size in Es. destruct (i_val i "i"); [|discriminate Es]. cbn [option_map] in Es. injection Es as <-. apply Z.mod_pos_bound. reflexivity. }
  rewrite <- (Z2N.id z Zp), Sz. unfold read_size. cbv zeta. set (k := (gp_size p mod 2 ^ 32)%N). assert (Kb : (k < 2 ^ 32)%N) by (apply N.mod_lt; discriminate). clearbody k. clear - Kb.
  change (2 ^ 32)%Z with (Z.of_N (2 ^ 32)). rewrite <- N2Z.inj_mod. f_equal. destruct (N.ltb_spec k (2 ^ 31)) as [_|_]; [apply N.mod_small; exact Kb|].
  replace (2 ^ 64 - 2 ^ 32 + k)%N with (k + (2 ^ 32 - 1) * 2 ^ 32)%N by (change (2 ^ 64 - 2 ^ 32)%N with ((2 ^ 32 - 1) * 2 ^ 32)%N; apply N.add_comm). rewrite N.mod_add by discriminate. apply N.mod_small. exact Kb.
Qed.
(** Its libraries and its dependencies. *)
Theorem C111_lists : forall n p before d w', last_named (at_colls l) n p before -> offered_by l n d ->
  answer w0 h (Libs n) w' = Ok (ASet (all_of "l" (gp_meta p))) /\ exists ds, deps_of p ds /\ answer w0 h (Deps n) w' = Ok (ADeps ds).
Proof.
  intros n p before d w' Ln Ob. destruct (served w0 h w h2 l Hread Hst) as (m & own & (_ & _ & _ & Rd & _) & Hd). destruct (Rd n p before d Ln Ob) as (i & G & Fa & Ca & Ne & Go). unfold answer. cbn [call]. rewrite !after_load_held by apply Hd. cbn [snd].
  rewrite !(held_look _ _ _ _ _ n Hd), G. split; [rewrite (many_all p i "l" Ne Fa) by (cbn; tauto); reflexivity|]. exists (i_deps i). split; [split; [exact (proj2 Ne)|exact (fa_deps _ _ Fa)]|reflexivity].
Qed.
(** A name that nothing offers has nothing to say, asked about before or not. *)
Theorem C111_ghost : forall n w', ~ offered (at_colls l) n ->
  (forall f, answer w0 h (Text f n) w' = Ok (AText [])) /\ (forall f, answer w0 h (Num f n) w' = Ok (ANum None)) /\ answer w0 h (Libs n) w' = Ok (ASet []) /\ answer w0 h (Deps n) w' = Ok (ADeps []).
Proof.
  intros n w' No. destruct (served w0 h w h2 l Hread Hst) as (m & own & (_ & _ & _ & _ & Of) & Hd). assert (G : mget n m = None) by (destruct (mget n m) eqn:G; [exfalso; apply No, Of; rewrite G; discriminate|reflexivity]).
  assert (Lk : look n (after w0 h) = blank) by (rewrite (held_look _ _ _ _ _ n Hd), G; reflexivity). assert (Go : mget n (b_own (after w0 h)) = None).
  { destruct Hd as (_ & Eo & _ & _ & _ & Ho & _). rewrite Eo. destruct (mget n own) eqn:K; [|reflexivity]. exfalso. apply (Ho n); [rewrite K; discriminate|exact G]. }
  unfold answer. cbn [call]. split; [|split; [|split]].
  - intro f. rewrite after_load_held by apply Hd. cbn [snd]. destruct f; cbn [text_of_what]; unfold dir_of; rewrite ?Lk, ?Go; reflexivity.
  - intro f. rewrite after_load_held by apply Hd. cbn [snd]. rewrite Lk. destruct f; reflexivity.
  - rewrite after_load_held by apply Hd. cbn [snd]. rewrite Lk. reflexivity.
  - rewrite after_load_held by apply Hd. cbn [snd]. rewrite Lk. reflexivity.
Qed.
(** The members of a set; of a collection, when its name is not empty. *)
Theorem C111_sets : forall x w', exists k, answer w0 h (OfSet x) w' = Ok (ASet k) /\ ssorted k /\ forall n, In n k <-> in_set (at_colls l) x n.
Proof.
  intros x w'. destruct (served w0 h w h2 l Hread Hst) as (m & own & (Ep & _ & Ks & _) & Hd). unfold answer. cbn [call]. rewrite after_load_held by apply Hd. cbn [snd]. eexists. split; [reflexivity|]. split; [apply set_of_sorted|].
  intro n. rewrite <- (set_members_spec (at_colls l) m x n (proj1 (proj2 Hst)) Ep). unfold set_members at 1. rewrite (members_of _ (fun i => smem x (i_many i "s") && is_nil (i_text "g" i)) n) by apply Hd.
  unfold set_members. rewrite (members_of _ (fun i => smem x (i_many i "s") && is_nil (i_text "g" i)) n Ks). destruct Hd as (_ & _ & _ & H4 & H5 & _). split.
  - intros (i & G & P). destruct (mget n m) as [j|] eqn:Gm; [rewrite (H4 n j Gm) in G; injection G as <-; exists j; auto|]. specialize (H5 n Gm). rewrite G in H5. destruct H5 as [-> _]. discriminate P.
  - intros (i & G & P). exists i. split; [exact (H4 n i G)|exact P].
Qed.
Theorem C111_colls : forall x w', x <> [] -> exists k, answer w0 h (OfColl x) w' = Ok (ASet k) /\ ssorted k /\ forall n, In n k <-> in_collection (at_colls l) x n.
Proof.
  intros x w' Nx. destruct (served w0 h w h2 l Hread Hst) as (m & own & (Ep & _ & Ks & _) & Hd). unfold answer. cbn [call]. rewrite after_load_held by apply Hd. cbn [snd]. eexists. split; [reflexivity|]. split; [apply set_of_sorted|].
  intro n. rewrite <- (coll_members_spec (at_colls l) m x n (proj1 (proj2 Hst)) Ep). unfold coll_members. set (P := fun i => seqb (i_text "c" i) x && is_nil (i_text "g" i) && is_nil (i_text "n" i)).
  change (In n (set_of (map fst (filter (fun p : str * irec => P (snd p)) (b_map (after w0 h))))) <-> In n (set_of (map fst (filter (fun p : str * irec => P (snd p)) m)))).
  rewrite (members_of _ P n) by apply Hd. rewrite (members_of _ P n Ks). destruct Hd as (_ & _ & _ & H4 & H5 & _). split.
  - intros (i & G & Pi). destruct (mget n m) as [j|] eqn:Gm; [rewrite (H4 n j Gm) in G; injection G as <-; exists j; auto|]. specialize (H5 n Gm). rewrite G in H5. destruct H5 as [-> _]. exfalso. unfold P in Pi. apply andb_true_iff in Pi as [Pi _]. apply andb_true_iff in Pi as [Pi _]. apply seqb_eq in Pi. apply Nx. rewrite <- Pi. reflexivity.
  - intros (i & G & Pi). exists i. split; [exact (H4 n i G)|exact Pi].
Qed.
(** The report on a package that is offered is that of 'cards info -b' (C100). *)
Theorem C111_info : forall n p before d w', last_named (at_colls l) n p before -> offered_by l n d ->
  exists ds, deps_of p ds /\ answer w0 h (Info n) w' = Ok (AText (text_of (report date machine version j_rel j_build j_space n p before d ds))).
Proof.
  intros n p before d w' Ln Ob. destruct (served w0 h w h2 l Hread Hst) as (m & own & (_ & Er & _ & Rd & _) & Hd). destruct (Rd n p before d Ln Ob) as (i & G & _).
  destruct (C100_report date machine version j_rel j_build j_size j_space l n p before d (proj1 (proj2 Hst)) Ln Ob) as (m' & own' & ds & E' & D & R). rewrite Er in E'. injection E' as <- <-. exists ds. split; [exact D|].
  unfold answer. cbn [call]. rewrite after_load_held by apply Hd. destruct Hd as (_ & Eo & _ & H4 & _). rewrite (H4 n i G). cbn [snd]. rewrite <- R. unfold info_binary. rewrite G, (H4 n i G), Eo. reflexivity.
Qed.
(** For a name that is not known it is the report shown last by this object. *)
Lemma shown_frame q wq o : (forall k, q <> Info k) -> b_shown (fst (ask q wq o)) = b_shown o.
Proof.
  intro Nq. assert (Ld : forall o, b_shown (fst (load_repo cfg wq o)) = b_shown o) by (intro o1; unfold load_repo; destruct (b_map o1); [|reflexivity]; destruct (places_go (index_at cfg wq) blank [] []) as [[m own] r]; reflexivity).
  assert (Al : forall o f, (forall o1, b_shown (fst (f o1)) = b_shown o1) -> b_shown (fst (after_load cfg wq o f)) = b_shown o).
  { intros o1 f Hf. unfold after_load. specialize (Ld o1). destruct (load_repo cfg wq o1) as [o2 r]. cbn [fst] in Ld. destruct r; [|exact Ld|exact Ld]. specialize (Hf o2). destruct (f o2) as [o3 a3]. cbn [fst] in *. congruence. }
  assert (Tc : forall n o1, b_shown (touch n o1) = b_shown o1) by (intros n o1; apply touch_same).
  destruct q as [|n|t n|t n|n|n|n| |x|x|n|n| |]; cbn [call]; try (apply Al; intro o1; cbn [fst]; first [reflexivity|apply Tc]).
  - cbn [fst]. apply Tc.
  - destruct (Nq n eq_refl).
  - destruct (parse_files (files_at cfg wq) (b_files o)) as [m1| |]; [|reflexivity|reflexivity]. cbn [fst]. destruct (with_names_spec (keys m1) (Repo (b_map o) (b_own o) m1 (b_list o) (b_shown o))) as (_ & _ & _ & _ & E & _). exact E.
  - rewrite Al; [reflexivity|]. reflexivity.
Qed.
End Read.

(** Every later report on a name that is not known repeats the last one. *)
Theorem C111_info_last : forall w0 k n wk w' h1 h2 wr hr l, (forall q w, In (q, w) h2 -> forall x, q <> Info x) ->
  last_read w0 (h1 ++ (Info k, wk) :: h2) wr hr -> stocked wr l -> ~ offered (at_colls l) n -> ~ added hr n ->
  forall t, answer w0 h1 (Info k) wk = Ok (AText t) -> answer w0 (h1 ++ (Info k, wk) :: h2) (Info n) w' = Ok (AText t).
Proof.
  intros w0 k n wk w' h1 h2 wr hr l Nh Lr St No Na t Ht. destruct (served w0 _ wr hr l Lr St) as (m & own & (_ & _ & _ & _ & Of) & Hd). unfold answer. set (o := after w0 (h1 ++ (Info k, wk) :: h2)) in *. cbn [call]. rewrite after_load_held by apply Hd.
  destruct (mget n (b_map o)) as [i|] eqn:G.
  - exfalso. assert (X : mget n (b_map o) <> None) by (rewrite G; discriminate). apply (held_in _ _ _ _ _ n Hd) in X. rewrite Of in X. destruct X; contradiction.
  - cbn [snd]. f_equal. f_equal. unfold o. rewrite after_app. cbn [calls].
    assert (Sf : forall h3 o1, (forall q w, In (q, w) h3 -> forall x, q <> Info x) -> b_shown (calls cfg date machine version j_rel j_build j_size j_space h3 o1) = b_shown o1).
    { induction h3 as [|[q wq] h3 IH]; intros o1 H; [reflexivity|]. cbn [calls]. rewrite IH; [apply shown_frame; intro x; apply (H q wq); left; reflexivity|]. intros q1 w1 I1. apply (H q1 w1). right. exact I1. }
    rewrite Sf by exact Nh. unfold answer in Ht. cbn [call] in Ht |- *. unfold after_load in Ht |- *. destruct (load_repo cfg wk (after w0 h1)) as [o1 r]. destruct r; [|discriminate Ht|discriminate Ht].
    destruct (mget k (b_map o1)); cbn [fst snd b_shown] in *; injection Ht as Ht; exact Ht.
Qed.
End Obj.
