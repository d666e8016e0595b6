(** C108: non-trivial cases, and what an object that lives on gets wrong. *)
From Verif Require Import Base BaseProofs StrModel RulesModel FsModel MetaModel DbModel DbSpec DbInv DbExamples RemoveProps RemoveCmdProofs RemoveCmdExamples DbProps ObjModel ObjProps.
From Coq Require Import ZArith.

(** app, lib and old installed (RemoveCmdExamples); then old removed *)
Definition d_app : disk := w_db w_app.
Definition d_less : disk := mdel (L "old") d_app.
Definition d_none : disk := [].
Lemma app_something : ~ nothing d_app.
Proof. intro H. apply (H (L "app")), is_installed. dec. Qed.
Lemma app_readable n : In n [L "app"; L "lib"; L "old"] -> readable d_app n.
Proof.
  intros I dir c G M. destruct I as [<-|[<-|[<-|[]]]];
    (match type of G with mget ?k _ = _ => assert (X : match mget k d_app with Some d => match mget (L "META") d with Some x => match parse_lines x with Some _ => true | None => false end | None => true end | None => true end = true) by dec end;
     rewrite G, M in X; destruct (parse_lines c); [discriminate|discriminate X]).
Qed.
(** the object that looks before anything is installed, then when three packages are, keeps these three; fields are read afresh *)
Definition h_case : list (query * disk) := [(Names, d_none); (Item "V" (L "app"), d_app); (Count, d_app); (Names, d_none)].
Example C108_case :
  first_look h_case d_app /\ answer h_case Names d_none = Ok (ASet [L "app"; L "lib"; L "old"]) /\ answer h_case Count d_none = Ok (ANum 3) /\
  readable d_app (L "app") /\ answer h_case (Item "V" (L "app")) d_app = Ok (AText (L "1")) /\ answer h_case (Item "V" (L "app")) d_none = Ok (AText []) /\
  (forall q1 d1, In (q1, d1) h_case -> ~ loads q1) /\ loading (Build true) true /\ answer h_case (Build true) d_app = Ok ADone /\ first_look (h_case ++ [(Build true, d_app)]) d_app /\
  answer (h_case ++ [(Build true, d_app); (Names, d_none)]) (HasFile (L "r/li")) d_none = Ok (ABool true) /\
  answer (h_case ++ [(Build true, d_app); (Names, d_none)]) (HasFile (L "li/")) d_none = Ok (ABool false) /\
  answer (h_case ++ [(Build true, d_app); (Names, d_none)]) (Known (L "lib")) d_none = Ok (ABool true) /\
  answer (h_case ++ [(Build true, d_app)]) (Files (L "lib")) d_app = Ok (ASet [L "usr/"; L "usr/lib"]) /\
  answer (h_case ++ [(Build true, d_app)]) (Items "c" (L "lib")) d_app = Ok (ASet [L "main"]).
Proof.
  assert (Fl : forall t, first_look (h_case ++ t) d_app).
  { intro t. exists [(Names, d_none); (Item "V" (L "app"), d_app)], Count, ((Names, d_none) :: t). split; [reflexivity|]. split; [exact Logic.I|]. split; [exact app_something|].
    intros q1 d1 [E|[E|[]]] A; apply pair_equal_spec in E; destruct E as [<- <-]; [intros n [_ K]; apply K; reflexivity|destruct A]. }
  split; [rewrite <- (app_nil_r h_case); apply Fl|]. split; [dec|]. split; [dec|]. split; [apply app_readable; left; reflexivity|]. split; [dec|]. split; [dec|].
  split; [intros q1 d1 I; destruct I as [E|[E|[E|[E|[]]]]]; apply pair_equal_spec in E; destruct E as [<- <-]; intros []|]. split; [constructor|]. split; [dec|]. split; [apply Fl|]. split; [dec|]. split; [dec|]. split; [dec|]. split; [dec|]. dec.
Qed.
(** another program removes a package: the object still names it, and has no version for it *)
Theorem C108_stale_refuted : exists h d n, answer h Names d = Ok (ASet [L "app"; L "lib"; n]) /\ ~ installed d n /\ answer h (Item "V" n) d = Ok (AText []).
Proof. exists [(Names, d_app)], d_less, (L "old"). split; [dec|]. split; [|dec]. intros [_ K]. apply K. dec. Qed.
(** and then the packages cannot be loaded at all *)
Theorem C108_stale_load_refuted : exists h d, load false d <> Throw /\ answer h (Build true) d = Throw /\ answer [] (Build true) d = Ok ADone.
Proof. exists [(Names, d_app)], d_less. split; [|split; dec]. assert (X : match load false d_less with Throw => false | _ => true end = true) by dec. intro K. rewrite K in X. discriminate X. Qed.
(** the failure is reported once: the second attempt says nothing, and the file of the package that could not be read is not found, although the database is whole again *)
Definition d_half : disk := mset (L "lib") (mdel (L "files") (match mget (L "lib") d_app with Some dir => dir | None => [] end)) d_app.
Lemma half_same n : n <> L "lib" -> mget n d_half = mget n d_app.
Proof. intro N. unfold d_half. rewrite mget_mset. apply seqb_neq in N. rewrite N. reflexivity. Qed.
Example C108_half_case : (forall k, In k ([L "app"] ++ L "lib" :: [L "old"]) <-> installed d_half k) /\ sane d_half (L "app") /\ readable d_half (L "lib") /\ broken d_half (L "lib") /\
  answer [(Build true, d_half)] (Known (L "lib")) d_half = Ok (ABool true) /\ answer [(Build true, d_half)] (Known (L "old")) d_half = Ok (ABool false).
Proof.
  split; [|split; [|split; [|split; [left; dec|split; dec]]]].
  - intro k. assert (E : names_of d_half = [L "app"] ++ L "lib" :: [L "old"]) by dec. rewrite <- E. apply names_of_spec.
  - split; [|split].
    + intros dir c G M. rewrite half_same in G by discriminate. apply (app_readable (L "app") (or_introl eq_refl) dir c G M).
    + assert (X : match list_of d_half (L "app") with Some _ => true | None => false end = true) by dec. destruct (list_of d_half (L "app")); [discriminate|discriminate X].
    + intros v (dir & c & ls & G & M & P & I). assert (X : match mget (L "app") d_half with Some d => match mget (L "META") d with Some x => match parse_lines x with Some l => forallb (fun s => negb (has_tag "R" s) || (10 <=? length s)) l | None => true end | None => true end | None => true end = true) by dec.
      rewrite G, M, P in X. rewrite forallb_forall in X. specialize (X _ I). cbn [has_tag] in X. rewrite ceqb_refl in X. cbn [negb orb] in X. apply Nat.leb_le in X. cbn [List.length] in X. lia.
  - intros dir c G M. assert (X : match mget (L "lib") d_half with Some d => match mget (L "META") d with Some x => match parse_lines x with Some _ => true | None => false end | None => true end | None => true end = true) by dec.
    rewrite G, M in X. destruct (parse_lines c); [discriminate|discriminate X].
Qed.
Theorem C108_half_refuted : exists h d s x n, answer h (Build true) d = Ok ADone /\ installed d n /\ lists d n x /\ occurs s x /\ answer (h ++ [(Build true, d)]) (HasFile s) d = Ok (ABool false).
Proof.
  exists [(Build true, d_half)], d_app, (L "usr/lib"), (L "usr/lib"), (L "lib"). split; [dec|]. split; [apply is_installed; dec|].
  assert (X : match mget (L "lib") d_app with Some dir => match mget (L "files") dir with Some c => smem (L "usr/lib") (getlines c) | None => false end | None => false end = true) by dec.
  split; [|split; [exists [], []; reflexivity|dec]].
  destruct (mget (L "lib") d_app) as [dir|] eqn:G; [|discriminate X]. destruct (mget (L "files") dir) as [c|] eqn:F; [|discriminate X]. exists dir, c. split; [exact G|]. split; [exact F|]. split; [apply smem_In, X|discriminate].
Qed.
(** two version lines: the query gives the least, the loaded record the greatest *)
Definition d_two : disk := [(L "foo", [(L "META", L "V1" ++ [nl] ++ L "V2" ++ [nl]); (L "files", [])])].
Theorem C108_two_refuted : exists m r, load false d_two = Ok m /\ mget (L "foo") (m_pkgs m) = Some r /\ r_version r = L "2" /\ answer [] (Item "V" (L "foo")) d_two = Ok (AText (L "1")).
Proof. eexists _, _. split; [vm_compute; reflexivity|]. split; [vm_compute; reflexivity|]. split; dec. Qed.
(** asked for the files of a name nobody has, the object throws; from then on the name exists *)
Theorem C108_asked_refuted : answer [(Build true, d_app)] (Known (L "ghost")) d_app = Ok (ABool false) /\ answer [(Build true, d_app)] (Files (L "ghost")) d_app = Throw /\
  answer [(Build true, d_app); (Files (L "ghost"), d_app)] (Known (L "ghost")) d_app = Ok (ABool true).
Proof. split; [dec|]. split; dec. Qed.
Example C108_without_case : (forall q1 d1, In (q1, d1) (@nil (query * disk)) -> ~ loads q1) /\ answer [] (Build false) d_app = Ok ADone /\ first_look ([] ++ [(Build false, d_app)]) d_app /\
  answer ([] ++ (Build false, d_app) :: [(Build true, d_app)]) (HasFile (L "usr/lib")) d_app = Ok (ABool false).
Proof.
  split; [intros ? ? []|]. split; [dec|]. split; [|dec]. exists [], (Build false), []. split; [reflexivity|]. split; [exact Logic.I|]. split; [exact app_something|intros ? ? []].
Qed.
Example C108_agree_case : exists m r, load false d_app = Ok m /\ mget (L "lib") (m_pkgs m) = Some r /\ r_version r = L "1" /\ answer [] (Item "V" (L "lib")) d_app = Ok (AText (L "1")).
Proof. eexists _, _. split; [vm_compute; reflexivity|]. split; [vm_compute; reflexivity|]. split; dec. Qed.
Print Assumptions C108_stale_refuted. Print Assumptions C108_half_refuted. Print Assumptions C108_asked_refuted.
