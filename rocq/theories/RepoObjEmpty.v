(** C111: indexes that are not there yet, and indexes that are broken *)
From Verif Require Import Base BaseProofs StrModel StrSpec StrProofs RulesModel FsModel FsProofs MetaModel MetaSpec MetaProofs DbModel DbSpec DbFacts GenDeps GenDepsProofs GenDepsProps HexModel FilesModel.
From Verif Require FilesProps.
From Verif Require Import IndexModel IndexProofs IndexProps FetchModel ConfModel DiffModel SizeModel DiffAmounts InstallModel IndexExact OrderProps InfoModel InfoProps InfoMembers RepoObjModel RepoObjProps RepoObjMore RepoObjGroup.
From Coq Require Import ZArith Lia.
Open Scope nat_scope.

Section Empty.
Variable cfg : list dirurl.
Variables (date : Z -> str) (machine version : str) (j_rel : N) (j_build : Z) (j_size j_space : N).
Notation ask := (call cfg date machine version j_rel j_build j_size j_space).
Notation run := (calls cfg date machine version j_rel j_build j_size j_space).
Notation after := (after cfg date machine version j_rel j_build j_size j_space).
Notation answer := (answer cfg date machine version j_rel j_build j_size j_space).
Notation added := (added cfg).
Notation stocked := (stocked cfg).
Notation opens := (opens cfg).

(** ** specification *)
(** no index can be opened: nothing has been downloaded yet *)
Definition bare (w : rworld) : Prop := forall d, In d cfg -> w_index w d = None.
(** a question about all packages, not about one *)
Definition quiet (q : query) : Prop := (forall n, ~ mentions q n) /\ q <> Read_files.

Lemma bare_go w : bare w -> places_go (index_at cfg w) blank [] [] = ([], [], Ok tt).
Proof.
  unfold bare, index_at. intro B. generalize blank. induction cfg as [|d t IH]; intro i; [reflexivity|]. cbn [map places_go]. cbv zeta. rewrite (B d (or_introl eq_refl)). apply IH. intros x I. apply B. right. exact I.
Qed.
Lemma bare_load w : bare w -> load_repo cfg w empty_repo = (empty_repo, Ok tt).
Proof. intro B. unfold load_repo. cbn [b_map empty_repo]. rewrite (bare_go w B). reflexivity. Qed.
Lemma bare_ask w q : bare w -> quiet q -> fst (ask q w empty_repo) = empty_repo.
Proof.
  intros B [Nm Nf]. destruct q as [|n|t n|t n|n|n|n| |x|x|n|n| |]; cbn [call]; unfold after_load; rewrite ?(bare_load w B); cbn [b_list b_shown empty_repo]; try reflexivity.
  - destruct (Nm n eq_refl).
  - destruct (Nm n eq_refl).
  - destruct (Nm n eq_refl).
  - destruct (Nm n eq_refl).
  - destruct (Nm n eq_refl).
  - contradiction.
  - change (Repo [] [] [] [] []) with empty_repo. rewrite (bare_load w B). reflexivity.
Qed.
Definition unread (h : list (query * rworld)) : Prop := forall q w, In (q, w) h -> bare w /\ quiet q.
Lemma bare_after w0 h : bare w0 -> unread h -> after w0 h = empty_repo.
Proof.
  intros B H. unfold RepoObjProps.after, open_repo. rewrite (bare_load w0 B). cbn [fst]. revert H. induction h as [|[q w] t IH]; intro H; [reflexivity|]. cbn [calls]. destruct (H q w (or_introl eq_refl)) as [Bw Q]. rewrite (bare_ask w q Bw Q). apply IH. intros q1 w1 I. apply H. right. exact I.
Qed.
Lemma load_again w : forall o r, load_repo cfg w empty_repo = (o, r) -> load_repo cfg w o = (o, match b_map o with [] => r | _ => Ok tt end).
Proof.
  unfold load_repo. cbn [b_map empty_repo b_files b_list b_shown]. destruct (places_go (index_at cfg w) blank [] []) as [[m own] r1]. intros o r E. apply pair_equal_spec in E as [<- <-]. cbn [b_map b_own b_files b_list b_shown]. destruct m; reflexivity.
Qed.

(** An object made before anything was downloaded, and asked about all packages since, reads the indexes when they are there: every question that reads
    them is answered as by a new object. *)
Theorem C111_waiting : forall w0 h q w, bare w0 -> unread h -> opens w -> (forall n, q <> Paths n) -> q <> Read_files -> answer w0 h q w = answer w [] q w.
Proof.
  intros w0 h q w B H Op Np Nr. unfold RepoObjProps.answer. rewrite (bare_after w0 h B H). unfold RepoObjProps.after, RepoObjProps.opens, open_repo in *. cbn [calls].
  destruct (load_repo cfg w empty_repo) as [o1 r] eqn:E. cbn [fst snd] in *. subst r. pose proof (load_again w o1 (Ok tt) E) as E1. assert (E2 : load_repo cfg w o1 = (o1, Ok tt)) by (rewrite E1; destruct (b_map o1); reflexivity).
  assert (Sh : b_list o1 = [] /\ b_shown o1 = []) by (unfold load_repo in E; cbn [b_map empty_repo b_files b_list b_shown] in E; destruct (places_go (index_at cfg w) blank [] []) as [[m own] r1]; apply pair_equal_spec in E as [<- _]; split; reflexivity).
  destruct q as [|n|t n|t n|n|n|n| |x|x|n|n| |]; cbn [call]; unfold after_load; rewrite ?E, ?E2; try reflexivity.
  - destruct (Np n eq_refl).
  - contradiction.
  - destruct Sh as [-> ->]. change (Repo [] [] [] (b_list empty_repo) (b_shown empty_repo)) with empty_repo. change (Repo [] [] [] [] []) with empty_repo. rewrite E. reflexivity.
Qed.

(** But a question about one package [n], whatever it is, makes it keep its view of the collections: from then on, until refresh() is called, it knows
    that name and the names asked about since, and no package that is offered. *)
Theorem C111_poison : forall w0 h1 q w1 n h3, bare w0 -> unread h1 -> bare w1 -> mentions q n -> (forall w, ~ In (Refresh, w) h3) -> let h := h1 ++ (q, w1) :: h3 in
  forall w, (forall k, exists b, answer w0 h (Exists k) w = Ok (ABool b) /\ (b = true <-> k = n \/ added h3 k)) /\
    (exists k, answer w0 h All w = Ok (ASet k) /\ ssorted k /\ forall x, In x k <-> x = n \/ added h3 x) /\
    forall k, (forall f, answer w0 h (Text f k) w = Ok (AText [])) /\ (forall f, answer w0 h (Num f k) w = Ok (ANum None)) /\ answer w0 h (Deps k) w = Ok (ADeps []).
Proof.
  intros w0 h1 q w1 n h3 B U B1 Mq Nr h w. assert (S1 : fst (ask q w1 empty_repo) = touch n empty_repo).
  { destruct q as [|k|t k|t k|k|k|k| |x|x|k|k| |]; cbn [mentions] in Mq; try contradiction; subst k; cbn [call]; unfold after_load; rewrite ?(bare_load w1 B1); reflexivity. }
  assert (Hd : RepoObjProps.held [(n, blank)] [] (fun k => False \/ added h3 k) (fun k f => False \/ RepoObjProps.listed cfg h3 k f) (after w0 h)).
  { unfold h. rewrite after_app. cbn [calls]. rewrite (bare_after w0 h1 B U), S1. apply calls_held; [exact Nr|]. unfold RepoObjProps.held. change (b_map (touch n empty_repo)) with [(n, blank)]. change (b_own (touch n empty_repo)) with (@nil (str * dirurl)). change (b_files (touch n empty_repo)) with (@nil (str * list str)).
    split; [repeat constructor|]. split; [reflexivity|]. split; [discriminate|]. split; [auto|]. split; [intros k N; rewrite N; auto|]. split; [intros k K; exfalso; apply K; reflexivity|]. split; [intros k f; split; [intros []|intros []]|]. split; [intros k K; exfalso; apply K; reflexivity|]. intro k. constructor. }
  set (o := after w0 h) in *. assert (Mn : forall k, mget k [(n, blank)] <> None <-> k = n) by (intro k; cbn [mget]; destruct (seqb_spec k n); split; intro K; [assumption|discriminate|exfalso; apply K; reflexivity|contradiction]).
  assert (In1 : forall k, mget k (b_map o) <> None <-> k = n \/ added h3 k) by (intro k; rewrite (held_in _ _ _ _ _ k Hd), Mn; tauto).
  assert (Lk : forall k, look k o = blank) by (intro k; rewrite (held_look _ _ _ _ _ k Hd); cbn [mget]; destruct (seqb k n); reflexivity).
  assert (Go : forall k, dir_of k o = []) by (intro k; unfold dir_of; destruct Hd as (_ & -> & _); reflexivity).
  assert (Ne : b_map o <> []) by apply Hd. assert (Hk : ssorted (keys (b_map o))) by apply Hd.
  assert (Ask : forall f, after_load cfg w o f = let '(o2, a) := f o in (o2, Ok a)) by (intro f; exact (after_load_held cfg f Ne)). unfold RepoObjProps.answer. fold o. cbn [call]. rewrite !Ask. cbn [snd]. split; [|split].
  - intro k. rewrite Ask. cbn [snd]. eexists. split; [reflexivity|]. rewrite <- In1. destruct (mget k (b_map o)); split; intro K; [discriminate|reflexivity|discriminate K|exfalso; apply K; reflexivity].
  - eexists. split; [reflexivity|]. split; [exact Hk|]. intro x. rewrite <- In1, <- smem_In. apply keys_smem.
  - intro k. rewrite !Ask. cbn [snd]. split; [|split; [|rewrite Lk; reflexivity]].
    + intro f. rewrite Ask. cbn [snd]. destruct f; cbn [text_of_what]; rewrite ?Lk, ?Go; reflexivity.
    + intro f. rewrite Ask. cbn [snd]. rewrite Lk. destruct f; reflexivity.
Qed.

(** refresh() and the constructor succeed when every record can be read, and throw at the first that cannot; what had been read up to it is kept, and
    every later question is answered from it (the theorems about [stocked] worlds). *)
Theorem C111_refresh : forall w0 h w l, stocked w l -> (whole cfg w l -> answer w0 h Refresh w = Ok ADone /\ opens w) /\ (cut_short cfg w l -> answer w0 h Refresh w = Throw /\ ~ opens w).
Proof.
  intros w0 h w l St. destruct (reading cfg w l St) as (m & own & r & E & _ & _ & Rw & Rc). unfold RepoObjProps.answer, RepoObjProps.opens, open_repo. cbn [call]. unfold after_load, load_repo. cbn [b_map empty_repo]. rewrite E. split; intro H.
  - rewrite (Rw H). split; reflexivity.
  - rewrite (Rc H). split; [reflexivity|]. intro K. discriminate K.
Qed.
End Empty.
