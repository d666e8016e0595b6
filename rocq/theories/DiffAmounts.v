(** C79: the amounts that 'cards diff' and 'cards upgrade' announce (diff.cxx:72-105, 250-281). *)
From Verif Require Import Base BaseProofs StrModel StrProofs MetaModel MetaProofs FsProofs DbModel DbLoad DbInv IndexModel DiffModel DiffProps.
From Coq Require Import ZArith NArith Lia.
Open Scope N_scope.

(** ** the model *)
(** pkgrepo.cxx:452-453: unsigned int *)
Definition i_space (i : irec) : option N := option_map atoi_u32 (i_val i "S"%char).
(** pkgrepo.h:19-31: the amounts of struct m_package, unsigned int; [js], [jz]: space and size in the index when there was none *)
Record amounts := Am { am_status : upg; am_inst : N; am_avail : N; am_size : N }.
(** diff.cxx:27-66: the amounts are zeroed at the beginning of the turn and set only for packages to be upgraded; getSize truncates to 32 bits (pkgrepo.cxx:729-733) *)
Definition am_turn (j : junk) (js jz : str -> N) (repo : list (str * irec)) (m : mem) (p : str * rec) : amounts :=
  match classify j repo m p with
  | UOut => match mget (fst p) repo with
            | Some i => Am UOut (known (j_space j (fst p)) (r_space (snd p))) (known (js (fst p)) (i_space i)) (Z.to_N (known (Z.of_N (jz (fst p))) (i_size i)) mod 2 ^ 32)
            | None => Am UOut 0 0 0
            end
  | UNew => match mget (fst p) repo with
            | Some i => Am UNew (known (j_space j (fst p)) (r_space (snd p))) (known (js (fst p)) (i_space i)) (Z.to_N (known (Z.of_N (jz (fst p))) (i_size i)) mod 2 ^ 32)
            | None => Am UNew 0 0 0
            end
  | u => Am u 0 0 0
  end.
Definition deal (j : junk) (js jz : str -> N) (repo : list (str * irec)) (m : mem) : list (str * amounts) :=
  fold_left (fun acc p => mset (fst p) (am_turn j js jz repo m p) acc) (m_pkgs m) [].
(** the three loops: unsigned long *)
Definition total (f : amounts -> N) (l : list (str * amounts)) : N := fold_left (fun v p => (v + f (snd p)) mod 2 ^ 64) l 0.
(** diff.cxx:72-83 *)
Definition downloadSize := total (fun a => match am_status a with UOut | UNew => am_size a | _ => 0 end).
(** diff.cxx:84-94 *)
Definition addSize := total (fun a => match am_status a with UOut | UNew => am_avail a | _ => 0 end).
(** diff.cxx:95-105: no package has the status of a conflict *)
Definition removeSize := total (fun a => match am_status a with UObs | UOut | UNew => am_inst a | _ => 0 end).

(** ** specification: [l] lists the packages of which [P] holds, each once *)
Definition all_of (P : str -> Prop) (l : list str) : Prop := NoDup l /\ forall n, In n l <-> P n.
Definition upgraded (j : junk) (repo : list (str * irec)) (m : mem) (n : str) : Prop := exists r, mget n (m_pkgs m) = Some r /\ (class j repo n r UOut \/ class j repo n r UNew).
Definition removed (j : junk) (repo : list (str * irec)) (m : mem) (n : str) : Prop := exists r, mget n (m_pkgs m) = Some r /\ class j repo n r UObs.
Definition sum (f : str -> N) (l : list str) : N := fold_right (fun n v => f n + v) 0 l.

(** ** proofs *)
Lemma sum_perm f l l' : NoDup l -> NoDup l' -> (forall n, In n l <-> In n l') -> sum f l = sum f l'.
Proof.
  revert l'. induction l as [|a l IH]; intros l' N N' H.
  - destruct l' as [|b l']; [reflexivity|]. destruct (proj2 (H b) (or_introl eq_refl)).
  - destruct (in_split a l' (proj1 (H a) (or_introl eq_refl))) as (l1 & l2 & ->). pose proof (NoDup_cons_iff a l) as Nc. apply Nc in N. destruct N as [Na N].
    pose proof (NoDup_remove_1 _ _ _ N') as N1. pose proof (NoDup_remove_2 _ _ _ N') as N2.
    assert (E : sum f (l1 ++ a :: l2) = f a + sum f (l1 ++ l2)). { clear. induction l1 as [|b l1 IH]; [reflexivity|]. cbn [app sum fold_right]. unfold sum in IH. rewrite IH. lia. }
    rewrite E. cbn [sum fold_right]. f_equal. apply IH; [exact N|exact N1|]. intro n. split; intro J.
    + assert (X : In n (l1 ++ a :: l2)) by (apply H; right; exact J). apply in_app_iff in X. apply in_app_iff. destruct X as [X|[<-|X]]; [left; exact X|contradiction|right; exact X].
    + assert (X : In n (a :: l)). { apply H. apply in_app_iff in J. apply in_app_iff. destruct J as [J|J]; [left; exact J|right; right; exact J]. }
      destruct X as [<-|X]; [contradiction|exact X].
Qed.
Lemma total_mod f l : forall v, fold_left (fun v p => (v + f (snd p)) mod 2 ^ 64) l (v mod 2 ^ 64) = (v + fold_right (fun (p : str * amounts) v => f (snd p) + v) 0 l) mod 2 ^ 64.
Proof.
  induction l as [|p l IH]; intro v; cbn [fold_left fold_right]; [rewrite N.add_0_r; reflexivity|]. rewrite N.add_mod_idemp_l by discriminate. rewrite IH. f_equal. lia.
Qed.
Section Am.
  Variables (jk : bool) (d : disk) (m : mem) (j : junk) (js jz : str -> N) (repo : list (str * irec)).
  Hypothesis El : load jk d = Ok m.
  Hypothesis J : junk_ok j.
  Lemma deal_get n : mget n (deal j js jz repo m) = match mget n (m_pkgs m) with Some r => Some (am_turn j js jz repo m (n, r)) | None => None end.
  Proof.
    pose proof (ssorted_NoDup _ (load_keys jk d m El)) as N. unfold deal.
    assert (G : forall l acc, NoDup (keys l) -> mget n (fold_left (fun acc p => mset (fst p) (am_turn j js jz repo m p) acc) l acc) =
      match mget n l with Some r => Some (am_turn j js jz repo m (n, r)) | None => mget n acc end).
    { clear. induction l as [|[k r] l IH]; intros acc N; [reflexivity|]. cbn [fold_left fst]. unfold keys in N. cbn [map fst] in N. apply NoDup_cons_iff in N. destruct N as [Nk N]. rewrite IH by exact N.
      cbn [mget]. destruct (seqb n k) eqn:B.
      - apply seqb_eq in B. subst k. assert (Z : mget n l = None). { destruct (mget n l) as [r'|] eqn:G; [|reflexivity]. exfalso. apply Nk. apply mget_In in G. apply (in_map fst) in G. exact G. }
        rewrite Z, mget_mset, seqb_refl. reflexivity.
      - destruct (mget n l); [reflexivity|]. rewrite mget_mset, B. reflexivity. }
    rewrite (G (m_pkgs m) [] N). destruct (mget n (m_pkgs m)); reflexivity.
  Qed.
  Lemma deal_keys : NoDup (keys (deal j js jz repo m)).
  Proof.
    apply ssorted_NoDup. unfold deal. assert (G : forall l (acc : list (str * amounts)), ssorted (keys acc) -> ssorted (keys (fold_left (fun acc p => mset (fst p) (am_turn j js jz repo m p) acc) l acc))).
    { induction l as [|p l IH]; intros acc S; [exact S|]. cbn [fold_left]. apply IH. apply mset_keys_sorted. exact S. }
    apply G. constructor.
  Qed.
  Lemma total_sum f (P : str -> Prop) (st : str -> bool) (g : str -> N) l :
    (forall n r, mget n (m_pkgs m) = Some r -> (st n = true <-> P n)) -> (forall n, P n -> mget n (m_pkgs m) <> None) ->
    (forall n r, mget n (m_pkgs m) = Some r -> f (am_turn j js jz repo m (n, r)) = if st n then g n else 0) ->
    all_of P l -> sum g l < 2 ^ 64 -> total f (deal j js jz repo m) = sum g l.
  Proof.
    intros H1 H2 H3 [Nl Hl] B. unfold total. change 0 with (0 mod 2 ^ 64) at 1. rewrite (total_mod f _ 0), N.add_0_l.
    assert (E : fold_right (fun (p : str * amounts) v => f (snd p) + v) 0 (deal j js jz repo m) = sum g l); [|rewrite E; apply N.mod_small; exact B]. clear B.
    assert (Q : forall q, (forall n a, In (n, a) q -> In (n, a) (deal j js jz repo m)) -> fold_right (fun (p : str * amounts) v => f (snd p) + v) 0 q = sum g (filter st (keys q))).
    { induction q as [|[n a] q IH]; intro Hq; [reflexivity|]. cbn [fold_right snd]. rewrite IH by (intros k b Hk; apply Hq; right; exact Hk). unfold keys. cbn [map fst filter]. fold (keys q).
      pose proof (In_mget n a _ deal_keys (Hq n a (or_introl eq_refl))) as G. rewrite deal_get in G. destruct (mget n (m_pkgs m)) as [r|] eqn:Gr; [|discriminate G]. injection G as <-. rewrite (H3 n r Gr). destruct (st n); [reflexivity|apply N.add_0_l]. }
    rewrite Q by auto. apply sum_perm; [apply NoDup_filter; exact deal_keys|exact Nl|]. intro n. rewrite filter_In, Hl. split.
    - intros [K S]. assert (G : mget n (deal j js jz repo m) <> None). { intro G. apply mget_None in G. contradiction. }
      rewrite deal_get in G. destruct (mget n (m_pkgs m)) as [r|] eqn:Gr; [|contradiction]. apply (H1 n r Gr). exact S.
    - intro Pn. destruct (mget n (m_pkgs m)) as [r|] eqn:Gr; [|destruct (H2 n Pn Gr)]. split; [|apply (H1 n r Gr); exact Pn].
      assert (G : mget n (deal j js jz repo m) = Some (am_turn j js jz repo m (n, r))) by (rewrite deal_get, Gr; reflexivity). apply mget_In in G. apply (in_map fst) in G. exact G.
  Qed.
  Definition due_b (n : str) : bool := match mget n (m_pkgs m) with Some r => match classify j repo m (n, r) with UOut | UNew => true | _ => false end | None => false end.
  Lemma due_b_spec n r : mget n (m_pkgs m) = Some r -> (due_b n = true <-> upgraded j repo m n).
  Proof.
    intro G. unfold due_b, upgraded. rewrite G. pose proof (classify_class j repo m n r (ssorted_NoDup _ (load_keys jk d m El)) (mget_In _ _ _ G) J (load_rels jk d m El)) as C. split.
    - intro H. exists r. split; [reflexivity|]. destruct (classify j repo m (n, r)); try discriminate H; [left|right]; exact C.
    - intros (r' & E & H). injection E as <-. destruct H as [H|H]; rewrite (class_unique j repo n r _ _ C H); reflexivity.
  Qed.
  Lemma upgraded_there n : upgraded j repo m n -> mget n (m_pkgs m) <> None.
  Proof. intros (r & E & _) H. congruence. Qed.
  Lemma due_turn n r : mget n (m_pkgs m) = Some r -> exists i, (due_b n = true -> mget n repo = Some i) /\
    am_turn j js jz repo m (n, r) = if due_b n then Am (classify j repo m (n, r)) (known (j_space j n) (r_space r)) (known (js n) (i_space i)) (Z.to_N (known (Z.of_N (jz n)) (i_size i)) mod 2 ^ 32) else Am (classify j repo m (n, r)) 0 0 0.
  Proof.
    intro G. unfold due_b, am_turn. rewrite G. destruct (mget n repo) as [i|] eqn:Gi.
    - exists i. split; [reflexivity|]. destruct (classify j repo m (n, r)); cbn [fst]; rewrite ?Gi; reflexivity.
    - exists blank. unfold classify. cbn [fst snd]. rewrite Gi. split; destruct (r_auto r); try discriminate; reflexivity.
  Qed.

  (** *** what is to be downloaded: the archives of the packages to be upgraded *)
  Theorem C79_download (sz : str -> N) l : all_of (upgraded j repo m) l ->
    (forall n i, upgraded j repo m n -> mget n repo = Some i -> i_size i = Some (Z.of_N (sz n)) /\ sz n < 2 ^ 32) -> sum sz l < 2 ^ 64 ->
    downloadSize (deal j js jz repo m) = sum sz l.
  Proof.
    intros Hl Hs B. apply (total_sum _ (upgraded j repo m) due_b sz l (due_b_spec) upgraded_there); [|exact Hl|exact B]. intros n r G. destruct (due_turn n r G) as (i & Gi & ->). pose proof (due_b_spec n r G) as D.
    destruct (due_b n) eqn:Eb.
    - specialize (Gi eq_refl). destruct (Hs n i (proj1 D eq_refl) Gi) as [-> Lt]. cbn [am_status am_size known]. rewrite N2Z.id, N.mod_small by exact Lt. unfold due_b in Eb. rewrite G in Eb. destruct (classify j repo m (n, r)); try discriminate Eb; reflexivity.
    - cbn [am_status am_size]. destruct (classify j repo m (n, r)); reflexivity.
  Qed.
  (** *** what is to be written: the installed sizes of the new builds *)
  Theorem C79_added (sz : str -> N) l : all_of (upgraded j repo m) l ->
    (forall n i, upgraded j repo m n -> mget n repo = Some i -> i_space i = Some (sz n)) -> sum sz l < 2 ^ 64 ->
    addSize (deal j js jz repo m) = sum sz l.
  Proof.
    intros Hl Hs B. apply (total_sum _ (upgraded j repo m) due_b sz l (due_b_spec) upgraded_there); [|exact Hl|exact B]. intros n r G. destruct (due_turn n r G) as (i & Gi & ->). pose proof (due_b_spec n r G) as D.
    destruct (due_b n) eqn:Eb.
    - specialize (Gi eq_refl). rewrite (Hs n i (proj1 D eq_refl) Gi). cbn [am_status am_avail known]. unfold due_b in Eb. rewrite G in Eb. destruct (classify j repo m (n, r)); try discriminate Eb; reflexivity.
    - cbn [am_status am_avail]. destruct (classify j repo m (n, r)); reflexivity.
  Qed.
  (** *** what is to be freed: without the obsolete packages, which are removed as well *)
  Theorem C79_freed_partial (sz : str -> N) l : all_of (upgraded j repo m) l ->
    (forall n r, upgraded j repo m n -> mget n (m_pkgs m) = Some r -> r_space r = Some (sz n)) -> sum sz l < 2 ^ 64 ->
    removeSize (deal j js jz repo m) = sum sz l.
  Proof.
    intros Hl Hs B. apply (total_sum _ (upgraded j repo m) due_b sz l (due_b_spec) upgraded_there); [|exact Hl|exact B]. intros n r G. destruct (due_turn n r G) as (i & Gi & ->). pose proof (due_b_spec n r G) as D.
    destruct (due_b n) eqn:Eb.
    - rewrite (Hs n r (proj1 D eq_refl) G). cbn [am_status am_inst known]. unfold due_b in Eb. rewrite G in Eb. destruct (classify j repo m (n, r)); try discriminate Eb; reflexivity.
    - cbn [am_status am_inst]. destruct (classify j repo m (n, r)); reflexivity.
  Qed.
End Am.

(** ** examples *)
Definition am_disk : disk := [(L "a", dx [L "V1"; L "B10"; L "S100"]); (L "b", dx [L "V1"; L "B10"; L "S200"; L "d1"]); (L "c", dx [L "V1"; L "B20"; L "S300"])].
Definition am_repo : list (str * irec) := [(L "a", ix [("V"%char, L "2"); ("B"%char, L "20"); ("S"%char, L "150"); ("i"%char, L "40")]); (L "c", ix [("V"%char, L "1"); ("B"%char, L "20"); ("S"%char, L "300"); ("i"%char, L "90")])].
(** a is upgraded, b obsolete, c current *)
Example C79_case : exists m, load false am_disk = Ok m /\ junk_ok ex_junk /\ all_of (upgraded ex_junk am_repo m) [L "a"] /\
  let t := deal ex_junk (fun _ => 0) (fun _ => 0) am_repo m in (downloadSize t, addSize t, removeSize t) = (40, 150, 100).
Proof.
  eexists. split; [vm_compute; reflexivity|]. split; [intro n; split; reflexivity|]. split; [|vm_compute; reflexivity]. split; [constructor; [intros []|constructor]|]. intro n. split.
  - intros [<-|[]]. eexists. split; [vm_compute; reflexivity|]. left. eexists. split; [vm_compute; reflexivity|]. split; [intros [_ H]; vm_compute in H; apply H; reflexivity|]. intros [H _]. vm_compute in H. discriminate H.
  - intros (r & G & H). left. apply mget_In in G. cbn [m_pkgs In] in G. destruct G as [G|[G|[G|[]]]]; injection G as <- <-; [reflexivity| |]; exfalso.
    + destruct H as [(i & H & _)|(i & H & _)]; vm_compute in H; discriminate H.
    + destruct H as [(i & H & C & _)|(i & H & C & _)]; vm_compute in H; injection H as <-; apply C; (split; [vm_compute; discriminate|vm_compute; discriminate]).
Qed.
(** 300 bytes go (100 of the old a, 200 of b), 100 are announced *)
Theorem C79_obsolete_refuted : exists m, load false am_disk = Ok m /\ removed ex_junk am_repo m (L "b") /\ (exists r, mget (L "b") (m_pkgs m) = Some r /\ r_space r = Some 200) /\
  removeSize (deal ex_junk (fun _ => 0) (fun _ => 0) am_repo m) = 100.
Proof.
  eexists. split; [vm_compute; reflexivity|]. split; [|split; [eexists; split; vm_compute; reflexivity|vm_compute; reflexivity]].
  eexists. split; [vm_compute; reflexivity|]. split; [intros i H; vm_compute in H; discriminate H|vm_compute; reflexivity].
Qed.
