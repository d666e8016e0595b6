(** C90: the search for packages of webcards. C91: what a request shows. *)
From Verif Require Import Base BaseProofs StrModel StrSpec StrProofs RulesModel FsModel FsProofs MetaModel IndexModel DbModel ScanModel ScanProps WebModel WebProps.
From Coq Require Import ZArith NArith Lia.

(** ** specification *)
(** the system and the branch a depot belongs to *)
Inductive depot_kind : str -> str -> str -> Prop :=
| dk_systemd x : depot_kind (x ++ L "/systemd") (L "systemd") (L "systemd")
| dk_rolling x : depot_kind (x ++ L "/rolling") (L "sys-v") (L "rolling")
| dk_testingd x : depot_kind (x ++ L "/testingd") (L "systemd") (L "testingd")
| dk_testing x : depot_kind (x ++ L "/testing") (L "sys-v") (L "testing").
(** the package a record of an index describes *)
Definition describes (sys br coll : str) (r : list str) (i : wpkg) : Prop :=
  w_sys i = sys /\ w_branch i = br /\ w_coll i = coll /\ field_of "N"%char r (w_name i) /\ field_of "V"%char r (w_ver i) /\ field_of "D"%char r (w_desc i) /\
  (exists t n, field_of "r"%char r t /\ stoi_u16 t = Ok n /\ w_rel i = Some n) /\ (exists t, field_of "B"%char r t /\ w_build i = Some (epoch t)).
Definition regular_record (r : list str) : Prop :=
  good_record r /\ (forall c, In c ["N"; "V"; "r"; "D"; "B"]%char -> has_field c r) /\ forall t, In ("r"%char :: t) r -> exists n, stoi_u16 t = Ok n.
(** depot, collection, records of its index *)
Definition catalog := list (str * str * list (list str)).
Definition shelves_of (cat : catalog) : list shelf := map (fun x => Shelf (fst (fst x)) (snd (fst x)) (Some (record_text (snd x)))) cat.
Definition listed (cat : catalog) (i : wpkg) : Prop := exists d c rs r sys br, In (d, c, rs) cat /\ In r rs /\ depot_kind d sys br /\ describes sys br c r i.
Definition good_catalog (cat : catalog) : Prop :=
  (forall d c rs, In (d, c, rs) cat -> rs <> [] /\ (exists sys br, depot_kind d sys br) /\ forall r, In r rs -> regular_record r) /\
  (forall i i', listed cat i -> listed cat i' -> w_sys i = w_sys i' -> w_branch i = w_branch i' -> w_name i = w_name i' -> i = i').

(** ** proofs *)
Fixpoint run_web (ls : list str) (s : wst) : res wst := match ls with [] => Ok s | l :: t => rbind (web_line s l) (run_web t) end.
Lemma run_web_app a b s : run_web (a ++ b) s = rbind (run_web a s) (run_web b).
Proof. revert s. induction a as [|l a IH]; intro s; [reflexivity|]. cbn [run_web List.app]. destruct (web_line s l); cbn [rbind]; [apply IH| |]; reflexivity. Qed.
Lemma web_loop_text : forall ls fuel s, plain ls -> length ls <= fuel -> web_loop fuel (text_of ls) s = run_web ls s.
Proof.
  induction ls as [|l ls IH]; intros fuel s P F; [destruct fuel; reflexivity|]. destruct fuel as [|fuel]; [cbn in F; lia|]. rewrite text_cons. assert (Nl : ~ In nl l) by (apply P; left; reflexivity).
  assert (U : web_loop (S fuel) (l ++ nl :: text_of ls) s = match cfind nl (l ++ nl :: text_of ls) with None => UB | Some n => rbind (web_line s (firstn n (l ++ nl :: text_of ls))) (fun s' => web_loop fuel (skipn (S n) (l ++ nl :: text_of ls)) s') end) by (destruct l; reflexivity).
  rewrite U, (cfind_app nl l (text_of ls) Nl). replace (firstn (length l) (l ++ nl :: text_of ls)) with l by (rewrite firstn_app, Nat.sub_diag, firstn_all, firstn_O, app_nil_r; reflexivity). replace (skipn (S (length l)) (l ++ nl :: text_of ls)) with (text_of ls) by (rewrite skipn_app, skipn_all2 by lia; replace (S (length l) - length l) with 1 by lia; reflexivity).
  cbn [run_web]. destruct (web_line s l) as [s'| |]; cbn [rbind]; try reflexivity. apply IH; [intros x I; apply P; right; exact I|cbn in F; lia].
Qed.
Definition wkey (i : wpkg) : str := w_sys i ++ L " " ++ w_branch i ++ L " " ++ w_name i.
Lemma field_of_snoc c (r : list str) l v : field_of c (r ++ [l]) v -> l = c :: v \/ ((forall w, l <> c :: w) /\ field_of c r v).
Proof.
  intros (a & b & E & N). destruct b as [|x b _] using rev_ind.
  - apply app_inj_tail in E. destruct E as [_ ->]. left. reflexivity.
  - right. rewrite app_comm_cons, app_assoc in E. apply app_inj_tail in E. destruct E as [-> ->]. split; [intros w ->; apply (N w), in_app_iff; right; left; reflexivity|]. exists a, b. split; [reflexivity|]. intros w I. apply (N w), in_app_iff. left. exact I.
Qed.
Lemma run_record : forall (r : list str) s, (forall l, In l r -> l <> []) -> (forall t, In ("r"%char :: t) r -> exists n, stoi_u16 t = Ok n) ->
  exists s', run_web r s = Ok s' /\ s_map s' = s_map s /\ w_sys (s_info s') = w_sys (s_info s) /\ w_branch (s_info s') = w_branch (s_info s) /\ w_coll (s_info s') = w_coll (s_info s) /\
    (forall v, field_of "N"%char r v -> w_name (s_info s') = v /\ s_key s' = wkey (s_info s')) /\ (forall v, field_of "V"%char r v -> w_ver (s_info s') = v) /\ (forall v, field_of "D"%char r v -> w_desc (s_info s') = v) /\
    (forall t, field_of "r"%char r t -> exists n, stoi_u16 t = Ok n /\ w_rel (s_info s') = Some n) /\ (forall t, field_of "B"%char r t -> w_build (s_info s') = Some (epoch t)).
Proof.
  intros r s. induction r as [|l r IH] using rev_ind; intros P R.
  - exists s. split; [reflexivity|]. do 4 (split; [reflexivity|]).
    assert (X : forall c v, ~ field_of c [] v) by (intros c v (a & b & E & _); destruct a; discriminate E).
    split; [intros v F; destruct (X _ _ F)|]. split; [intros v F; destruct (X _ _ F)|]. split; [intros v F; destruct (X _ _ F)|]. split; intros v F; destruct (X _ _ F).
  - destruct IH as (s1 & E1 & M & A1 & A2 & A3 & FN & FV & FD & FR & FB); [intros x I; apply P, in_app_iff; left; exact I|intros t I; apply R, in_app_iff; left; exact I|].
    rewrite run_web_app, E1. cbn [rbind run_web]. destruct l as [|c v]; [exfalso; apply (P []); [apply in_app_iff; right; left|]; reflexivity|]. clear P.
    assert (Sn : forall x u, field_of x (r ++ [c :: v]) u -> (c = x /\ v = u) \/ (c <> x /\ field_of x r u)).
    { intros x u F. destruct (field_of_snoc _ _ _ _ F) as [E|[N F']]; [injection E as -> ->; left; split; reflexivity|right; split; [intros ->; exact (N v eq_refl)|exact F']]. }
    unfold web_line. cbv zeta.
    destruct (ceqb_spec c "N"%char) as [->|D1]; [|destruct (ceqb_spec c "V"%char) as [->|D2]; [|destruct (ceqb_spec c "r"%char) as [->|D3]; [|destruct (ceqb_spec c "D"%char) as [->|D4]; [|destruct (ceqb_spec c "B"%char) as [->|D5]]]]].
    3:{ destruct (R v) as [n En]; [apply in_app_iff; right; left; reflexivity|]. rewrite En. cbn [rbind]. eexists. split; [reflexivity|]. cbn [s_map s_info s_key w_sys w_branch w_coll w_name w_ver w_rel w_desc w_build]. do 4 (split; [assumption|]).
        split; [intros u F; destruct (Sn _ _ F) as [[X _]|[_ F']]; [discriminate X|exact (FN u F')]|]. split; [intros u F; destruct (Sn _ _ F) as [[X _]|[_ F']]; [discriminate X|exact (FV u F')]|]. split; [intros u F; destruct (Sn _ _ F) as [[X _]|[_ F']]; [discriminate X|exact (FD u F')]|].
        split; [intros u F; destruct (Sn _ _ F) as [[_ <-]|[X _]]; [exists n; split; [exact En|reflexivity]|contradiction]|]. intros u F; destruct (Sn _ _ F) as [[X _]|[_ F']]; [discriminate X|exact (FB u F')]. }
    all: cbn [rbind]; eexists; (split; [reflexivity|]); cbn [s_map s_info s_key w_sys w_branch w_coll w_name w_ver w_rel w_desc w_build]; do 4 (split; [assumption|]).
    + split; [intros u F; destruct (Sn _ _ F) as [[_ <-]|[X _]]; [split; reflexivity|contradiction]|]. split; [intros u F; destruct (Sn _ _ F) as [[X _]|[_ F']]; [discriminate X|exact (FV u F')]|]. split; [intros u F; destruct (Sn _ _ F) as [[X _]|[_ F']]; [discriminate X|exact (FD u F')]|]. split; intros u F; destruct (Sn _ _ F) as [[X _]|[_ F']]; [discriminate X|exact (FR u F')|discriminate X|exact (FB u F')].
    + split; [intros u F; destruct (Sn _ _ F) as [[X _]|[_ F']]; [discriminate X|exact (FN u F')]|]. split; [intros u F; destruct (Sn _ _ F) as [[_ <-]|[X _]]; [reflexivity|contradiction]|]. split; [intros u F; destruct (Sn _ _ F) as [[X _]|[_ F']]; [discriminate X|exact (FD u F')]|]. split; intros u F; destruct (Sn _ _ F) as [[X _]|[_ F']]; [discriminate X|exact (FR u F')|discriminate X|exact (FB u F')].
    + split; [intros u F; destruct (Sn _ _ F) as [[X _]|[_ F']]; [discriminate X|exact (FN u F')]|]. split; [intros u F; destruct (Sn _ _ F) as [[X _]|[_ F']]; [discriminate X|exact (FV u F')]|]. split; [intros u F; destruct (Sn _ _ F) as [[_ <-]|[X _]]; [reflexivity|contradiction]|]. split; intros u F; destruct (Sn _ _ F) as [[X _]|[_ F']]; [discriminate X|exact (FR u F')|discriminate X|exact (FB u F')].
    + split; [intros u F; destruct (Sn _ _ F) as [[X _]|[_ F']]; [discriminate X|exact (FN u F')]|]. split; [intros u F; destruct (Sn _ _ F) as [[X _]|[_ F']]; [discriminate X|exact (FV u F')]|]. split; [intros u F; destruct (Sn _ _ F) as [[X _]|[_ F']]; [discriminate X|exact (FD u F')]|]. split; [intros u F; destruct (Sn _ _ F) as [[X _]|[_ F']]; [discriminate X|exact (FR u F')]|]. intros u F. destruct (Sn _ _ F) as [[_ <-]|[X _]]; [reflexivity|contradiction].
    + split; [intros u F; destruct (Sn _ _ F) as [[X _]|[_ F']]; [contradiction|exact (FN u F')]|]. split; [intros u F; destruct (Sn _ _ F) as [[X _]|[_ F']]; [contradiction|exact (FV u F')]|]. split; [intros u F; destruct (Sn _ _ F) as [[X _]|[_ F']]; [contradiction|exact (FD u F')]|]. split; intros u F; destruct (Sn _ _ F) as [[X _]|[_ F']]; [contradiction|exact (FR u F')|contradiction|exact (FB u F')].
Qed.
Lemma field_det c (r : list str) v w : field_of c r v -> field_of c r w -> v = w.
Proof.
  revert v w. induction r as [|l r IH] using rev_ind; intros v w F G; [destruct F as (a & b & E & _); destruct a; discriminate E|].
  destruct (field_of_snoc _ _ _ _ F) as [E|[N F']], (field_of_snoc _ _ _ _ G) as [E'|[N' G']]; [congruence|exfalso; exact (N' _ E)|exfalso; exact (N _ E')|exact (IH v w F' G')].
Qed.
Lemma describes_det sys br coll r i i' : describes sys br coll r i -> describes sys br coll r i' -> i = i'.
Proof.
  intros (A1 & A2 & A3 & A4 & A5 & A6 & (t & n & A7 & A8 & A9) & (u & A10 & A11)) (B1 & B2 & B3 & B4 & B5 & B6 & (t' & n' & B7 & B8 & B9) & (u' & B10 & B11)).
  pose proof (field_det _ _ _ _ A4 B4) as E1. pose proof (field_det _ _ _ _ A5 B5) as E2. pose proof (field_det _ _ _ _ A6 B6) as E3. pose proof (field_det _ _ _ _ A7 B7) as E4. pose proof (field_det _ _ _ _ A10 B10) as E5. subst t' u'. rewrite A8 in B8. injection B8 as <-.
  destruct i as [x1 x2 x3 x4 x5 x6 x7 x8], i' as [y1 y2 y3 y4 y5 y6 y7 y8]. cbn [w_sys w_branch w_coll w_name w_ver w_rel w_desc w_build] in *. congruence.
Qed.
(** the map holds exactly the packages read so far *)
Definition holds (m : list (str * wpkg)) (done : wpkg -> Prop) : Prop := forall k i, mget k m = Some i <-> done i /\ k = wkey i.
Lemma holds_ext m d d' : (forall i, d i <-> d' i) -> holds m d -> holds m d'.
Proof. intros E H k i. rewrite (H k i), (E i). reflexivity. Qed.
Lemma run_records_web : forall recs s done sys br coll, w_sys (s_info s) = sys -> w_branch (s_info s) = br -> w_coll (s_info s) = coll ->
  (forall r, In r recs -> regular_record r) -> holds (s_map s) done ->
  (forall i i', (done i \/ exists r, In r recs /\ describes sys br coll r i) -> (done i' \/ exists r, In r recs /\ describes sys br coll r i') -> wkey i = wkey i' -> i = i') ->
  exists s', run_web (closed recs) s = Ok s' /\ w_sys (s_info s') = sys /\ w_branch (s_info s') = br /\ w_coll (s_info s') = coll /\ holds (s_map s') (fun i => done i \/ exists r, In r recs /\ describes sys br coll r i).
Proof.
  induction recs as [|r recs IH]; intros s done sys br coll Es Eb Ec R H Al.
  - exists s. split; [reflexivity|]. split; [exact Es|]. split; [exact Eb|]. split; [exact Ec|]. apply (holds_ext _ done); [|exact H]. intro i. split; [tauto|intros [D|(r & [] & _)]; exact D].
  - change (closed (r :: recs)) with ((r ++ [[] : str]) ++ closed recs). destruct (R r (or_introl eq_refl)) as (Gr & Hf & Hr).
    destruct (run_record r s) as (s1 & E1 & M & A1 & A2 & A3 & FN & FV & FD & FR & FB); [intros l I; exact (proj1 (Gr l I))|exact Hr|].
    set (i0 := s_info s1).
    assert (G : forall c, In c ["N"; "V"; "r"; "D"; "B"]%char -> exists v, field_of c r v) by (intros c Ic; apply has_field_of, Hf, Ic).
    assert (D0 : describes sys br coll r i0 /\ s_key s1 = wkey i0).
    { destruct (G "N"%char) as [vn Fn]; [cbn; tauto|]. destruct (G "V"%char) as [vv Fv]; [cbn; tauto|]. destruct (G "r"%char) as [vr Fr]; [cbn; tauto|]. destruct (G "D"%char) as [vd Fd]; [cbn; tauto|]. destruct (G "B"%char) as [vb Fb]; [cbn; tauto|].
      destruct (FN vn Fn) as [N1 N2]. split; [|exact N2]. unfold describes. fold i0 in N1. split; [unfold i0; congruence|]. split; [unfold i0; congruence|]. split; [unfold i0; congruence|]. split; [rewrite N1; exact Fn|]. split; [unfold i0; rewrite (FV vv Fv); exact Fv|]. split; [unfold i0; rewrite (FD vd Fd); exact Fd|].
      split; [destruct (FR vr Fr) as (n & P1 & P2); exists vr, n; split; [exact Fr|]; split; [exact P1|exact P2]|]. exists vb. split; [exact Fb|exact (FB vb Fb)]. }
    destruct D0 as [D0 K0].
    set (s2 := W i0 (s_key s1) (mset (s_key s1) i0 (s_map s1))).
    destruct (IH s2 (fun i => done i \/ describes sys br coll r i) sys br coll) as (s' & E' & B1 & B2 & B3 & Hh); [unfold s2, i0; cbn [s_info]; congruence|unfold s2, i0; cbn [s_info]; congruence|unfold s2, i0; cbn [s_info]; congruence|intros x I; apply R; right; exact I| | |].
    + intros k i. unfold s2. cbn [s_map]. rewrite K0, M, mget_mset. destruct (seqb_spec k (wkey i0)) as [->|Nk].
      * split; [intro E; injection E as <-; split; [right; exact D0|reflexivity]|]. intros [Di Ek]. f_equal. apply Al; [right; exists r; split; [left; reflexivity|exact D0]| |exact Ek]. destruct Di as [Di|Di]; [left; exact Di|right; exists r; split; [left; reflexivity|exact Di]].
      * rewrite (H k i). split; [intros [Di Ek]; split; [left; exact Di|exact Ek]|]. intros [[Di|Di] Ek]; [split; assumption|]. exfalso. apply Nk. rewrite Ek, (describes_det _ _ _ _ _ _ Di D0). reflexivity.
    + intros i i' Hi Hi'. apply Al; [destruct Hi as [[X|X]|(x & I & X)]|destruct Hi' as [[X|X]|(x & I & X)]]; try (left; exact X); try (right; exists r; split; [left; reflexivity|exact X]); right; exists x; (split; [right; exact I|exact X]).
    + exists s'. rewrite !run_web_app, E1. cbn [rbind run_web web_line]. fold i0 s2. rewrite E'. split; [reflexivity|]. split; [exact B1|]. split; [exact B2|]. split; [exact B3|]. revert Hh. apply holds_ext. intro i. split.
      * intros [[X|X]|(x & I & X)]; [left; exact X|right; exists r; split; [left; reflexivity|exact X]|right; exists x; split; [right; exact I|exact X]].
      * intros [X|(x & [<-|I] & X)]; [left; left; exact X|left; right; exact X|right; exists x; split; [exact I|exact X]].
Qed.
Lemma crfind_last (a b : str) (c : ascii) : ~ In c b -> crfind c (a ++ c :: b) = Some (length a).
Proof.
  intro N. induction a as [|x a IH].
  - cbn [List.app crfind]. assert (Z : crfind c b = None) by (clear -N; induction b as [|y b IH]; [reflexivity|]; cbn [crfind]; rewrite IH by (intro; apply N; right; assumption); destruct (ceqb_spec y c) as [->|_]; [exfalso; apply N; left|]; reflexivity). rewrite Z, ceqb_refl. reflexivity.
  - cbn [List.app crfind]. rewrite IH. reflexivity.
Qed.
Lemma kind_spec d sys br old i : depot_kind d sys br -> let j := web_kind (web_version d old) i in
  w_sys j = sys /\ w_branch j = br.
Proof.
  intro H. cbv zeta. assert (V : forall x (t : str), ~ In slash t -> strip t = t -> web_version (x ++ slash :: t) old = t).
  { intros x t N St. unfold web_version. rewrite crfind_last by exact N. replace (skipn (S (length x)) (x ++ slash :: t)) with t; [exact St|]. rewrite skipn_app, skipn_all2 by lia. replace (S (length x) - length x) with 1 by lia. reflexivity. }
  destruct H as [x|x|x|x].
  - change (L "/systemd") with (slash :: L "systemd"). rewrite V by (vm_compute; intuition discriminate || reflexivity). split; reflexivity.
  - change (L "/rolling") with (slash :: L "rolling"). rewrite V by (vm_compute; intuition discriminate || reflexivity). split; reflexivity.
  - change (L "/testingd") with (slash :: L "testingd"). rewrite V by (vm_compute; intuition discriminate || reflexivity). split; reflexivity.
  - change (L "/testing") with (slash :: L "testing"). rewrite V by (vm_compute; intuition discriminate || reflexivity). split; reflexivity.
Qed.
Lemma kind_det d sys br sys' br' : depot_kind d sys br -> depot_kind d sys' br' -> sys = sys' /\ br = br'.
Proof. intros H H'. destruct (kind_spec d sys br [] no_pkg H) as [A B]. destruct (kind_spec d sys' br' [] no_pkg H') as [A' B']. split; congruence. Qed.
Lemma wkey_inj i i' d d' : depot_kind d (w_sys i) (w_branch i) -> depot_kind d' (w_sys i') (w_branch i') -> wkey i = wkey i' -> w_sys i = w_sys i' /\ w_branch i = w_branch i' /\ w_name i = w_name i'.
Proof.
  unfold wkey. intros H H'. inversion H as [x E1 E2 E3|x E1 E2 E3|x E1 E2 E3|x E1 E2 E3]; inversion H' as [y F1 F2 F3|y F1 F2 F3|y F1 F2 F3|y F1 F2 F3]; intro E; try (discriminate E);
    (split; [reflexivity|]; split; [reflexivity|]); apply app_inv_head in E; apply app_inv_head in E; apply app_inv_head in E; apply app_inv_head in E; exact E.
Qed.
Lemma shelves_hold : forall cat v s done, (forall d c rs, In (d, c, rs) cat -> rs <> [] /\ (exists sys br, depot_kind d sys br) /\ forall r, In r rs -> regular_record r) ->
  holds (s_map s) done -> (forall i i', (done i \/ listed cat i) -> (done i' \/ listed cat i') -> wkey i = wkey i' -> i = i') ->
  exists s', web_shelves (shelves_of cat) v s = Ok s' /\ holds (s_map s') (fun i => done i \/ listed cat i).
Proof.
  induction cat as [|[[d c] rs] cat IH]; intros v s done G H Al.
  - exists s. split; [reflexivity|]. revert H. apply holds_ext. intro i. split; [tauto|]. intros [X|(? & ? & ? & ? & ? & ? & [] & _)]. exact X.
  - destruct (G d c rs (or_introl eq_refl)) as (Ne & (sys & br & Kd) & Rr). cbn [shelves_of map web_shelves h_depot h_coll h_index fst snd]. fold (shelves_of cat).
    destruct (record_nonempty rs Ne) as (c0 & t0 & Et). set (s1 := W (put_coll c (web_kind (web_version d v) (s_info s))) [] (s_map s)).
    destruct (kind_spec d sys br v (s_info s) Kd) as [K1 K2]. cbv zeta in K1, K2.
    destruct (run_records_web rs s1 done sys br c) as (s2 & E2 & _ & _ & _ & H2); [exact K1|exact K2|reflexivity|exact Rr|exact H| |].
    + intros i i' Hi Hi'. apply Al; [destruct Hi as [X|(r & I & X)]|destruct Hi' as [X|(r & I & X)]]; try (left; exact X); right; exists d, c, rs, r, sys, br; (split; [left; reflexivity|]; split; [exact I|]; split; [exact Kd|exact X]).
    + assert (EL : web_loop (length (record_text rs)) (record_text rs) s1 = Ok s2) by (unfold record_text in *; rewrite web_loop_text; [exact E2|apply good_plain; intros r I; exact (proj1 (Rr r I))|apply text_len]).
      assert (Sh : match record_text rs with [] => Ok s1 | _ :: _ => rbind (web_loop (length (record_text rs)) (record_text rs) s1) (fun s2 => web_shelves (shelves_of cat) (web_version d v) s2) end = web_shelves (shelves_of cat) (web_version d v) s2) by (rewrite EL; cbn [rbind]; rewrite Et; reflexivity).
      assert (Sh2 : (let v0 := web_version d v in let s0 := W (put_coll c (web_kind v0 (s_info s))) [] (s_map s) in match record_text rs with [] => Ok s0 | _ :: _ => rbind (web_loop (length (record_text rs)) (record_text rs) s0) (fun s2 => web_shelves (shelves_of cat) v0 s2) end) = web_shelves (shelves_of cat) (web_version d v) s2) by exact Sh.
      assert (In1 : forall i, (exists r, In r rs /\ describes sys br c r i) <-> exists r sys' br', In r rs /\ depot_kind d sys' br' /\ describes sys' br' c r i).
      { intro i. split; [intros (r & I & X); exists r, sys, br; split; [exact I|split; [exact Kd|exact X]]|]. intros (r & sys' & br' & I & Kd' & X). destruct (kind_det _ _ _ _ _ Kd Kd') as [-> ->]. exists r. split; assumption. }
      destruct (IH (web_version d v) s2 (fun i => done i \/ exists r, In r rs /\ describes sys br c r i)) as (s' & E' & H'); [intros d' c' rs' I; apply (G d' c' rs'); right; exact I|exact H2| |].
      * intros i i' Hi Hi'. apply Al; [destruct Hi as [[X|(r & I & X)]|(d1 & c1 & r1 & x1 & y1 & z1 & I & X)]|destruct Hi' as [[X|(r & I & X)]|(d1 & c1 & r1 & x1 & y1 & z1 & I & X)]]; try (left; exact X); right; [exists d, c, rs, r, sys, br|exists d1, c1, r1, x1, y1, z1|exists d, c, rs, r, sys, br|exists d1, c1, r1, x1, y1, z1]; ((split; [left; reflexivity|split; [exact I|split; [exact Kd|exact X]]]) || (split; [right; exact I|exact X])).
      * exists s'. split; [rewrite <- E', <- Sh2; destruct (record_text rs); reflexivity|]. revert H'. apply holds_ext. intro i. split.
        { intros [[X|(r & I & X)]|(d1 & c1 & r1 & x1 & y1 & z1 & I & X)]; [left; exact X|right; exists d, c, rs, r, sys, br; split; [left; reflexivity|split; [exact I|split; [exact Kd|exact X]]]|right; exists d1, c1, r1, x1, y1, z1; split; [right; exact I|exact X]]. }
        { intros [X|(d1 & c1 & r1 & x1 & y1 & z1 & [I|I] & I2 & X1 & X2)]; [left; left; exact X| |right; exists d1, c1, r1, x1, y1, z1; split; [exact I|split; [exact I2|split; assumption]]]. injection I as <- <- <-. left. right. apply In1. exists x1, y1, z1. split; [exact I2|split; assumption]. }
Qed.
(** the keys of the map stay sorted *)
Lemma run_web_sorted : forall ls s s', run_web ls s = Ok s' -> ssorted (keys (s_map s)) -> ssorted (keys (s_map s')).
Proof.
  induction ls as [|l ls IH]; intros s s' E S; [injection E as <-; exact S|]. cbn [run_web] in E. destruct (web_line s l) as [s1| |] eqn:E1; cbn [rbind] in E; try discriminate E. apply (IH s1 s' E). unfold web_line in E1. destruct l as [|c v].
  - injection E1 as <-. cbn [s_map]. apply mset_keys_sorted, S.
  - cbv zeta in E1. destruct (ceqb c "N"); [injection E1 as <-; exact S|]. destruct (ceqb c "V"); [injection E1 as <-; exact S|]. destruct (ceqb c "r"); [destruct (stoi_u16 v); cbn [rbind] in E1; try discriminate E1; injection E1 as <-; exact S|]. destruct (ceqb c "D"); [injection E1 as <-; exact S|]. destruct (ceqb c "B"); injection E1 as <-; exact S.
Qed.
Lemma web_loop_sorted : forall fuel d s s', web_loop fuel d s = Ok s' -> ssorted (keys (s_map s)) -> ssorted (keys (s_map s')).
Proof.
  induction fuel as [|f IH]; intros d s s' E S; (destruct d as [|c d]; [injection E as <-; exact S|]); [discriminate E|]. cbn [web_loop] in E. destruct (cfind nl (c :: d)) as [n|]; [|discriminate E]. destruct (web_line s (firstn n (c :: d))) as [s1| |] eqn:E1; cbn [rbind] in E; try discriminate E. apply (IH _ _ _ E). apply (run_web_sorted [firstn n (c :: d)] s s1); [cbn [run_web]; rewrite E1; reflexivity|exact S].
Qed.
Lemma shelves_sorted : forall l v s s', web_shelves l v s = Ok s' -> ssorted (keys (s_map s)) -> ssorted (keys (s_map s')).
Proof.
  induction l as [|h l IH]; intros v s s' E S; [injection E as <-; exact S|]. cbn [web_shelves] in E. destruct (h_index h) as [[|c d]|]; [injection E as <-; exact S| |injection E as <-; exact S].
  destruct (web_loop (length (c :: d)) (c :: d) (W (put_coll (h_coll h) (web_kind (web_version (h_depot h) v) (s_info s))) [] (s_map s))) as [s2| |] eqn:E2; cbn [rbind] in E; try discriminate E. apply (IH _ _ _ E). apply (web_loop_sorted _ _ _ _ E2). exact S.
Qed.
(** the packages known to the page are exactly those of the indexes *)
Lemma web_repo_listed cat : good_catalog cat -> exists m, web_repo (shelves_of cat) = Ok m /\ forall i, In i (map snd m) <-> listed cat i.
Proof.
  intros (G & Al). destruct (shelves_hold cat [] (W no_pkg [] []) (fun _ => False)) as (s & E & H); [exact G|intros k i; split; [discriminate|intros [[] _]]| |].
  - intros i i' [[]|Hi] [[]|Hi'] Ek. assert (K : forall x, listed cat x -> exists d, depot_kind d (w_sys x) (w_branch x)) by (intros x (d & c & rs & r & sys & br & _ & _ & Kd & (-> & -> & _)); exists d; exact Kd).
    destruct (K i Hi) as [d Kd]. destruct (K i' Hi') as [d' Kd']. destruct (wkey_inj i i' d d' Kd Kd' Ek) as (A & B & C). exact (Al i i' Hi Hi' A B C).
  - unfold web_repo. rewrite E. cbn [rbind]. exists (s_map s). split; [reflexivity|]. pose proof (shelves_sorted _ _ _ _ E ltac:(constructor)) as So. apply ssorted_NoDup in So. intro i. rewrite in_map_iff. split.
    + intros ([k x] & Ex & I). cbn [snd] in Ex. subst x. apply (In_mget k i _ So) in I. apply H in I. destruct I as [[[]|I] _]. exact I.
    + intro Hi. exists (wkey i, i). split; [reflexivity|]. apply mget_In. apply H. split; [right; exact Hi|reflexivity].
Qed.
(** ** the rows shown *)
Definition wanted (a : wargs) (i : wpkg) : Prop :=
  (a_branch a = w_branch i \/ a_branch a = L "all") /\ (a_system a = w_sys i \/ a_system a = L "all") /\
  (a_type a = L "col" -> lower_case (a_pkg a) = w_coll i) /\
  (a_type a <> L "col" -> occurs (lower_case (a_pkg a)) (w_coll i) \/ occurs (lower_case (a_pkg a)) (w_name i) \/ occurs (lower_case (a_pkg a)) (lower_case (w_desc i))).
Lemma has_occurs p s : has p s = true <-> occurs p s.
Proof. unfold has. destruct (sfind p s) as [n|] eqn:E; [split; [intros _|reflexivity]|split; [discriminate|intro O; exfalso; exact (proj1 (sfind_None p s) E O)]]. destruct (sfind_Some p s n E) as [X _]. eexists. eexists. exact X. Qed.
Lemma first_token_id s c : s <> [] -> ~ In c s -> ~ In zero s -> first_token s [c] = s.
Proof.
  intros Ne N Z. unfold first_token. rewrite split_agree by exact Z. pose proof (split_join c [s] ltac:(constructor; [split; assumption|constructor])) as J. cbn [join] in J. rewrite J. reflexivity.
Qed.
Lemma needle_plain s : s <> [] -> ~ In "%"%char s -> ~ In "+"%char s -> ~ In zero s -> needle s = s.
Proof. intros Ne P1 P2 Z. unfold needle. change (L "%") with ["%"%char]. change (L "+") with ["+"%char]. rewrite (first_token_id s "%"%char) by assumption. apply first_token_id; assumption. Qed.
Lemma match_wanted a i : a_pkg a <> [] -> ~ In "%"%char (a_pkg a) -> ~ In "+"%char (a_pkg a) -> ~ In zero (a_pkg a) -> web_match a i = true <-> wanted a i.
Proof.
  intros Ne P1 P2 Z. unfold web_match, wanted, branch_ok, system_ok. cbv zeta. rewrite needle_plain by assumption. destruct (seqb_spec (a_type a) (L "col")) as [T|T].
  - rewrite !andb_true_iff, !orb_true_iff, !seqb_eq. tauto.
  - destruct (a_pkg a) as [|c0 t0] eqn:Ep; [contradiction|]. rewrite <- Ep. rewrite !andb_true_iff, !orb_true_iff, !seqb_eq, !has_occurs. tauto.
Qed.
Lemma rows_In date jr jb a : forall repo acc row, In row (fold_left (fun (acc : list str) (p : str * wpkg) => if web_match a (snd p) then sins (row_of date jr jb (snd p) (w_name (snd p)) (w_name (snd p))) acc else acc) repo acc) <->
  In row acc \/ exists i, In i (map snd repo) /\ web_match a i = true /\ row = row_of date jr jb i (w_name i) (w_name i).
Proof.
  induction repo as [|p repo IH]; intros acc row; cbn [fold_left map]; [split; [tauto|intros [X|(i & [] & _)]; exact X]|]. rewrite IH. destruct (web_match a (snd p)) eqn:M.
  - rewrite sins_In. split; [intros [[->|X]|(i & I & X)]; [right; exists (snd p); split; [left; reflexivity|split; [exact M|reflexivity]]|left; exact X|right; exists i; split; [right; exact I|exact X]]|].
    intros [X|(i & [<-|I] & Mi & ->)]; [left; right; exact X|left; left; reflexivity|right; exists i; split; [exact I|split; [exact Mi|reflexivity]]].
  - split; [intros [X|(i & I & X)]; [left; exact X|right; exists i; split; [right; exact I|exact X]]|]. intros [X|(i & [<-|I] & Mi & ->)]; [left; exact X|congruence|right; exists i; split; [exact I|split; [exact Mi|reflexivity]]].
Qed.
Lemma rows_sorted date jr jb a : forall repo acc, ssorted acc -> ssorted (fold_left (fun (acc : list str) (p : str * wpkg) => if web_match a (snd p) then sins (row_of date jr jb (snd p) (w_name (snd p)) (w_name (snd p))) acc else acc) repo acc).
Proof. induction repo as [|p repo IH]; intros acc S; cbn [fold_left]; [exact S|]. apply IH. destruct (web_match a (snd p)); [apply sins_sorted|]; exact S. Qed.
(** a search shows one row for every package of the indexes whose collection, name or description contains the text and that is of the branch
    and system asked for; and the number of rows *)
Theorem C90_found : forall date jr jb cat content title query, good_catalog cat -> let a := web_args query in
  2 <= length (a_pkg a) -> ~ In "%"%char (a_pkg a) -> ~ In "+"%char (a_pkg a) -> ~ In zero (a_pkg a) ->
  exists rows, web_shown date jr jb (shelves_of cat) content title query = Packages (a_pkg a) (length rows) rows /\ NoDup rows /\
    forall row, In row rows <-> exists i, listed cat i /\ wanted a i /\ row = row_of date jr jb i (w_name i) (w_name i).
Proof.
  intros date jr jb cat content title query G. cbv zeta. intros Ln P1 P2 Z. destruct (web_repo_listed cat G) as (m & E & Lm). exists (web_rows date jr jb (web_args query) m).
  assert (Ne : a_pkg (web_args query) <> []) by (intro X; rewrite X in Ln; cbn in Ln; lia).
  split; [|split].
  - unfold web_shown. cbv zeta. rewrite E. assert (L1 : negb (length (a_pkg (web_args query)) =? 0) = true) by (apply Bool.negb_true_iff, Nat.eqb_neq; lia). assert (L2 : length (a_pkg (web_args query)) <? 2 = false) by (apply Nat.ltb_ge; exact Ln). rewrite L1, L2.
    rewrite needle_plain by assumption. apply Bool.negb_true_iff in L1. rewrite L1. reflexivity.
  - apply ssorted_NoDup. apply rows_sorted. constructor.
  - intro row. unfold web_rows. rewrite rows_In. split.
    + intros [[]|(i & I & M & ->)]. exists i. split; [apply Lm; exact I|]. split; [apply match_wanted; assumption|reflexivity].
    + intros (i & I & Wi & ->). right. exists i. split; [apply Lm; exact I|]. split; [apply match_wanted; assumption|reflexivity].
Qed.
(** *** a catalog *)
Definition rec_of (name ver rel desc build : string) (more : list str) : list str := [L ("N" ++ name); L ("V" ++ ver); L ("r" ++ rel); L ("D" ++ desc); L ("B" ++ build)] ++ more.
Definition gcc1 := rec_of "gcc" "13.2" "1" "The GNU compiler" "1700000000" [L "Ag++"].
Definition perl1 := rec_of "Perl" "5.38" "2" "A language" "1700000001" [].
Definition gcc2 := rec_of "gcc" "14.1" "1" "The GNU compiler" "1710000000" [].
Definition cat1 : catalog := [(L "/srv/systemd", L "base", [gcc1; perl1]); (L "/srv/testing", L "base", [gcc2])].
Definition p_gcc1 := WPkg (L "systemd") (L "systemd") (L "base") (L "gcc") (L "13.2") (Some 1%N) (L "The GNU compiler") (Some 1700000000%Z).
Definition p_perl1 := WPkg (L "systemd") (L "systemd") (L "base") (L "Perl") (L "5.38") (Some 2%N) (L "A language") (Some 1700000001%Z).
Definition p_gcc2 := WPkg (L "sys-v") (L "testing") (L "base") (L "gcc") (L "14.1") (Some 1%N) (L "The GNU compiler") (Some 1710000000%Z).
Lemma field_at c (r : list str) v n : nth_error r n = Some (c :: v) -> existsb (fun l => match l with x :: _ => ceqb x c | [] => false end) (skipn (S n) r) = false -> field_of c r v.
Proof.
  intros E N. apply nth_error_split in E. destruct E as (a & b & -> & <-). exists a, b. split; [reflexivity|]. intros w I.
  assert (Es : skipn (S (length a)) (a ++ (c :: v) :: b) = b) by (rewrite skipn_app, skipn_all2 by lia; replace (S (length a) - length a) with 1 by lia; reflexivity).
  assert (X : existsb (fun l : str => match l with x :: _ => ceqb x c | [] => false end) b = true) by (apply existsb_exists; exists (c :: w); split; [exact I|apply ceqb_refl]). rewrite <- Es in X. pose proof (eq_trans (eq_sym X) N) as Y. discriminate Y.
Qed.
Lemma describes_rec sys br coll name ver rel desc build more n b : existsb (fun l => match l with x :: _ => existsb (ceqb x) ["N"; "V"; "r"; "D"; "B"]%char | [] => false end) more = false -> stoi_u16 (L rel) = Ok n -> epoch (L build) = b ->
  describes sys br coll (rec_of name ver rel desc build more) (WPkg sys br coll (L name) (L ver) (Some n) (L desc) (Some b)).
Proof.
  intros M R B. assert (M' : forall c, In c ["N"; "V"; "r"; "D"; "B"]%char -> existsb (fun l => match l with x :: _ => ceqb x c | [] => false end) more = false).
  { intros c Ic. apply not_true_is_false. intro X. apply existsb_exists in X. destruct X as ([|x l] & I & X); [discriminate|]. apply ceqb_eq in X. subst x. rewrite <- not_true_iff_false in M. apply M. apply existsb_exists. exists (c :: l). split; [exact I|]. apply existsb_exists. exists c. split; [exact Ic|apply ceqb_refl]. }
  unfold describes. cbn [w_sys w_branch w_coll w_name w_ver w_rel w_desc w_build]. split; [reflexivity|]. split; [reflexivity|]. split; [reflexivity|].
  split; [apply (field_at _ _ _ 0); [reflexivity|apply (M' "N"%char); cbn; tauto]|]. split; [apply (field_at _ _ _ 1); [reflexivity|apply (M' "V"%char); cbn; tauto]|]. split; [apply (field_at _ _ _ 3); [reflexivity|apply (M' "D"%char); cbn; tauto]|].
  split; [exists (L rel), n; split; [apply (field_at _ _ _ 2); [reflexivity|apply (M' "r"%char); cbn; tauto]|split; [exact R|reflexivity]]|]. exists (L build). split; [apply (field_at _ _ _ 4); [reflexivity|apply (M' "B"%char); cbn; tauto]|rewrite B; reflexivity].
Qed.
Lemma kind_sys x sys br : depot_kind (x ++ L "/systemd") sys br -> sys = L "systemd" /\ br = L "systemd".
Proof. intro H. exact (kind_det _ _ _ _ _ H (dk_systemd x)). Qed.
Example cat1_good : good_catalog cat1 /\ listed cat1 p_gcc1 /\ listed cat1 p_perl1 /\ listed cat1 p_gcc2.
Proof.
  assert (K1 : depot_kind (L "/srv/systemd") (L "systemd") (L "systemd")) by exact (dk_systemd (L "/srv")). assert (K2 : depot_kind (L "/srv/testing") (L "sys-v") (L "testing")) by exact (dk_testing (L "/srv")).
  assert (D1 : describes (L "systemd") (L "systemd") (L "base") gcc1 p_gcc1) by (apply describes_rec; reflexivity).
  assert (D2 : describes (L "systemd") (L "systemd") (L "base") perl1 p_perl1) by (apply describes_rec; reflexivity).
  assert (D3 : describes (L "sys-v") (L "testing") (L "base") gcc2 p_gcc2) by (apply describes_rec; reflexivity).
  split; [split|split; [|split]].
  - assert (R : forall r, In r [gcc1; perl1; gcc2] -> regular_record r).
    { intros r Ir. split; [intros l Il|split].
      - assert (C : forallb (fun l => match l with [] => false | _ => negb (existsb (ceqb nl) l) end) (concat [gcc1; perl1; gcc2]) = true) by (vm_compute; reflexivity). rewrite forallb_forall in C. specialize (C l ltac:(apply in_concat; exists r; split; assumption)). destruct l; [discriminate|]. split; [discriminate|]. intro I. apply Bool.negb_true_iff in C. rewrite <- not_true_iff_false in C. apply C. apply existsb_exists. exists nl. split; [exact I|apply ceqb_refl].
      - intros c Ic. destruct Ir as [<-|[<-|[<-|[]]]]; destruct Ic as [<-|[<-|[<-|[<-|[<-|[]]]]]]; eexists; (left; reflexivity) || (right; left; reflexivity) || (right; right; left; reflexivity) || (right; right; right; left; reflexivity) || (right; right; right; right; left; reflexivity).
      - intros t It. destruct Ir as [<-|[<-|[<-|[]]]]; cbn [rec_of gcc1 perl1 gcc2 List.app In] in It; repeat (destruct It as [It|It]; [try discriminate It; injection It as <-; eexists; vm_compute; reflexivity|]); contradiction. }
    intros d c rs [E|[E|[]]]; injection E as <- <- <-; (split; [discriminate|]); split; [exists (L "systemd"), (L "systemd"); exact K1| |exists (L "sys-v"), (L "testing"); exact K2|]; intros r Ir; apply R; cbn [In] in *; tauto.
  - assert (Al : forall i, listed cat1 i -> i = p_gcc1 \/ i = p_perl1 \/ i = p_gcc2).
    { intros i (d & c & rs & r & sys & br & [E|[E|[]]] & Ir & Kd & De); injection E as <- <- <-.
      - destruct (kind_det _ _ _ _ _ Kd K1) as [-> ->]. destruct Ir as [<-|[<-|[]]]; [left; exact (describes_det _ _ _ _ _ _ De D1)|right; left; exact (describes_det _ _ _ _ _ _ De D2)].
      - destruct (kind_det _ _ _ _ _ Kd K2) as [-> ->]. destruct Ir as [<-|[]]. right; right. exact (describes_det _ _ _ _ _ _ De D3). }
    intros i i' Hi Hi'. destruct (Al i Hi) as [-> |[-> | ->]], (Al i' Hi') as [-> |[-> | ->]]; intros A B C; (reflexivity || discriminate A || discriminate B || discriminate C).
  - exists (L "/srv/systemd"), (L "base"), [gcc1; perl1], gcc1, (L "systemd"), (L "systemd"). split; [left; reflexivity|]. split; [left; reflexivity|]. split; [exact K1|exact D1].
  - exists (L "/srv/systemd"), (L "base"), [gcc1; perl1], perl1, (L "systemd"), (L "systemd"). split; [left; reflexivity|]. split; [right; left; reflexivity|]. split; [exact K1|exact D2].
  - exists (L "/srv/testing"), (L "base"), [gcc2], gcc2, (L "sys-v"), (L "testing"). split; [right; left; reflexivity|]. split; [left; reflexivity|]. split; [exact K2|exact D3].
Qed.
Definition some_date (z : Z) : str := L "a day".
Definition shows1 (shelves : list shelf) (query : string) : shown := web_shown some_date 0 0 shelves [] (L "Contents") (L query).
Definition rows1 (shelves : list shelf) (query : string) : option nat := match shows1 shelves query with Packages _ n _ => Some n | _ => None end.
Example C90_some : rows1 (shelves_of cat1) "searchpkg=gcc&branch=all" = Some 2 /\ rows1 (shelves_of cat1) "searchpkg=gcc" = Some 1.
Proof. vm_compute. split; reflexivity. Qed.
(** *** what is not so *)
(** a package whose name has a capital is not found by its name *)
Theorem C90_capital_refuted : listed cat1 p_perl1 /\ rows1 (shelves_of cat1) "searchpkg=Perl&branch=all" = Some 0.
Proof. split; [exact (proj1 (proj2 (proj2 cat1_good)))|vm_compute; reflexivity]. Qed.
(** an alias is not found *)
Theorem C90_alias_refuted : exists r, In (L "Acpp") r /\ rows1 [Shelf (L "/srv/systemd") (L "base") (Some (record_text [r]))] "searchpkg=cpp" = Some 0.
Proof. exists (rec_of "gcc" "13.2" "1" "x" "1" [L "Acpp"]). split; [right; right; right; right; right; left; reflexivity|vm_compute; reflexivity]. Qed.
(** only the first word of a search counts *)
Theorem C90_words_refuted : rows1 (shelves_of cat1) "searchpkg=gcc+fortran&branch=all" = Some 2.
Proof. vm_compute. reflexivity. Qed.
(** one missing index hides the collections behind it *)
Theorem C90_missing_refuted : rows1 (Shelf (L "/srv/systemd") (L "extra") None :: shelves_of cat1) "searchpkg=gcc&branch=all" = Some 0.
Proof. vm_compute. reflexivity. Qed.
(** of two collections of a branch with a package of one name the first is not shown *)
Theorem C90_twice_refuted : exists cat, length (filter (fun x => match snd x with r :: _ => seqb (hd [] r) (L "Ngcc") | [] => false end) cat) = 2 /\ rows1 (shelves_of cat) "searchpkg=gcc&branch=all" = Some 1.
Proof. exists [(L "/srv/systemd", L "base", [gcc1]); (L "/srv/systemd", L "extra", [gcc2])]. vm_compute. split; reflexivity. Qed.
(** an index whose last line is not ended makes the program read outside of the file *)
Theorem C90_outside_refuted : shows1 [Shelf (L "/srv/systemd") (L "base") (Some (L "Ngcc"))] "searchpkg=gcc" = Fails UB.
Proof. vm_compute. reflexivity. Qed.

(** ** C91 *)
Definition plain_value (p : str) : Prop := ~ In amp p /\ ~ In zero p /\ forall k, In k arg_keys -> ~ occurs (k ++ L "=") p.
Lemma args_one k v : In k arg_keys -> plain_value v -> good_request [(k, v)].
Proof. intros I (A & B & C). split; [cbn [map]; constructor; [intros []|constructor]|]. intros k0 v0 [E|[]]. injection E as <- <-. split; [exact I|]. split; [exact A|]. split; [exact B|exact C]. Qed.
Lemma given_one k v k' d x : given [(k, v)] k' d x -> (k = k' -> x = v) /\ (k <> k' -> x = d).
Proof. intros [[E|[]]|[N ->]]; [injection E as -> ->; split; [reflexivity|congruence]|]. split; [intros ->; exfalso; apply (N v); left; reflexivity|reflexivity]. Qed.
Lemma one_query k v : join amp (map written_arg [(k, v)]) = k ++ L "=" ++ v.
Proof. reflexivity. Qed.
(** a page is the article of that name, with its table of contents *)
Theorem C91_page : forall date jr jb shelves content title p c, plain_value p -> p <> L "packages" -> mget p content = Some c ->
  web_shown date jr jb shelves content title (L "page=" ++ p) = Page (c_date c) (toc_page (c_text c) (L "<h") title) (c_board c).
Proof.
  intros date jr jb shelves content title p c V Np G. pose proof (C89_arguments _ (args_one (L "page") p ltac:(cbn; tauto) V)) as A. cbv zeta in A. rewrite one_query in A. change (L "page" ++ L "=" ++ p) with (L "page=" ++ p) in A. destruct A as (A1 & A2 & A3 & _).
  apply given_one in A1, A2, A3. pose proof (proj1 A1 eq_refl) as E1. pose proof (proj2 A2 ltac:(discriminate)) as E2. pose proof (proj2 A3 ltac:(discriminate)) as E3.
  unfold web_shown. cbv zeta. rewrite E1, E2, E3. cbn [List.length Nat.eqb negb]. destruct (seqb_spec p (L "packages")) as [X|_]; [contradiction|]. rewrite G. reflexivity.
Qed.
Theorem C91_no_page : forall date jr jb shelves content title p, plain_value p -> p <> L "packages" -> mget p content = None ->
  web_shown date jr jb shelves content title (L "page=" ++ p) = Missing ((L "<h1>" ++ p ++ L " is not existing yet</h1>") :: match mget (L "under-construction") content with Some c => c_text c | None => [] end).
Proof.
  intros date jr jb shelves content title p V Np G. pose proof (C89_arguments _ (args_one (L "page") p ltac:(cbn; tauto) V)) as A. cbv zeta in A. rewrite one_query in A. change (L "page" ++ L "=" ++ p) with (L "page=" ++ p) in A. destruct A as (A1 & A2 & A3 & _).
  apply given_one in A1, A2, A3. pose proof (proj1 A1 eq_refl) as E1. pose proof (proj2 A2 ltac:(discriminate)) as E2. pose proof (proj2 A3 ltac:(discriminate)) as E3.
  unfold web_shown. cbv zeta. rewrite E1, E2, E3. cbn [List.length Nat.eqb negb]. destruct (seqb_spec p (L "packages")) as [X|_]; [contradiction|]. rewrite G. reflexivity.
Qed.
(** the articles are the files of content/, by the part of their name before the first dot *)
Lemma strip_incl c s : In c (strip s) -> In c s.
Proof. destruct (strip_spec s) as ((a & b & E & _) & _). intro I. rewrite E. apply in_app_iff. right. apply in_app_iff. left. exact I. Qed.
Lemma content_names files k c : mget k (web_content files) = Some c -> exists f, In f files /\ k = fst (split_key_value (fst f) "."%char) /\ c = Art (fst (snd f)) (snd (split_key_value (fst f) "."%char)) (snd (snd f)).
Proof.
  unfold web_content. assert (G : forall m, mget k (fold_left (fun m f => let '(k, v) := split_key_value (fst f) "."%char in mset k (Art (fst (snd f)) v (snd (snd f))) m) files m) = Some c -> mget k m = Some c \/ exists f, In f files /\ k = fst (split_key_value (fst f) "."%char) /\ c = Art (fst (snd f)) (snd (split_key_value (fst f) "."%char)) (snd (snd f))).
  { induction files as [|f files IH]; intros m E; [left; exact E|]. cbn [fold_left] in E. destruct (IH _ E) as [H|(g & I & X)]; [|right; exists g; split; [right; exact I|exact X]]. destruct (split_key_value (fst f) "."%char) as [k1 v1] eqn:Es. rewrite mget_mset in H. destruct (seqb_spec k k1) as [->|_]; [|left; exact H]. injection H as <-. right. exists f. rewrite Es. split; [left; reflexivity|split; reflexivity]. }
  intro E. destruct (G [] E) as [H|H]; [discriminate H|exact H].
Qed.
Lemma content_known files f : (forall g, In g files -> fst (split_key_value (fst g) "."%char) = fst (split_key_value (fst f) "."%char) -> g = f) -> In f files ->
  mget (fst (split_key_value (fst f) "."%char)) (web_content files) = Some (Art (fst (snd f)) (snd (split_key_value (fst f) "."%char)) (snd (snd f))).
Proof.
  unfold web_content. intros Al I. set (v := Art (fst (snd f)) (snd (split_key_value (fst f) "."%char)) (snd (snd f))). set (kf := fst (split_key_value (fst f) "."%char)) in *.
  assert (G : forall l m, (forall g, In g l -> In g files) -> (In f l \/ mget kf m = Some v) -> mget kf (fold_left (fun m f => let '(k, v) := split_key_value (fst f) "."%char in mset k (Art (fst (snd f)) v (snd (snd f))) m) l m) = Some v).
  { induction l as [|g l IH]; intros m S H0; [destruct H0 as [[]|H]; exact H|]. destruct H0 as [H|H].
    - cbn [fold_left]. destruct (split_key_value (fst g) "."%char) as [k1 v1] eqn:Es. apply IH; [intros x Ix; apply S; right; exact Ix|]. destruct H as [->|H]; [right; rewrite mget_mset; unfold kf, v; rewrite Es; cbn [fst snd]; rewrite seqb_refl; reflexivity|left; exact H].
    - cbn [fold_left]. destruct (split_key_value (fst g) "."%char) as [k1 v1] eqn:Es. apply IH; [intros x Ix; apply S; right; exact Ix|]. right. rewrite mget_mset. destruct (seqb_spec kf k1) as [Ek|_]; [|exact H]. assert (g = f) by (apply Al; [apply S; left; reflexivity|rewrite Es; cbn [fst]; symmetry; exact Ek]). subst g. unfold v. rewrite Es. reflexivity. }
  apply G; [intros g Ig; exact Ig|left; exact I].
Qed.
(** the article of a file name.rest, if no other file has that name before its first dot *)
Theorem C91_articles : forall files name rest date lines, ~ In "."%char name -> strip name = name -> In (name ++ L "." ++ rest, (date, lines)) files ->
  (forall f, In f files -> fst (split_key_value (fst f) "."%char) = name -> f = (name ++ L "." ++ rest, (date, lines))) ->
  mget name (web_content files) = Some (Art date (strip rest) lines).
Proof.
  intros files name rest date lines N S I Al. assert (E : split_key_value (name ++ L "." ++ rest) "."%char = (name, strip rest)) by (change (L "." ++ rest) with ("."%char :: rest); rewrite split_key_value_found by exact N; rewrite S; reflexivity).
  pose proof (content_known files (name ++ L "." ++ rest, (date, lines))) as C. cbn [fst snd] in C. rewrite E in C. cbn [fst snd] in C. apply C; [exact Al|exact I].
Qed.
(** a request cannot name a file outside of content/ *)
Theorem C91_inside : forall date jr jb shelves files title p, (forall f, In f files -> ~ In slash (fst f)) -> plain_value p -> In slash p ->
  exists lines, web_shown date jr jb shelves (web_content files) title (L "page=" ++ p) = Missing lines /\ lines = (L "<h1>" ++ p ++ L " is not existing yet</h1>") :: match mget (L "under-construction") (web_content files) with Some c => c_text c | None => [] end.
Proof.
  intros date jr jb shelves files title p F V Sl. eexists. split; [|reflexivity]. apply C91_no_page; [exact V|intros ->; vm_compute in Sl; intuition discriminate|].
  destruct (mget p (web_content files)) as [c|] eqn:E; [|reflexivity]. exfalso. destruct (content_names _ _ _ E) as (f & If & Ep & _). apply (F f If). subst p. unfold split_key_value in Sl. destruct (cfind "."%char (fst f)) as [n|]; cbn [fst] in Sl; [|exact Sl].
  apply strip_incl in Sl. exact (eq_ind _ (fun z => In slash z) (in_or_app _ _ _ (or_introl Sl)) _ (firstn_skipn n (fst f))).
Qed.
(** the search in the articles shows exactly the lines that contain the text, large or small letters alike *)
Theorem C91_search : forall date jr jb shelves content title t, plain_value t -> 3 <= length t ->
  exists hits, web_shown date jr jb shelves content title (L "search=" ++ t) = Found hits /\
    forall page l, In (page, l) hits <-> page <> L "packages" /\ (exists c, In (page, c) content /\ In l (c_text c)) /\ occurs (lower_case t) (lower_case l).
Proof.
  intros date jr jb shelves content title t V Lt. pose proof (C89_arguments _ (args_one (L "search") t ltac:(cbn; tauto) V)) as A. cbv zeta in A. rewrite one_query in A. change (L "search" ++ L "=" ++ t) with (L "search=" ++ t) in A. destruct A as (A1 & A2 & A3 & _).
  apply given_one in A1, A2, A3. pose proof (proj1 A2 eq_refl) as E2. pose proof (proj2 A3 ltac:(discriminate)) as E3. exists (find_lines (web_args (L "search=" ++ t)) content). split.
  - unfold web_shown. cbv zeta. rewrite E2, E3. cbn [List.length Nat.eqb negb]. assert (L1 : negb (length t =? 0) = true) by (apply Bool.negb_true_iff, Nat.eqb_neq; lia). assert (L2 : length t <? 3 = false) by (apply Nat.ltb_ge; exact Lt). rewrite L1, L2. reflexivity.
  - intros page l. unfold find_lines. rewrite E2, in_flat_map. split.
    + intros ([k c] & Ic & Il). cbn [fst snd] in Il. destruct (seqb_spec k (L "packages")) as [_|N]; [contradiction|]. apply in_map_iff in Il. destruct Il as (l' & E & Il). injection E as <- <-. apply filter_In in Il. destruct Il as [Il O]. split; [exact N|]. split; [exists c; split; assumption|apply has_occurs; exact O].
    + intros (N & (c & Ic & Il) & O). exists (page, c). split; [exact Ic|]. cbn [fst snd]. destruct (seqb_spec page (L "packages")) as [X|_]; [contradiction|]. apply in_map_iff. exists l. split; [reflexivity|]. apply filter_In. split; [exact Il|apply has_occurs; exact O].
Qed.
Definition site : list (str * (str * list str)) := [(L "index.12", (L "today", [L "<h1>NuTyX</h1>"; L "Welcome"])); (L "under-construction", (L "today", [L "soon"]))].
Example C91_some : web_shown some_date 0 0 [] (web_content site) (L "Contents") (L "page=index") = Page (L "today") [L "<h1>NuTyX</h1>"; L "Welcome"] (L "12").
Proof. vm_compute. reflexivity. Qed.
(** what the visitor wrote comes back unchanged: a link can put markup on the page *)
Theorem C91_markup_refuted : exists q, web_shown some_date 0 0 [] (web_content site) (L "Contents") q = Missing [L "<h1><script>alert(1)</script> is not existing yet</h1>"; L "soon"] /\ occurs (L "<script>") q.
Proof. exists (L "page=<script>alert(1)</script>"). split; [vm_compute; reflexivity|]. exists (L "page="), (L "alert(1)</script>"). reflexivity. Qed.
