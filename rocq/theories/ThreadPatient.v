(** C105: for a user who acts only when every thread has ended, and does not press Go after a Sync before choosing again. *)
From Verif Require Import Base BaseProofs MetaModel ThreadModel ThreadProps.
From Coq Require Import Lia.

(** every action of the user is made when all threads have ended *)
Fixpoint patient (root : bool) (l : list move) (s : st) : Prop :=
  match l with
  | [] => True
  | m :: t => match m with User _ => idle s | Turn _ => True end /\ forall s', step root m s = Ok s' -> patient root t s'
  end.
(** Go is not pressed between a synchronisation (by root) and the next choice *)
Fixpoint careful (root synced : bool) (l : list move) : Prop :=
  match l with
  | [] => True
  | User PressSync :: t => careful root (root || synced) t
  | User (Pick _) :: t => careful root false t
  | User PressGo :: t => synced = false /\ careful root synced t
  | _ :: t => careful root synced t
  end.

(* ---- what a thread alone does to everything but the threads and the box ---- *)
Definition core (s : st) : st := set_box false (set_threads [] s).
Definition quiet (risk : bool) (q : st) : Prop :=
  flag q = false /\ filling q = false /\ readers q = 0 /\ row_gen q = Some (gen q) /\ (risk = false -> job_gen q = None \/ job_gen q = Some (gen q)).
Fixpoint wp0 (root risk : bool) (r : list instr) (q : st) : Prop :=
  match r with
  | [] => quiet risk q
  | c :: t => match c with HideBox | LaunchRefresh => wp0 root risk t q | _ => match exec root c q with Ok q' => wp0 root risk t q' | _ => False end end
  end.
Fixpoint wp (root risk : bool) (r : list instr) (q : st) : Prop :=
  match r with
  | [] => quiet risk q
  | c :: t => match c with
              | HideBox => wp root risk t q
              | LaunchRefresh => flag q = false /\ wp0 root risk refresh_program q
              | _ => match exec root c q with Ok q' => wp root risk t q' | _ => False end
              end
  end.
Lemma exec_core root c s q : c <> HideBox -> c <> LaunchRefresh -> exec root c (core s) = Ok q -> exists s', exec root c s = Ok s' /\ core s' = q.
Proof.
  intros N1 N2. destruct s as [f th b g fi re ma ro jo ac en]. destruct c; try (destruct (N1 eq_refl)); try (destruct (N2 eq_refl)); unfold exec, list_jobs, core, set_box, set_threads, set_flag; cbn [flag threads box gen filling readers marked row_gen job_gen active ended];
    intro H; repeat match type of H with context [if ?x then _ else _] => destruct x eqn:?; try discriminate H | context [match ?x with Some _ => _ | None => _ end] => destruct x; try discriminate H end;
    injection H as <-; eexists; (split; [reflexivity|reflexivity]).
Qed.
Lemma core_threads l s : core (set_threads l s) = core s. Proof. reflexivity. Qed.
Lemma core_box b s : core (set_box b s) = core s. Proof. reflexivity. Qed.
Lemma core_launch root j s : core (launch root j s) = core s. Proof. unfold launch. destruct (flag s); reflexivity. Qed.

Lemma hide_big root j r : at_point root (Th j r) -> In HideBox r -> j = SyncJob \/ j = GoJob.
Proof.
  intros (d & E) I. cbn [t_job t_rest] in E. assert (X : In HideBox (program root j)) by (rewrite E; apply in_app_iff; right; exact I).
  destruct j; [| |left; reflexivity|right; reflexivity]; cbn in X; repeat (destruct X as [X|X]; [discriminate X|]); destruct X.
Qed.
Lemma launch_rest root j r : at_point root (Th j (LaunchRefresh :: r)) -> j = SyncJob /\ r = [HideBox].
Proof.
  intros (d & E). cbn [t_job t_rest] in E.
  destruct j; [| |destruct root|destruct root]; cbn in E;
    repeat (destruct d as [|? d]; cbn [app] in E; [solve [discriminate E | injection E as <-; split; reflexivity]|injection E as _ E || discriminate E]).
Qed.

Definition shape (root risk : bool) (L : list thread) (s : st) : Prop :=
  (L = [] /\ quiet risk (core s) /\ box s = false) \/
  (exists j r, L = [Th j r] /\ at_point root (Th j r) /\ wp root risk r (core s) /\ (box s = true <-> In HideBox r)) \/
  (exists h r, L = [Th SyncJob h; Th RefreshJob r] /\ (h = [HideBox] \/ h = []) /\ at_point root (Th RefreshJob r) /\ wp0 root risk r (core s) /\ (box s = true <-> h = [HideBox])).
Definition inv (root risk : bool) (s : st) : Prop :=
  ended s = false /\ exists D L, threads s = D ++ L /\ (forall t, In t D -> t_rest t = []) /\ shape root risk L s.

Lemma set_app {A} (D : list A) : forall L k x, set_nth (length D + k) x (D ++ L) = D ++ set_nth k x L.
Proof. induction D as [|y D IH]; intros L k x; [reflexivity|]. cbn [length Nat.add app set_nth]. rewrite IH. reflexivity. Qed.
Lemma inv_init root : inv root false init.
Proof.
  split; [reflexivity|]. exists [], [Th RefreshJob refresh_program]. split; [reflexivity|]. split; [intros t []|]. right; left. exists RefreshJob, refresh_program.
  split; [reflexivity|]. split; [exists []; reflexivity|]. split.
  - cbn. split; [reflexivity|]. split; [reflexivity|]. split; [reflexivity|]. split; [reflexivity|]. intros _. left. reflexivity.
  - cbn. split; [discriminate|]. intuition discriminate.
Qed.

Lemma inv_idle root risk s : inv root risk s -> idle s -> quiet risk (core s) /\ box s = false.
Proof.
  intros (_ & D & L & T & DD & SH) ID. rewrite <- Bool.not_true_iff_false.
  assert (LL : forall t, In t L -> t_rest t = []) by (intros t I; apply ID; rewrite T; apply in_app_iff; right; exact I).
  destruct SH as [(-> & Q & B)|[(j & r & -> & P & W & B)|(h & r & -> & HH & P & W & B)]].
  - rewrite B. split; [exact Q|discriminate].
  - assert (X : r = []) by (apply (LL (Th j r)); left; reflexivity). subst r. split; [exact W|]. rewrite B. intros [].
  - assert (X : r = []) by (apply (LL (Th RefreshJob r)); right; left; reflexivity). assert (Y : h = []) by (apply (LL (Th SyncJob h)); left; reflexivity). subst.
    split; [exact W|]. rewrite B. discriminate.
Qed.
Lemma inv_not_stuck root risk s : inv root risk s -> ~ stuck s.
Proof.
  intros (_ & D & L & T & DD & SH) (B & NC). destruct SH as [(-> & Q & B')|[(j & r & -> & P & W & B')|(h & r & -> & HH & P & W & B')]].
  - rewrite B' in B. discriminate B.
  - apply B' in B. apply (NC (Th j r)); [rewrite T; apply in_app_iff; right; left; reflexivity|]. split; [apply (hide_big root j r P B)|cbn; intros ->; destruct B].
  - apply B' in B. subst h. apply (NC (Th SyncJob [HideBox])); [rewrite T; apply in_app_iff; right; left; reflexivity|]. split; [left; reflexivity|discriminate].
Qed.

(* a turn of a thread *)
Lemma inv_turn root risk s i : inv root risk s -> exists s', step root (Turn i) s = Ok s' /\ inv root risk s'.
Proof.
  intros (N & D & L & T & DD & SH). cbn [step]. rewrite N.
  assert (SAME : inv root risk s) by (split; [exact N|exists D, L; split; [exact T|split; assumption]]).
  destruct (Nat.lt_ge_cases i (length D)) as [LT|GE].
  { rewrite T, nth_error_app1 by exact LT. destruct (nth_error D i) as [[j r]|] eqn:E; [|exists s; split; [reflexivity|exact SAME]].
    assert (X := DD _ (nth_error_In _ _ E)). cbn in X. subst r. exists s. split; [reflexivity|exact SAME]. }
  rewrite T, nth_error_app2 by exact GE. set (k := i - length D). assert (Ei : i = length D + k) by (unfold k; lia). clearbody k. subst i.
  destruct (nth_error L k) as [[j [|c r]]|] eqn:E; [exists s; split; [reflexivity|exact SAME]| |exists s; split; [reflexivity|exact SAME]]. rewrite set_app.
  destruct SH as [(-> & Q & B)|[(j' & r' & -> & P & W & B)|(h & r' & -> & HH & P & W & B)]].
  - destruct k; discriminate E.
  - destruct k as [|[|k]]; [|discriminate E|discriminate E]. injection E as -> ->. cbn [set_nth].
    set (s0 := set_threads (D ++ [Th j r]) s). assert (C0 : core s0 = core s) by reflexivity.
    assert (P' := at_next root j c r P).
    destruct (match c with HideBox => true | LaunchRefresh => true | _ => false end) eqn:CC.
    + destruct c; try discriminate CC.
      * (* LaunchRefresh *) destruct (launch_rest root j r P) as (-> & ->). cbn [wp] in W. destruct W as (F & W).
        assert (F0 : flag s0 = false) by exact F. cbn [exec]. unfold launch. rewrite F0. eexists. split; [reflexivity|].
        split; [exact N|]. exists D, [Th SyncJob [HideBox]; Th RefreshJob refresh_program]. split; [cbn [set_threads threads s0]; rewrite <- app_assoc; reflexivity|]. split; [exact DD|].
        right; right. exists [HideBox], refresh_program. split; [reflexivity|]. split; [left; reflexivity|]. split; [exists []; reflexivity|]. split; [exact W|].
        cbn [set_threads box s0]. split; [reflexivity|intros _]. apply B. right; left; reflexivity.
      * (* HideBox *) assert (J := hide_big root j _ P (or_introl eq_refl)). assert (R0 : r = []) by (apply (proj1 (hide_last root j HideBox r P J)); reflexivity). subst r.
        cbn [exec]. eexists. split; [reflexivity|]. split; [exact N|]. exists D, [Th j []]. split; [reflexivity|]. split; [exact DD|].
        right; left. exists j, []. split; [reflexivity|]. split; [exact P'|]. split; [exact W|]. cbn [set_box box]. split; [discriminate|intros []].
    + assert (W' : match exec root c (core s) with Ok q' => wp root risk r q' | _ => False end) by (destruct c; try exact W; discriminate CC).
      assert (N1 : c <> HideBox) by (intros ->; discriminate CC). assert (N2 : c <> LaunchRefresh) by (intros ->; discriminate CC).
      destruct (exec root c (core s)) as [q| |] eqn:EX; [|destruct W'|destruct W']. rewrite <- C0 in EX. destruct (exec_core root c s0 q N1 N2 EX) as (s' & E' & Q).
      exists s'. split; [exact E'|]. pose proof (exec_threads _ _ _ _ E') as (N' & T' & B'). split; [rewrite N'; exact N|]. exists D, [Th j r].
      split; [destruct T' as [T'|(X & _)]; [rewrite T'; reflexivity|destruct (N2 X)]|]. split; [exact DD|]. right; left. exists j, r. split; [reflexivity|]. split; [exact P'|].
      split; [rewrite Q; exact W'|]. rewrite B'. replace (match c with HideBox => false | _ => box s0 end) with (box s) by (destruct c; try reflexivity; discriminate CC).
      rewrite B. split; [intros [X|X]; [destruct (N1 X)|exact X]|right; assumption].
  - destruct k as [|[|k]]; [| |cbn in E; destruct k; discriminate E].
    + cbn in E. destruct HH as [-> | ->]; [|discriminate E]. injection E as <- <- <-. cbn [set_nth exec]. eexists. split; [reflexivity|]. split; [exact N|].
      exists D, [Th SyncJob []; Th RefreshJob r']. split; [reflexivity|]. split; [exact DD|]. right; right. exists [], r'. split; [reflexivity|]. split; [right; reflexivity|]. split; [exact P|]. split; [exact W|].
      cbn [set_box box]. split; discriminate.
    + cbn in E. injection E as <- ->. cbn [set_nth]. set (s0 := set_threads (D ++ [Th SyncJob h; Th RefreshJob r]) s). assert (C0 : core s0 = core s) by reflexivity.
      assert (NB : ~ (RefreshJob = SyncJob \/ RefreshJob = GoJob)) by (intros [X|X]; discriminate X). destruct (no_hide root RefreshJob c r P NB) as (N1 & N2).
      assert (W' : match exec root c (core s) with Ok q' => wp0 root risk r q' | _ => False end) by (destruct c; try (destruct (N2 eq_refl)); try (destruct (N1 eq_refl)); exact W).
      destruct (exec root c (core s)) as [q| |] eqn:EX; [|destruct W'|destruct W']. rewrite <- C0 in EX. destruct (exec_core root c s0 q N1 N2 EX) as (s' & E' & Q).
      exists s'. split; [exact E'|]. pose proof (exec_threads _ _ _ _ E') as (N' & T' & B'). split; [rewrite N'; exact N|]. exists D, [Th SyncJob h; Th RefreshJob r].
      split; [destruct T' as [T'|(X & _)]; [rewrite T'; reflexivity|destruct (N2 X)]|]. split; [exact DD|]. right; right. exists h, r. split; [reflexivity|]. split; [exact HH|].
      split; [apply (at_next root RefreshJob c r P)|]. split; [rewrite Q; exact W'|]. rewrite B'. replace (match c with HideBox => false | _ => box s0 end) with (box s); [exact B|].
      destruct c; try reflexivity. destruct (N1 eq_refl).
Qed.

(* the programs, from a quiet state *)
Lemma quiet_wp_info root risk q : quiet risk q -> wp root risk info_program q.
Proof. destruct q as [f th b g fi re ma ro jo ac en]. intros (F & FI & RE & RO & JO). cbn in F, FI, RE, RO, JO. subst. cbn. repeat (split; [reflexivity|]). exact JO. Qed.
Lemma quiet_wp_sync root risk q : quiet risk q -> wp root (root || risk) (program root SyncJob) q.
Proof.
  destruct q as [f th b g fi re ma ro jo ac en]. intros (F & FI & RE & RO & JO). cbn in F, FI, RE, RO, JO. subst. destruct root; cbn.
  - split; [reflexivity|]. repeat (split; [reflexivity|]). discriminate.
  - repeat (split; [reflexivity|]). exact JO.
Qed.
Lemma quiet_wp_go root q : quiet false q -> wp root false (program root GoJob) q.
Proof.
  destruct q as [f th b g fi re ma ro jo ac en]. intros (F & FI & RE & RO & JO). cbn in F, FI, RE, RO, JO. subst. specialize (JO eq_refl). destruct root; cbn.
  - destruct JO as [-> | ->]; [|rewrite Nat.eqb_refl]; cbn; repeat (split; [reflexivity|]); intros _; left; reflexivity.
  - repeat (split; [reflexivity|]). intros _. destruct ma; [right|left]; reflexivity.
Qed.
Lemma launched root risk j s q : ended s = false -> idle s -> flag s = false -> core s = q -> wp root risk (program root j) q -> forall b, (b = true <-> In HideBox (program root j)) ->
  inv root risk (set_box b (launch root j s)).
Proof.
  intros N ID F Q W b B. unfold launch. rewrite F. split; [exact N|]. exists (threads s), [Th j (program root j)]. split; [reflexivity|]. split; [exact ID|]. right; left.
  exists j, (program root j). split; [reflexivity|]. split; [exists []; reflexivity|]. split; [rewrite core_box, core_threads, Q; exact W|exact B].
Qed.
Definition after (root risk : bool) (u : user) : bool := match u with PressSync => root || risk | Pick _ => false | _ => risk end.
Lemma inv_user root risk s u : inv root risk s -> idle s -> (u = PressGo -> risk = false) -> exists s', act root u s = Ok s' /\ (inv root (after root risk u) s' \/ (ended s' = true /\ box s' = false /\ flag s' = false)).
Proof.
  intros I ID U. destruct (inv_idle root risk s I ID) as (Q & B). destruct I as (N & I'). assert (I : inv root risk s) by (split; assumption).
  assert (Q' := Q). destruct Q' as (F & FI & RE & RO & JO). cbn [core set_box set_threads flag filling readers row_gen gen job_gen] in F, FI, RE, RO, JO.
  unfold act. rewrite B, N. cbn [orb]. destruct u as [| |any| | |]; cbn [after].
  - eexists. split; [reflexivity|]. left. apply (launched root (root || risk) SyncJob s (core s) N ID F eq_refl (quiet_wp_sync root risk _ Q) true).
    split; [intros _; destruct root; cbn; tauto|reflexivity].
  - specialize (U eq_refl). subst risk. destruct (active s); [|exists s; split; [reflexivity|left; exact I]]. eexists. split; [reflexivity|]. left.
    apply (launched root false GoJob s (core s) N ID F eq_refl (quiet_wp_go root _ Q) true). split; [intros _; destruct root; cbn; tauto|reflexivity].
  - rewrite RO. unfold row_ok. rewrite RO, Nat.eqb_refl, FI. cbn [andb negb]. unfold list_jobs. cbn [filling]. cbn [flag threads box gen readers marked row_gen active ended].
    match goal with |- exists s', Ok (launch root InfoJob ?x) = Ok s' /\ _ => set (s1 := x) end.
    assert (E : launch root InfoJob s1 = set_box false (launch root InfoJob s1)) by (unfold launch, s1; cbn [flag]; try rewrite F; unfold set_box, set_threads; cbn; try rewrite B; reflexivity).
    rewrite E. eexists. split; [reflexivity|]. left. apply (launched root false InfoJob s1 (core s1)); [reflexivity|exact ID|exact F|reflexivity| |].
    + apply quiet_wp_info. unfold s1. split; [exact F|]. split; [reflexivity|]. split; [exact RE|]. split; [reflexivity|]. intros _. cbn. destruct any; [right|left]; reflexivity.
    + split; [discriminate|]. cbn. intuition discriminate.
  - rewrite RO. unfold row_ok. rewrite RO, Nat.eqb_refl, FI. cbn [andb negb].
    assert (E : launch root InfoJob s = set_box false (launch root InfoJob s)) by (unfold launch; rewrite F; unfold set_box, set_threads; cbn; rewrite B; reflexivity).
    rewrite E. eexists. split; [reflexivity|]. left. apply (launched root risk InfoJob s (core s) N ID F eq_refl (quiet_wp_info root risk _ Q) false).
    split; [discriminate|]. cbn. intuition discriminate.
  - rewrite FI. eexists. split; [reflexivity|]. left. split; [reflexivity|]. exists (threads s), []. split; [symmetry; apply app_nil_r|]. split; [exact ID|]. left. split; [reflexivity|]. split; [|reflexivity].
    split; [exact F|]. split; [reflexivity|]. split; [exact RE|]. split; [reflexivity|]. exact JO.
  - rewrite F. eexists. split; [reflexivity|]. right. split; [reflexivity|]. split; reflexivity || assumption.
Qed.

(** A patient and careful session meets no undefined behaviour, its box never hangs, and whenever all threads have ended the box is closed and the next
    action is accepted. *)
Theorem C105_patient root l : patient root l init -> careful root false l ->
  exists s, run root l init = Ok s /\ ~ stuck s /\ (idle s -> box s = false /\ flag s = false).
Proof.
  assert (G : forall l s risk, (inv root risk s \/ (ended s = true /\ box s = false /\ flag s = false)) -> patient root l s -> careful root risk l ->
    exists s' risk', run root l s = Ok s' /\ (inv root risk' s' \/ (ended s' = true /\ box s' = false /\ flag s' = false))).
  { clear l. induction l as [|m l IH]; intros s risk HI HP HC; [exists s, risk; split; [reflexivity|exact HI]|]. cbn [patient] in HP. destruct HP as (HP & HP').
    assert (X : exists s1, step root m s = Ok s1 /\ exists r1, (inv root r1 s1 \/ (ended s1 = true /\ box s1 = false /\ flag s1 = false)) /\ careful root r1 l).
    { destruct HI as [HI|(E & B & F)].
      - destruct m as [u|i].
        + assert (U : u = PressGo -> risk = false) by (intros ->; exact (proj1 HC)).
          destruct (inv_user root risk s u HI HP U) as (s1 & E1 & I1). exists s1. split; [exact E1|]. exists (after root risk u). split; [|destruct u; try exact HC; exact (proj2 HC)].
          exact I1.
        + destruct (inv_turn root risk s i HI) as (s1 & E1 & I1). exists s1. split; [exact E1|]. exists risk. split; [left; exact I1|exact HC].
      - exists s. split; [destruct m as [u|i]; cbn [step]; [unfold act; rewrite E, Bool.orb_true_r|rewrite E]; reflexivity|].
        assert (CC : exists r1, careful root r1 l) by (destruct m as [[| |any| | |]|i]; cbn [careful] in HC; try (eexists; exact HC); eexists; exact (proj2 HC)).
        destruct CC as (r1 & CC). exists r1. split; [right; split; [exact E|split; [exact B|exact F]]|exact CC]. }
    destruct X as (s1 & E1 & r1 & I1 & C1). cbn [run]. rewrite E1. apply (IH s1 r1 I1 (HP' s1 E1) C1). }
  intros HP HC. destruct (G l init false (or_introl (inv_init root)) HP HC) as (s & risk & R & I). exists s. split; [exact R|]. destruct I as [I|(E & B & F)].
  - split; [apply (inv_not_stuck root risk s I)|]. intro ID. destruct (inv_idle root risk s I ID) as (Q & B). split; [exact B|exact (proj1 Q)].
  - split; [|intros _; split; assumption]. intros (X & _). rewrite X in B. discriminate B.
Qed.

(** ** A user who goes by what the program itself knows: no box is open, no job says that it is running, and every started thread has begun *)
Definition begun (root : bool) (t : thread) : Prop := t_rest t <> program root (t_job t).
Fixpoint watchful (root : bool) (l : list move) (s : st) : Prop :=
  match l with
  | [] => True
  | m :: t => match m with User _ => box s = false /\ flag s = false /\ forall t, In t (threads s) -> begun root t | Turn _ => True end /\ forall s', step root m s = Ok s' -> watchful root t s'
  end.
Definition busy (root : bool) (s : st) : Prop :=
  forall t, In t (threads s) -> t_job t = RefreshJob \/ t_job t = InfoJob -> t_rest t <> [] -> begun root t -> flag s = true.
Lemma exec_flag root c s s' : exec root c s = Ok s' -> flag s' = match c with SetFlag => true | ClearFlag => false | _ => flag s end.
Proof.
  destruct c; cbn [exec]; unfold list_jobs, launch; intro H;
    repeat match type of H with context [if ?x then _ else _] => destruct x eqn:?; try discriminate H | context [match ?x with Some _ => _ | None => _ end] => destruct x; try discriminate H end;
    injection H as <-; cbn; auto.
Qed.
Lemma clear_last root j c r : at_point root (Th j (c :: r)) -> j = RefreshJob \/ j = InfoJob -> r <> [] -> c <> ClearFlag.
Proof.
  intros (d & E) J R C. subst c. cbn [t_job t_rest] in E. destruct J as [-> | ->]; cbn in E;
    repeat (destruct d as [|? d]; cbn [app] in E; [solve [discriminate E | injection E as <-; apply R; reflexivity]|injection E as _ E || discriminate E]).
Qed.
Lemma first_sets root j c r : c :: r = program root j -> c = SetFlag.
Proof. destruct j; [| |destruct root|destruct root]; cbn; intro E; injection E as -> _; reflexivity. Qed.
Lemma in_set {A} (l : list A) : forall i x t, In t (set_nth i x l) -> t = x \/ exists k, k <> i /\ nth_error l k = Some t.
Proof.
  induction l as [|y l IH]; intros [|i] x t I; cbn [set_nth] in I; try (destruct I; fail).
  - destruct I as [<-|I]; [left; reflexivity|]. right. apply In_nth_error in I. destruct I as [k E]. exists (S k). split; [discriminate|exact E].
  - destruct I as [<-|I]; [right; exists 0; split; [discriminate|reflexivity]|]. destruct (IH i x t I) as [K|(k & K & E)]; [left; exact K|]. right. exists (S k). split; [intro X; apply K; lia|exact E].
Qed.
Lemma two_under_way root risk s i k j c r t : inv root risk s -> nth_error (threads s) i = Some (Th j (c :: r)) -> nth_error (threads s) k = Some t -> k <> i ->
  t_job t = RefreshJob \/ t_job t = InfoJob -> t_rest t <> [] -> c = HideBox.
Proof.
  intros (_ & D & L & T & DD & SH) Ei Ek Ne J R.
  assert (X : forall x y, nth_error (threads s) x = Some y -> t_rest y <> [] -> exists z, x = length D + z /\ nth_error L z = Some y).
  { intros x y E Ny. rewrite T in E. destruct (Nat.lt_ge_cases x (length D)) as [LT|GE]; [rewrite nth_error_app1 in E by exact LT; apply nth_error_In, DD in E; contradiction|]. rewrite nth_error_app2 in E by exact GE. exists (x - length D). split; [lia|exact E]. }
  destruct (X i _ Ei ltac:(discriminate)) as (a & -> & Ea). destruct (X k _ Ek R) as (b & -> & Eb). clear X Ei Ek.
  destruct SH as [(-> & _)|[(j' & r' & -> & _)|(h & r' & -> & HH & _)]].
  - destruct a; discriminate Ea.
  - destruct a as [|[|a]]; [|discriminate Ea|discriminate Ea]. destruct b as [|[|b]]; [lia|discriminate Eb|discriminate Eb].
  - destruct b as [|[|b]]; [injection Eb as <-; cbn [t_job] in J; destruct J as [J|J]; discriminate J| |destruct b; discriminate Eb]. destruct a as [|[|a]]; [|lia|destruct a; discriminate Ea]. injection Ea as _ Ea. destruct HH as [-> | ->]; [|discriminate Ea]. injection Ea as <- _. reflexivity.
Qed.
Lemma busy_turn root risk s i s' : inv root risk s -> busy root s -> step root (Turn i) s = Ok s' -> busy root s'.
Proof.
  intros I B H. pose proof I as (N & D & L & T & DD & SH). cbn [step] in H. rewrite N in H.
  destruct (nth_error (threads s) i) as [[j [|c r]]|] eqn:E; [injection H as <-; exact B| |injection H as <-; exact B].
  set (s0 := set_threads (set_nth i (Th j r) (threads s)) s) in *. pose proof (exec_flag _ _ _ _ H) as Fl. pose proof (exec_threads _ _ _ _ H) as (_ & Tt & _). change (flag s0) with (flag s) in Fl.
  assert (P : at_point root (Th j (c :: r))).
  { assert (X : In (Th j (c :: r)) L). { apply nth_error_In in E. rewrite T in E. apply in_app_iff in E. destruct E as [E|E]; [apply DD in E; discriminate E|exact E]. }
    destruct SH as [(-> & _)|[(j' & r' & -> & P & _)|(h & r' & -> & HH & P & _)]]; [destruct X|destruct X as [<-|[]]; exact P|]. destruct X as [X|[<-|[]]]; [|exact P]. injection X as <- X. destruct HH as [-> | ->]; [|discriminate X]. injection X as <- <-.
    destruct root; [exists [SetFlag; Work; ClearFlag; LaunchRefresh]|exists [SetFlag; ClearFlag]]; reflexivity. }
  intros t It J R Bg. assert (It' : In t (set_nth i (Th j r) (threads s))).
  { destruct Tt as [Tt|(_ & _ & Tt)]; rewrite Tt in It; [exact It|]. apply in_app_iff in It. destruct It as [It|[<-|[]]]; [exact It|]. destruct Bg. reflexivity. }
  apply in_set in It'. destruct It' as [-> |(k & Ne & Ek)].
  - cbn [t_job t_rest] in *. assert (Nc := clear_last root j c r P J R). destruct (list_eq_dec (fun a b : instr => ltac:(decide equality)) (c :: r) (program root j)) as [W|W].
    + apply first_sets in W. subst c. rewrite Fl. reflexivity.
    + assert (Fs : flag s = true) by (apply (B (Th j (c :: r)) (nth_error_In _ _ E) J); [discriminate|exact W]). rewrite Fl, Fs. destruct c; try reflexivity. destruct (Nc eq_refl).
  - assert (Fs : flag s = true) by (apply (B t (nth_error_In _ _ Ek) J R Bg)). rewrite Fl, Fs. rewrite (two_under_way root risk s i k j c r t I E Ek Ne J R). reflexivity.
Qed.
Lemma busy_user root s u s' : idle s -> act root u s = Ok s' -> busy root s'.
Proof.
  intros ID H t It J R Bg. exfalso. assert (X : forall j, In t (threads (launch root j s)) -> False).
  { intros j K. unfold launch in K. destruct (flag s); [apply R, ID, K|]. cbn [set_threads threads] in K. apply in_app_iff in K. destruct K as [K|[<-|[]]]; [apply R, ID, K|apply Bg; reflexivity]. }
  assert (Y : In t (threads s) -> False) by (intro K; apply R, ID, K).
  unfold act in H. destruct (box s || ended s); [injection H as <-; exact (Y It)|]. destruct u as [| |any| | |].
  - injection H as <-. exact (X _ It).
  - destruct (active s); injection H as <-; [exact (X _ It)|exact (Y It)].
  - destruct (row_gen s); [|injection H as <-; exact (Y It)]. destruct (row_ok s); [|discriminate H]. unfold list_jobs in H. cbn [filling] in H. destruct (filling s); [discriminate H|]. injection H as <-.
    unfold launch in It. cbn [flag] in It. destruct (flag s); cbn [set_threads threads] in It; [exact (Y It)|]. apply in_app_iff in It. destruct It as [K|[<-|[]]]; [exact (Y K)|apply Bg; reflexivity].
  - destruct (row_gen s); [|injection H as <-; exact (Y It)]. destruct (row_ok s); [|discriminate H]. injection H as <-. exact (X _ It).
  - destruct (filling s); [discriminate H|]. injection H as <-. exact (Y It).
  - destruct (flag s); injection H as <-; exact (Y It).
Qed.
Lemma hide_ahead root j c r : at_point root (Th j (c :: r)) -> j = SyncJob \/ j = GoJob -> In HideBox (c :: r).
Proof.
  intros (d & E) J. cbn [t_job t_rest] in E. assert (X : exists p, program root j = p ++ [HideBox]).
  { destruct J as [-> | ->]; destruct root; [exists [SetFlag; Work; ClearFlag; LaunchRefresh]|exists [SetFlag; ClearFlag]|exists ([SetFlag; BeginRead; ReadJobs; EndRead; Work] ++ refresh_program ++ [ListJobs; ClearFlag])|exists [SetFlag; ListJobs; ClearFlag]]; reflexivity. }
  destruct X as [p X]. rewrite E in X. assert (Y : last (d ++ c :: r) SetFlag = HideBox) by (rewrite X; apply last_last). clear -Y.
  assert (Z : forall l, l <> [] -> In (last l SetFlag) l).
  { clear. induction l as [|x l IH]; intro N; [contradiction|]. destruct l as [|y l]; [left; reflexivity|]. right. apply IH. discriminate. }
  assert (W : last (c :: r) SetFlag = HideBox).
  { rewrite <- Y. clear. induction d as [|x d IH]; [reflexivity|]. rewrite IH. cbn [app]. destruct (d ++ c :: r) eqn:K; [destruct d; discriminate K|reflexivity]. }
  rewrite <- W. apply Z. discriminate.
Qed.
(** what the watchful user sees means that every thread has ended *)
Lemma watchful_idle root risk s : inv root risk s -> busy root s -> box s = false -> flag s = false -> (forall t, In t (threads s) -> begun root t) -> idle s.
Proof.
  intros (_ & D & L & T & DD & SH) B Bx F Bg t It. destruct t as [j [|c r]] eqn:Et; [reflexivity|]. exfalso.
  assert (NJ : ~ (j = RefreshJob \/ j = InfoJob)) by (intro J; specialize (B _ It J ltac:(discriminate) (Bg _ It)); congruence).
  assert (X : In (Th j (c :: r)) L) by (rewrite T in It; apply in_app_iff in It; destruct It as [It|It]; [apply DD in It; discriminate It|exact It]).
  destruct SH as [(-> & _)|[(j' & r' & -> & P & W & H)|(h & r' & -> & HH & P & W & H)]]; [destruct X| |].
  - destruct X as [X|[]]. injection X as -> ->. assert (J : j = SyncJob \/ j = GoJob) by (destruct j; [destruct NJ; left; reflexivity|destruct NJ; right; reflexivity|left; reflexivity|right; reflexivity]).
    pose proof (proj2 H (hide_ahead root j c r P J)) as K. congruence.
  - destruct X as [X|[X|[]]]; [|injection X as <- _; destruct NJ; left; reflexivity]. injection X as <- X. destruct HH as [-> | ->]; [|discriminate X]. pose proof (proj2 H eq_refl) as K. congruence.
Qed.
Theorem C105_watchful root l : watchful root l init -> careful root false l -> patient root l init /\
  exists s, run root l init = Ok s /\ ~ stuck s /\ (idle s -> box s = false /\ flag s = false).
Proof.
  assert (G : forall l s risk, ((inv root risk s /\ busy root s) \/ ended s = true) -> watchful root l s -> careful root risk l -> (ended s = true -> idle s) -> patient root l s).
  { clear l. induction l as [|m l IH]; intros s risk HI HW HC HE; [exact Logic.I|]. cbn [watchful] in HW. destruct HW as (HW & HW'). cbn [patient].
    assert (Id : match m with User _ => idle s | Turn _ => True end).
    { destruct m as [u|i]; [|exact Logic.I]. destruct HI as [(HI & HB)|E]; [|exact (HE E)]. destruct HW as (X1 & X2 & X3). exact (watchful_idle root risk s HI HB X1 X2 X3). }
    split; [exact Id|]. intros s' H. destruct HI as [(HI & HB)|E].
    - destruct m as [u|i].
      + assert (U : u = PressGo -> risk = false) by (intros ->; exact (proj1 HC)). destruct (inv_user root risk s u HI Id U) as (s1 & E1 & I1). cbn [step] in H. rewrite E1 in H. injection H as <-.
        apply (IH s1 (after root risk u)); [|exact (HW' s1 E1)|destruct u; try exact HC; exact (proj2 HC)|].
        * destruct I1 as [I1|(I1 & _)]; [left; split; [exact I1|exact (busy_user root s u s1 Id E1)]|right; exact I1].
        * intros En t It. destruct (t_rest t) as [|c r] eqn:R; [reflexivity|]. exfalso. clear -En It R Id E1 HI. destruct HI as (N & _). unfold act in E1. destruct (box s || ended s); [injection E1 as <-; congruence|].
          assert (La : forall j x, ended (launch root j x) = ended x) by (intros j x; unfold launch; destruct (flag x); reflexivity).
          destruct u as [| |any| | |]; [injection E1 as <-; cbn [set_box ended] in En; rewrite La in En; congruence|destruct (active s); injection E1 as <-; [cbn [set_box ended] in En; rewrite La in En; congruence|congruence]| | | |].
          -- destruct (row_gen s); [|injection E1 as <-; congruence]. destruct (row_ok s); [|discriminate E1]. unfold list_jobs in E1. cbn [filling] in E1. destruct (filling s); [discriminate E1|]. injection E1 as <-. rewrite La in En. cbn [ended] in En. congruence.
          -- destruct (row_gen s); [|injection E1 as <-; congruence]. destruct (row_ok s); [|discriminate E1]. injection E1 as <-. rewrite La in En. congruence.
          -- destruct (filling s); [discriminate E1|]. injection E1 as <-. cbn [ended] in En. congruence.
          -- destruct (flag s); injection E1 as <-; [congruence|]. cbn [threads] in It. apply Id in It. congruence.
      + destruct (inv_turn root risk s i HI) as (s1 & E1 & I1). rewrite E1 in H. injection H as <-. apply (IH s1 risk); [left; split; [exact I1|exact (busy_turn root risk s i s1 HI HB E1)]|exact (HW' s1 E1)|exact HC|].
        intro En. destruct I1 as (N1 & _). congruence.
    - assert (Es : s' = s) by (destruct m as [u|i]; cbn [step] in H; [unfold act in H; rewrite E, Bool.orb_true_r in H|rewrite E in H]; injection H as <-; reflexivity). subst s'.
      assert (CC : exists r1, careful root r1 l) by (destruct m as [[| |any| | |]|i]; cbn [careful] in HC; try (eexists; exact HC); eexists; exact (proj2 HC)). destruct CC as (r1 & CC). apply (IH s r1); [right; exact E|exact (HW' s H)|exact CC|exact HE]. }
  intros HW HC. assert (HP : patient root l init).
  { apply (G l init false); [left; split; [apply inv_init|]|exact HW|exact HC|discriminate]. intros t [<-|[]] _ _ Bg. destruct Bg. reflexivity. }
  split; [exact HP|]. exact (C105_patient root l HP HC).
Qed.
Print Assumptions C105_watchful.
