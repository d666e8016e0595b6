(** C22, C23, C24: the install list. *)
From Verif Require Import Base BaseProofs StrModel RulesModel FsModel MetaModel DbModel Graph GenDeps GenDepsProofs.
From Coq Require Import ZArith Lia.

Section Props.
  Variable db : list (str * rec).
  Variable jb : Z.
  Variable idx : list (str * list dep).
  Variable st : Type.
  Variable fetch : str -> st -> res (apkg * st).
  Variable arch : str -> apkg.
  (** The repositories are consistent: during the run a name of the index has one archive, which bears that name, and the index
      gives the dependencies of that archive (at least those that are not installed already; an archive also lists itself). *)
  Definition consistent : Prop :=
    (forall n s a s', mget n idx <> None -> fetch n s = Ok (a, s') -> a = arch n) /\
    (forall n, a_name (arch n) = n) /\
    (forall n ds, mget n idx = Some ds -> filter (fun d => negb (same db jb d)) (others n ds) = filter (fun d => negb (same db jb d)) (others n (a_deps (arch n)))).
  Notation missing := (missing db jb arch).
  Notation wants := (wants db jb arch).
  Notation generate := (generate db jb idx st fetch).
  Notation generate_all := (generate_all db jb idx st fetch).

  Lemma seen_nil (s : st) : seen_ok db jb idx st arch (G [] s). Proof. intros n []. Qed.
  Theorem C22_order fuel requests s l g : consistent -> generate_all fuel requests [] (G [] s) = Some (Ok (l, g)) ->
    NoDup (map fst l) /\ (forall u x v, l = u ++ x :: v -> forall k, missing (fst x) k -> In k (map fst u)).
  Proof.
    intros [C1 [C2 C3]] E. destruct (generate_all_ok db jb idx st fetch arch C1 C2 C3 fuel requests [] (G [] s) l g) as [_ [N [O _]]]; auto.
    - apply seen_nil.
    - constructor.
    - intros u x v H. destruct u; discriminate.
  Qed.
  Theorem C24_exact fuel requests s l g : consistent -> generate_all fuel requests [] (G [] s) = Some (Ok (l, g)) ->
    forall n, In n (map fst l) <-> exists r, In r requests /\ wants r n.
  Proof.
    intros [C1 [C2 C3]] E n. destruct (generate_all_ok db jb idx st fetch arch C1 C2 C3 fuel requests [] (G [] s) l g) as [_ [_ [_ W]]]; auto.
    - apply seen_nil.
    - constructor.
    - intros u x v H. destruct u; discriminate.
    - unfold names in W. rewrite W. cbn. tauto.
  Qed.
  (** when a wanted package is in no index the command does not go on *)
  Theorem C24_unavailable fuel request l s r n : consistent -> generate fuel request l (G [] s) = Some r -> wants request n -> mget n idx = None ->
    forall l' g', r <> Ok (l', g').
  Proof.
    intros [C1 [C2 C3]] E W Nn l' g' ->. unfold GenDeps.generate in E. destruct (loop db jb idx st fetch fuel [(request, 0%Z)] [] (G [] s)) as [[[out g1]| |]|] eqn:Lo; try discriminate.
    destruct (loop_ok db jb idx st fetch arch C1 C2 C3 request fuel (G [] s) out g1 (seen_nil s) Lo) as [_ [Wo [_ Ix]]]. apply (Ix n); [apply Wo, W|exact Nn].
  Qed.

  (** [n] leads to [k] through one or more missing packages *)
  Inductive leads : str -> str -> Prop :=
  | leads_one n k : missing n k -> leads n k
  | leads_more n k m : missing n k -> leads k m -> leads n m.
  Definition graphd (n : str) : list str := map fst (succs db jb arch n).
  Lemma missing_graphd : consistent -> forall n k, missing n k <-> In k (graphd n).
  Proof.
    intros [C1 [C2 C3]] n k. rewrite (missing_succs db jb arch). unfold graphd. rewrite in_map_iff. split; [intros [t I]; exists (k, t); auto|]. intros [[k' t] [<- I]]. exists t. exact I.
  Qed.
  Lemma reach_leads : consistent -> forall n k, reach graphd n k -> n = k \/ leads n k.
  Proof.
    intros C n k R. induction R as [|n d m I R IH]; [left; reflexivity|]. right. apply (missing_graphd C) in I. destruct IH as [->|IH]; [apply leads_one, I|apply leads_more with d; assumption].
  Qed.
  Lemma wants_reach : consistent -> forall r n, reach graphd r n -> forall q, wants q r -> wants q n.
  Proof.
    intros C r n R. induction R as [n|n d m I R IH]; intros q W; [exact W|]. apply IH. apply wants_dep with n; [exact W|apply (missing_graphd C), I].
  Qed.
  (** Without a cycle among the wanted packages the computation ends. [arch] says nothing about names that are not in the index. *)
  Theorem C23_terminates request l s : consistent -> (forall n, mget n idx = None -> a_deps (arch n) = []) ->
    (forall n, wants request n -> ~ leads n n) -> exists fuel, generate fuel request l (G [] s) <> None.
  Proof.
    intros C Na Ac. pose proof C as [C1 [C2 C3]].
    set (U0 := request :: keys idx ++ flat_map graphd (keys idx)).
    assert (Cl0 : forall n d, In n U0 -> In d (graphd n) -> In d U0).
    { intros n k I K. right. apply in_app_iff. right. apply in_flat_map.
      destruct (mget n idx) as [ds|] eqn:Gn.
      + exists n. split; [apply mget_In in Gn; apply (in_map fst) in Gn; exact Gn|exact K].
      + exfalso. unfold graphd, succs in K. rewrite (Na n Gn) in K. cbn in K. destruct (uptodate db jb (arch n)); destruct K. }
    set (U := closure graphd (S (length U0)) [request]).
    assert (Us : forall x, In x U <-> reach graphd request x).
    { intro x. unfold U. rewrite (closure_spec graphd U0 Cl0); [|intros y [<-|[]]; left; reflexivity|lia].
      split; [intros [r [[<-|[]] R]]; exact R|intro R; exists request; split; [left; reflexivity|exact R]]. }
    destruct (acyclic_rank graphd U) as [rank Hr].
    - intros n d I K. apply Us. apply Us in I. apply (reach_trans _ _ n); [exact I|]. apply reach_step with d; [exact K|apply reach_refl].
    - intros n k I K R. apply (Ac n). { apply Us in I. apply (wants_reach C request n I). constructor. }
      apply (missing_graphd C) in K. apply (reach_leads C) in R as [<-|R]; [apply leads_one, K|apply leads_more with k; assumption].
    - apply (generate_stops db jb idx st fetch arch C1 C2 C3 rank (fun n => In n U)).
      + intros n k I M. apply Us. apply Us in I. apply (reach_trans _ _ n); [exact I|]. apply reach_step with k; [apply (missing_graphd C), M|apply reach_refl].
      + intros n k I M. apply Hr; [exact I|apply (missing_graphd C), M].
      + apply Us, reach_refl.
      + apply seen_nil.
  Qed.
  (** With a cycle of missing packages among the wanted ones it never does. *)
  Theorem C23_cycle_refuted request n l s : consistent -> (forall k s, wants request k -> mget k idx <> None /\ exists a s', fetch k s = Ok (a, s')) ->
    wants request n -> leads n n -> forall fuel, generate fuel request l (G [] s) = None.
  Proof.
    intros [C1 [C2 C3]] F W Lp fuel.
    assert (P : forall pend out g fuel, inv db jb idx st arch request pend out g -> (exists d, In d pend /\ leads (fst d) n /\ forall m, m = fst d -> wants request m) ->
      loop db jb idx st fetch fuel pend out g = None).
    { intros pend out g f. revert pend out g. induction f as [|f IH]; intros pend out g I [d [Id [Ld _]]]; destruct pend as [|x p]; [destruct Id|reflexivity|destruct Id|]. cbn [loop].
      assert (Wx : wants request (fst x)) by (apply (i_wants _ _ _ _ _ _ _ _ _ I); left; reflexivity).
      assert (D : exists ds g', direct db jb idx st fetch (fst x) g = Ok (ds, g')).
      { unfold direct. destruct (smem (fst x) (g_seen g)); [eauto|]. destruct (F (fst x) (g_st g) Wx) as [Hi [a [s' Ha]]]. destruct (mget (fst x) idx); [|contradiction].
        rewrite Ha. cbn [rbind]. destruct (uptodate db jb a); eauto. }
      destruct D as [ds [g' D]]. rewrite D.
      assert (S : same db jb x = false) by (apply (i_same _ _ _ _ _ _ _ _ _ I); left; reflexivity). rewrite S.
      pose proof (step_inv db jb idx st fetch arch C1 C2 C3 request x p out g ds g' I D) as I'. apply (IH _ _ _ I').
      destruct (direct_ok db jb idx st fetch arch C1 C2 C3 (fst x) g ds g' (i_seen _ _ _ _ _ _ _ _ _ I) D) as [_ [Sc _]].
      destruct Id as [<-|Id].
      - assert (K : exists k, missing (fst x) k /\ leads k n).
        { inversion Ld as [a b M|a b c M R]; subst; [exists n; auto|exists b; auto]. }
        destruct K as [k [M Lk]]. pose proof M as M'. apply (missing_succs db jb arch) in M as [t M]. exists (k, t). split; [|split; [exact Lk|intros m ->; cbn; apply wants_dep with (fst x); assumption]].
        unfold push. apply in_app_iff. right. rewrite Sc. exact M.
      - exists d. split; [apply push_keep; [apply (i_same _ _ _ _ _ _ _ _ _ I); right; exact Id|exact Id]|]. split; [exact Ld|]. intros m ->. apply (i_wants _ _ _ _ _ _ _ _ _ I). right. apply in_app_iff. left. exact Id. }
    unfold GenDeps.generate. rewrite (P [(request, 0%Z)] [] (G [] s) fuel); [reflexivity|apply start_inv, seen_nil|].
    exists (request, 0%Z). split; [left; reflexivity|]. split; [|intros m ->; constructor]. cbn [fst].
    clear -W Lp. induction W as [|a b W IH M]; [exact Lp|].
    assert (G : leads a b) by (apply leads_one, M). 
    assert (Tr : forall x y z, leads x y -> leads y z -> leads x z) by (intros x y z H1; induction H1; intro H2; [eapply leads_more; eassumption|eapply leads_more; [eassumption|auto]]).
    (* the last step of the way to n *)
    revert Lp. generalize dependent b. intros b M G Lb.
    assert (H : forall y, wants request y -> leads request y \/ y = request).
    { clear -Tr. intros y Wy. induction Wy as [|a b Wa IHa Mb]; [right; reflexivity|]. left. destruct IHa as [IHa|IHa]; [apply Tr with a; [exact IHa|apply leads_one, Mb]|subst a; apply leads_one, Mb]. }
    destruct (H a W) as [K|K]; [apply Tr with a; assumption|subst a; exact G].
  Qed.
  (** Exactly: when every wanted package can be fetched, the computation ends iff no wanted package needs itself. *)
  Theorem C23_ends_iff request l s : consistent -> (forall n, mget n idx = None -> a_deps (arch n) = []) ->
    (forall k s, wants request k -> mget k idx <> None /\ exists a s', fetch k s = Ok (a, s')) ->
    ((exists fuel, generate fuel request l (G [] s) <> None) <-> forall n, wants request n -> ~ leads n n).
  Proof.
    intros C Na F. split; [|apply C23_terminates; assumption].
    intros [fuel E] n W Lp. apply E. apply (C23_cycle_refuted request n l s C F W Lp).
  Qed.
End Props.

(** ** concrete repositories *)
Definition repo_of (l : list apkg) : list (str * apkg) := map (fun a => (a_name a, a)) l.
Definition arch_of (l : list apkg) (n : str) : apkg := match mget n (repo_of l) with Some a => a | None => APkg n [] 0 0 [] [] end.
Definition idx_of (l : list apkg) : list (str * list dep) := map (fun a => (a_name a, a_deps a)) l.
Definition fetch_of (l : list apkg) (n : str) (s : unit) : res (apkg * unit) := Ok (arch_of l n, s).
Lemma repo_consistent db jb l : consistent db jb (idx_of l) unit (fetch_of l) (arch_of l).
Proof.
  split; [intros n s a s' _ H; unfold fetch_of in H; congruence|]. split.
  - intro n. unfold arch_of, repo_of. destruct (mget n (map (fun a => (a_name a, a)) l)) as [a|] eqn:E; [|reflexivity]. apply mget_In, in_map_iff in E as [b [H _]]. congruence.
  - intros n ds H. assert (K : ds = a_deps (arch_of l n)); [|rewrite K; reflexivity]. unfold arch_of, repo_of, idx_of in *. induction l as [|a l IH]; [discriminate|]. cbn in *. destruct (seqb n (a_name a)); [congruence|apply IH, H].
Qed.
Definition d10 (n : str) : dep := (n, 1700000000%Z).
(** top needs left and right, which both need low; base is installed *)
Definition diamond : list apkg :=
  [ APkg (L "top") (L "1") 1 1700000001 [] [d10 (L "left"); d10 (L "right")];
    APkg (L "left") (L "1") 1 1700000000 [] [d10 (L "low")];
    APkg (L "right") (L "1") 1 1700000000 [] [d10 (L "base"); d10 (L "left"); d10 (L "low")];
    APkg (L "low") (L "1") 1 1700000000 [] [d10 (L "base")];
    APkg (L "base") (L "1") 1 1700000000 [] [] ].
Definition have_base : list (str * rec) := [(L "base", with_build (Some 1700000000%Z) (with_version (L "1") start_rec))].
Example diamond_list : generate have_base 0 (idx_of diamond) unit (fetch_of diamond) 20 (L "top") [] (G [] tt) =
  Some (Ok ([d10 (L "low"); d10 (L "left"); d10 (L "right"); (L "top", 0%Z)], G [L "low"; L "right"; L "left"; L "top"] tt)).
Proof. vm_compute. reflexivity. Qed.
Example diamond_consistent : consistent have_base 0 (idx_of diamond) unit (fetch_of diamond) (arch_of diamond) /\ missing have_base 0 (arch_of diamond) (L "right") (L "left").
Proof.
  split; [apply repo_consistent|]. exists 1700000000%Z. split; [vm_compute; auto|]. split; [discriminate|]. split.
  - intros [_ [r [H _]]]. vm_compute in H. discriminate.
  - intros [r [H _]]. vm_compute in H. discriminate.
Qed.
(** two packages that need each other: 'cards install' never ends *)
Definition mutual : list apkg :=
  [ APkg (L "ping") (L "1") 1 1700000000 [] [d10 (L "pong")]; APkg (L "pong") (L "1") 1 1700000000 [] [d10 (L "ping")] ].
Lemma mutual_missing a b : (a = L "ping" /\ b = L "pong") \/ (a = L "pong" /\ b = L "ping") -> missing [] 0 (arch_of mutual) a b.
Proof.
  intros [[-> ->]|[-> ->]]; exists 1700000000%Z; (split; [vm_compute; auto|]); (split; [discriminate|]); split; intros [r H]; try (destruct H as [H _]; discriminate); destruct H as [q [H _]]; discriminate.
Qed.
Theorem C23_mutual_refuted : forall fuel, generate [] 0 (idx_of mutual) unit (fetch_of mutual) fuel (L "ping") [] (G [] tt) = None.
Proof.
  apply (C23_cycle_refuted [] 0 (idx_of mutual) unit (fetch_of mutual) (arch_of mutual) (L "ping") (L "ping") [] tt).
  - apply repo_consistent.
  - intros k s W. split; [|exists (arch_of mutual k), s; reflexivity].
    assert (K : k = L "ping" \/ k = L "pong").
    { induction W as [|n k W IH [t [I _]]]; [left; reflexivity|]. destruct IH as [-> | ->]; vm_compute in I; destruct I as [I|[]]; inversion I; auto. }
    destruct K as [-> | ->]; vm_compute; discriminate.
  - constructor.
  - apply leads_more with (L "pong"); [apply mutual_missing; auto|apply leads_one, mutual_missing; auto].
Qed.
(** the diamond has no cycle, so the hypotheses of the termination theorem hold for it *)
Example diamond_acyclic : (forall n, mget n (idx_of diamond) = None -> a_deps (arch_of diamond n) = []) /\ (forall n, ~ leads have_base 0 (arch_of diamond) n n).
Proof.
  split.
  - intros n H. unfold arch_of. destruct (mget n (repo_of diamond)) as [a|] eqn:E; [|reflexivity]. exfalso. revert H E. unfold idx_of, repo_of, diamond. cbn [map a_name mget].
    destruct (seqb n (L "top")); [discriminate|]. destruct (seqb n (L "left")); [discriminate|]. destruct (seqb n (L "right")); [discriminate|]. destruct (seqb n (L "low")); [discriminate|]. destruct (seqb n (L "base")); discriminate.
  - set (rank := fun n => if seqb n (L "top") then 4 else if seqb n (L "right") then 3 else if seqb n (L "left") then 2 else if seqb n (L "low") then 1 else 0).
    assert (Hr : forall n k, missing have_base 0 (arch_of diamond) n k -> rank k < rank n).
    { intros n k [t [I [N _]]]. unfold arch_of in I. destruct (mget n (repo_of diamond)) as [a|] eqn:E; [|destruct I].
      apply mget_In in E. cbn in E. destruct E as [E|[E|[E|[E|[E|[]]]]]]; inversion E; subst; cbn in I;
        repeat (destruct I as [I|I]; [inversion I; subst; vm_compute; lia|]); destruct I. }
    intros n K. assert (M : forall a b, leads have_base 0 (arch_of diamond) a b -> rank b < rank a).
    { intros a b H. induction H as [a b H|a b c H _ IH]; [apply Hr, H|]. apply Hr in H. lia. }
    apply M in K. lia.
Qed.
