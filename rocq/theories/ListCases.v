(** Concrete cases that meet the hypotheses of C23, C24 (the install list, dependencies of cards install) and C73 (cards dependent). *)
From Verif Require Import Base BaseProofs StrModel StrProofs RulesModel FsModel MetaModel DbModel Graph GenDeps GenDepsProofs GenDepsProps.
From Coq Require Import ZArith Lia.

Notation dia_wants := (wants have_base 0 (arch_of diamond)).
Theorem C23_case : consistent have_base 0 (idx_of diamond) unit (fetch_of diamond) (arch_of diamond) /\
  (forall n, mget n (idx_of diamond) = None -> a_deps (arch_of diamond n) = []) /\
  (forall n, dia_wants (L "top") n -> ~ leads have_base 0 (arch_of diamond) n n) /\
  dia_wants (L "top") (L "low") /\ leads have_base 0 (arch_of diamond) (L "top") (L "low") /\
  generate have_base 0 (idx_of diamond) unit (fetch_of diamond) 20 (L "top") [] (G [] tt) <> None.
Proof.
  assert (M : forall n k, In (d10 k) (a_deps (arch_of diamond n)) -> k <> n -> smem n [L "top"; L "left"] = true -> smem k [L "left"; L "low"] = true -> missing have_base 0 (arch_of diamond) n k).
  { intros n k I N S' S. apply smem_In in S, S'. exists 1700000000%Z. split; [exact I|]. split; [exact N|].
    destruct S' as [<-|[<-|[]]]; destruct S as [<-|[<-|[]]]; (split; [intros [_ [r [H _]]]; vm_compute in H; discriminate H|intros [r [H _]]; vm_compute in H; discriminate H]). }
  split; [apply repo_consistent|]. split; [exact (proj1 diamond_acyclic)|]. split; [intros n _; exact (proj2 diamond_acyclic n)|].
  assert (M1 : missing have_base 0 (arch_of diamond) (L "top") (L "left")) by (apply M; [vm_compute; auto|discriminate|reflexivity|reflexivity]).
  assert (M2 : missing have_base 0 (arch_of diamond) (L "left") (L "low")) by (apply M; [vm_compute; auto|discriminate|reflexivity|reflexivity]).
  split; [apply wants_dep with (L "left"); [apply wants_dep with (L "top"); [constructor|exact M1]|exact M2]|].
  split; [apply leads_more with (L "left"); [exact M1|apply leads_one, M2]|]. rewrite diamond_list. discriminate.
Qed.
Theorem C24_case : consistent have_base 0 (idx_of diamond) unit (fetch_of diamond) (arch_of diamond) /\
  generate_all have_base 0 (idx_of diamond) unit (fetch_of diamond) 20 [L "left"; L "top"] [] (G [] tt) =
  Some (Ok ([d10 (L "low"); (L "left", 0%Z); d10 (L "right"); (L "top", 0%Z)], G [L "right"; L "top"; L "low"; L "left"] tt)).
Proof. split; [apply repo_consistent|]. vm_compute. reflexivity. Qed.
(** a wanted package in no index *)
Definition lacking : list apkg := [APkg (L "top") (L "1") 1 1700000001 [] [d10 (L "gone")]].
Theorem C24_unavailable_case : consistent have_base 0 (idx_of lacking) unit (fetch_of lacking) (arch_of lacking) /\
  wants have_base 0 (arch_of lacking) (L "top") (L "gone") /\ mget (L "gone") (idx_of lacking) = None /\
  exists r, generate have_base 0 (idx_of lacking) unit (fetch_of lacking) 20 (L "top") [] (G [] tt) = Some r.
Proof.
  split; [apply repo_consistent|]. split; [|split; [reflexivity|eexists; vm_compute; reflexivity]].
  apply wants_dep with (L "top"); [constructor|]. exists 1700000000%Z. split; [vm_compute; auto|]. split; [discriminate|].
  split; [intros [_ [r [H _]]]; vm_compute in H; discriminate H|intros [r [H _]]; vm_compute in H; discriminate H].
Qed.
