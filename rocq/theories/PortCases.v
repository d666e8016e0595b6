(** Concrete cases that meet the hypotheses of C73 (cards dependent), C64 (cards query -b) and C88 (the table of contents of a page). *)
From Verif Require Import Base BaseProofs StrModel FsModel MetaModel StrProofs Graph PortsModel PortsProofs PortsProps PortsLists FilesModel FilesProps.

Definition ex_dep : list (str * list str) := [(L "a", [L "b"; L "c"]); (L "b", [L "c"]); (L "c", [L "c"]); (L "d", [L "a"; L "gone"])].
Lemma ex_dep_plain m e : writes ex_dep m e -> ~ In "."%char e.
Proof.
  intros [ds [[u [v [E _]]] I]]. assert (H : In (m, ds) ex_dep) by (rewrite E; apply in_app_iff; right; left; reflexivity).
  destruct H as [H|[H|[H|[H|[]]]]]; apply pair_equal_spec in H; destruct H as [_ <-]; cbn [In] in I;
    repeat (destruct I as [<-|I]; [cbn; intros X; decompose [or] X; try contradiction; discriminate|]); destruct I.
Qed.
Theorem C73_case : exists s, tree ex_dep = Some s /\ In (L "c") (map fst ex_dep) /\ (forall m e, writes ex_dep m e -> ~ In "."%char e) /\
  dependents s (L "c") = [L "a"; L "b"; L "c"] /\ dependents s (L "gone") = [L "d"] /\ needs ex_dep (L "a") (L "c") /\ ~ needs ex_dep (L "d") (L "c").
Proof.
  assert (T : exists s, tree ex_dep = Some s /\ dependents s (L "c") = [L "a"; L "b"; L "c"] /\ dependents s (L "gone") = [L "d"])
    by (eexists; split; [vm_compute; reflexivity|split; vm_compute; reflexivity]).
  destruct T as (s & T & D & Dg). exists s. assert (Ic : In (L "c") (map fst ex_dep)) by (cbn; tauto).
  assert (N : forall x, x <> L "c" -> (In x (dependents s (L "c")) <-> needs ex_dep x (L "c"))) by (intro x; apply (C73_plain_partial ex_dep s (L "c") T Ic ex_dep_plain)).
  split; [exact T|]. split; [exact Ic|]. split; [exact ex_dep_plain|]. split; [exact D|]. split; [exact Dg|].
  split; [apply N; [discriminate|rewrite D; left; reflexivity]|]. intro K. apply N in K; [|discriminate]. rewrite D in K.
  destruct K as [K|[K|[K|[]]]]; discriminate K.
Qed.
Theorem C64_case : well depot1 /\ found_in (L "/bin/") (L "/") = false /\
  query_cmd (found_in (L "/bin/")) (written depot1) =
  Ok [(L "base", L "bash.cards-5.2-1-x86_64", L "/usr/bin/bash"); (L "base", L "bash.cards-5.2-1-x86_64", L "/usr/bin/sh"); (L "extra", L "zsh.cards-5.9-2-x86_64", L "/usr/bin/zsh")].
Proof. split; [exact well1|]. split; vm_compute; reflexivity. Qed.
