(** Concrete configurations: the theorems of ConfProps and PurgeProps apply to them, and the cases where the claims fail. *)
From Verif Require Import Base BaseProofs StrModel StrSpec FsModel FsSpec FsProofs MetaSpec ConfModel ConfProps PurgeProps.
From Coq Require Import Lia.

Definition ex_conf : list str :=
  [L "# a comment"; []; L "dir /depot/base|http://one.org"; L "dir /usr/ports/own # mine"; L "url http://two.org"; L "url http://three.org"; L "collection gui"; L "collection base"; L "depot /depot"; L "unknown key"].
Definition ex_cfg : option cfg := read_conf (L "x86_64") (Some (text_of ex_conf)) (Some (text_of [L "version 12"])).
Example C30_example : exists c, ex_cfg = Some c /\ c_url c = L "http://two.org" /\ c_version c = L "12" /\
  c_dirs c = [DU (L "base") (L "/depot") (L "http://one.org"); DU (L "own") (L "/usr/ports") (L "http://two.org"); DU (L "gui") (L "/depot") (L "http://two.org")].
Proof. eexists. split; [vm_compute; reflexivity|]. split; [reflexivity|]. split; reflexivity. Qed.
Example ex_conf_good : good_lines ex_conf.
Proof.
  pose proof BUFSIZ_big as B. unfold good_lines, ex_conf. repeat (constructor; [split; [vm_compute; intuition discriminate|split; [vm_compute; intuition discriminate|cbn [List.length L list_ascii_of_string]; lia]]|]). constructor.
Qed.
(** a directory without a slash is not read as a collection of the depot: the collection has an empty name *)
Example C30_no_slash_refuted : exists c, read_conf (L "x86_64") (Some (text_of [L "depot /depot"; L "dir base|http://one.org"])) None = Some c /\ c_dirs c = [DU [] (L "/depot") (L "http://one.org")].
Proof. eexists. split; [vm_compute; reflexivity|]. reflexivity. Qed.
(** separated by a tab and with a space later in the line: ignored as a whole *)
Example C30_tab_refuted : exists c, read_conf (L "x86_64") (Some (text_of [L "dir" ++ [tab] ++ L "/depot/base | http://one.org"])) None = Some c /\ c_dirs c = [].
Proof. eexists. split; [vm_compute; reflexivity|]. reflexivity. Qed.

Definition D := Node KDir [] 493 0 0 0 0.
Definition F := Node KReg (L "x") 420 0 0 0 0.
Definition ex_fs : fs :=
  [([], D); ([L "bin"], D); ([L "bin"; L "sh"], F); ([L "depot"], D); ([L "depot"; L "base"], D); ([L "depot"; L "base"; L "foo"], D); ([L "depot"; L "base"; L "foo"; L "foo1.cards.tar"], F);
   ([L "depot"; L "base"; L ".REPO"], F); ([L "depot"; L "base"; L "own"], D); ([L "depot"; L "base"; L "own"; L "Pkgfile"], F); ([L "depot"; L "mine"], D); ([L "depot"; L "mine"; L "Pkgfile"], F)].
Definition purged (ls : list str) (p : path) : option node := match read_conf (L "x86_64") (Some (text_of ls)) None with Some c => fget (purge c ex_fs) p | None => None end.
Example C49_example : map (purged [L "dir /depot/base|http://one.org"; L "dir /depot/mine"]) [[L "depot"; L "base"; L "foo"; L "foo1.cards.tar"]; [L "depot"; L "base"; L "foo"]; [L "depot"; L "base"; L ".REPO"]; [L "depot"; L "mine"; L "Pkgfile"]; [L "bin"; L "sh"]]
  = [None; Some D; Some F; Some F; Some F].
Proof. vm_compute. reflexivity. Qed.
(** a local collection inside the directory of a downloadable one is emptied *)
Example C49_nested_refuted : purged [L "dir /depot/base|http://one.org"; L "dir /depot/base/own"] [L "depot"; L "base"; L "own"; L "Pkgfile"] = None.
Proof. vm_compute. reflexivity. Qed.
(** with a default url every collection that gives none is downloadable *)
Example C49_default_url_example : purged [L "dir /depot/base"; L "url http://one.org"; L "dir /depot/mine"] [L "depot"; L "mine"; L "Pkgfile"] = None.
Proof. vm_compute. reflexivity. Qed.
(** a dir line without a slash: the whole depot, or without a depot the whole system *)
Example C49_depot_refuted : purged [L "depot /depot"; L "dir base|http://one.org"; L "dir /depot/mine"] [L "depot"; L "mine"; L "Pkgfile"] = None.
Proof. vm_compute. reflexivity. Qed.
Example C49_root_refuted : purged [L "dir base|http://one.org"] [L "bin"; L "sh"] = None.
Proof. vm_compute. reflexivity. Qed.
Example ex_fs_ok : names_ok ex_fs /\ tree ex_fs.
Proof.
  assert (A : forall (P : path -> Prop), Forall (fun e => P (fst e)) ex_fs -> forall p, fget ex_fs p <> None -> P p).
  { intros P Fa p H. apply fget_In in H as [n I]. rewrite Forall_forall in Fa. exact (Fa _ I). }
  split.
  - unfold names_ok. apply A. unfold ex_fs. repeat (constructor; [repeat (constructor; [split; [discriminate|split; [vm_compute; intuition discriminate|discriminate]]|]); constructor|]). constructor.
  - split; [exists D; split; reflexivity|]. intros p c H. revert H. generalize (eq_refl (p ++ [c])). generalize (p ++ [c]) at 1 3. intros q E H. revert p c E. pattern q. revert q H. apply A.
    unfold ex_fs. repeat (constructor; [intros p c E; cbn [fst] in E|]); [..|constructor].
    all: match type of E with [] = _ => destruct p; discriminate E | ?l = _ => let a := eval cbv [removelast] in (removelast l) in let b := eval cbv [last] in (last l ([] : str)) in
           change l with (a ++ [b]) in E; apply app_inj_tail in E as [<- _]; eexists; split; [reflexivity|reflexivity] end.
Qed.
