(** C28: witness and counterexamples. A toy signature scheme: the hash is the content, the signature is the hash. *)
From Verif Require Import Base BaseProofs StrModel RulesModel FsModel MetaModel DbModel DbExamples GenDeps HexModel HexProps IndexModel FetchModel FetchProps.
From Coq Require Import ZArith Lia.

Definition t_sha (c : str) : str := c.
Definition t_pem (c : str) : option unit := if seqb c (L "key") then Some tt else None.
Definition t_verify (_ : unit) (sg m : str) : bool := seqb sg m.
Definition a_foo : archive := pkg [L "Nfoo"; L "V1"; L "ax86_64"; L "r1"; L "B1700000000"; L "Rbar1700000000"] [(L "usr/", dirn); (L "usr/foo", reg (L "foo"))].
Definition a_bar : archive := pkg [L "Nbar"; L "V1"; L "ax86_64"; L "r1"; L "B1700000000"] [(L "usr/", dirn); (L "usr/bar", reg (L "bar"))].
Definition a_fr : archive := pkg [L "Nfoo.fr"; L "V1"; L "ax86_64"; L "r1"; L "B1700000000"] [(L "usr/", dirn); (L "usr/foo.fr", reg (L "foo"))].
Definition t_unpack (c : str) : option archive :=
  if seqb c (L "FOO") then Some a_foo else if seqb c (L "BAR") then Some a_bar else if seqb c (L "FR") then Some a_fr else if seqb c (L "EVIL") then Some a_bar else None.
Definition t_rec (file : str) (h sg : str) (ds : list dep) : irec := IRec file (put "H" h (put "I" sg (fun _ => None))) [] no_many ds.
Definition t_ent (n content : str) (ds : list dep) : str * ent := (n, Ent (L "/depot/c") (t_rec (n ++ L ".cards-zst") (hex content) (hex content) ds)).
Definition t_repo : list (str * ent) := [t_ent (L "foo") (L "FOO") [(L "bar", 1700000000%Z)]; t_ent (L "bar") (L "BAR") []; t_ent (L "foo.fr") (L "FR") []].
Definition t_start : fstate := Fs [(L "/depot/c/.PKEY", L "key"); (L "/depot/c/bar.cards-zst", L "EVIL")] [Some (Some (L "FOO")); Some (Some (L "BAR")); Some (Some (L "FR"))].
Definition t_url : str := L "http://repo".
(** the good case: the wrong file of bar is replaced *)
Example t_resolve : exists g, resolve t_url t_repo t_sha unit t_pem t_verify t_unpack [] 0 20 [L "foo"] [L "fr"] t_start =
  Some (Ok ([(L "bar", 1700000000%Z); (L "foo", 0%Z); (L "foo.fr", 0%Z)], g)) /\ mget (L "/depot/c/bar.cards-zst") (f_files (g_st g)) = Some (L "BAR").
Proof. eexists. split; vm_compute; reflexivity. Qed.
Lemma t_repo_cases n e : mget n t_repo = Some e -> In (n, e) t_repo. Proof. apply mget_In. Qed.
Example C28_hypotheses : t_url <> [] /\ separate t_repo /\ named t_repo t_sha unit t_pem t_verify t_unpack.
Proof.
  split; [discriminate|]. split; [split|].
  - intros n m e f He Hf K. apply mget_In in He, Hf. cbn in He, Hf. destruct He as [He|[He|[He|[]]]]; inversion He; subst; destruct Hf as [Hf|[Hf|[Hf|[]]]]; inversion Hf; subst; try reflexivity; discriminate K.
  - intros n m e f He Hf K. apply mget_In in He, Hf. cbn in He, Hf. destruct He as [He|[He|[He|[]]]]; inversion He; subst; destruct Hf as [Hf|[Hf|[Hf|[]]]]; inversion Hf; subst; discriminate K.
  - intros files n e c a p [e' [c' [pk [k [sg [H1 [H2 [_ [_ [H5 H6]]]]]]]]]] He Hc Hu Hr. rewrite He in H1. inversion H1; subst e'. rewrite Hc in H2. inversion H2; subst c'.
    apply (proj1 (seqb_eq sg c)) in H6. subst sg. apply mget_In in He. cbn [t_repo In] in He.
    destruct He as [He|[He|[He|[]]]]; injection He as <- <-; (assert (D : c = L "FOO" \/ c = L "BAR" \/ c = L "FR") by (vm_compute in H5; inversion H5; auto)); vm_compute in H5; inversion H5; subst c; vm_compute in Hu; inversion Hu; subst a; vm_compute in Hr; inversion Hr; reflexivity.
Qed.
(** Only "dir" lines with a url, no "url" line: nothing is downloaded again and nothing is checked. *)
Theorem C28_no_url_refuted : exists l g, resolve [] t_repo t_sha unit t_pem t_verify t_unpack [] 0 20 [L "bar"] [] t_start = Some (Ok (l, g)) /\
  In (L "bar") (map fst l) /\ mget (L "/depot/c/bar.cards-zst") (f_files (g_st g)) = Some (L "EVIL") /\ ~ verified t_repo t_sha unit t_pem t_verify (f_files (g_st g)) (L "bar").
Proof.
  exists [(L "bar", 0%Z)], (G [L "bar"] t_start). split; [vm_compute; reflexivity|]. split; [left; reflexivity|]. split; [reflexivity|].
  intros [e [c [pk [k [sg [H1 [H2 [_ [_ [H5 H6]]]]]]]]]]. vm_compute in H1. injection H1 as <-. vm_compute in H2. injection H2 as <-. vm_compute in H5. injection H5 as <-. discriminate H6.
Qed.
(** An archive listed as bar2 that bears the name bar: bar itself is then not looked at. *)
Definition t_repo2 : list (str * ent) := [t_ent (L "bar2") (L "BAR") []; t_ent (L "bar") (L "BAR") []].
Definition t_start2 : fstate := Fs [(L "/depot/c/.PKEY", L "key"); (L "/depot/c/bar.cards-zst", L "EVIL")] [Some (Some (L "BAR"))].
Theorem C28_other_name_refuted : exists l g, resolve t_url t_repo2 t_sha unit t_pem t_verify t_unpack [] 0 20 [L "bar2"; L "bar"] [] t_start2 = Some (Ok (l, g)) /\
  In (L "bar") (map fst l) /\ ~ verified t_repo2 t_sha unit t_pem t_verify (f_files (g_st g)) (L "bar").
Proof.
  eexists. eexists. split; [vm_compute; reflexivity|]. split; [vm_compute; auto|].
  intros [e [c [pk [k [sg [H1 [H2 [_ [_ [H5 H6]]]]]]]]]]. vm_compute in H1. injection H1 as <-. vm_compute in H2. injection H2 as <-. vm_compute in H5. injection H5 as <-. discriminate H6.
Qed.
(** The hash of the index is wrong and the signature right: the file is fetched once more and then accepted. *)
Definition t_repo3 : list (str * ent) := [(L "bar", Ent (L "/depot/c") (t_rec (L "bar.cards-zst") (hex (L "OTHER")) (hex (L "BAR")) []))].
Definition t_start3 : fstate := Fs [(L "/depot/c/.PKEY", L "key")] [Some (Some (L "BAR")); Some (Some (L "BAR"))].
Theorem C28_hash_refuted : exists l g, resolve t_url t_repo3 t_sha unit t_pem t_verify t_unpack [] 0 20 [L "bar"] [] t_start3 = Some (Ok (l, g)) /\
  In (L "bar") (map fst l) /\ exists c e, mget (L "bar") t_repo3 = Some e /\ mget (L "/depot/c/bar.cards-zst") (f_files (g_st g)) = Some c /\ lower_case (hex (t_sha c)) <> lower_case (i_text "H" (e_rec e)).
Proof.
  eexists. eexists. split; [vm_compute; reflexivity|]. split; [vm_compute; auto|]. eexists. eexists. split; [reflexivity|]. split; [vm_compute; reflexivity|]. vm_compute. discriminate.
Qed.
(** a file whose signature does not verify stops the command *)
Example C28_stops : resolve t_url t_repo t_sha unit t_pem t_verify t_unpack [] 0 20 [L "bar"] [] (Fs (f_files t_start) [Some (Some (L "EVIL"))]) = Some Throw.
Proof. vm_compute. reflexivity. Qed.
