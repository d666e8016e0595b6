(** C27: the repository index. *)
From Verif Require Import Base BaseProofs StrModel StrSpec StrProofs RulesModel FsModel FsProofs MetaModel MetaSpec MetaProofs DbModel GenDeps GenDepsProofs GenDepsProps IndexModel IndexProofs.
From Coq Require Import ZArith Lia.

(** lines that the line reader gives back unchanged *)
Definition good_line (l : str) : Prop := ~ In nl l /\ ~ In zero l /\ length l < BUFSIZ - 1.

(** A generated index is read without error and gives for every package the file name, the hash, the signature, the size as
    written, every field that its META has, the lists and the dependencies (those with names of four characters or more);
    it has no other names. Not claimed: fields that its META lacks (C27_stale_refuted), short dependency names (C27_short_refuted),
    sizes of 2 GiB or more (C27_size_refuted), METAs with an empty line (C27_blank_refuted). *)
Theorem C27_round_trip_partial (coll : str) (ps : list gpkg) (names : list str) : coll <> [] -> Forall2 regular ps names -> NoDup names ->
  Forall good_line (flat_map gen_lines ps) ->
  exists m, parse_repo [(coll, Some (gen_index ps))] = Ok m /\
    Forall2 (fun p n => exists i, mget n m = Some i /\ faithful p i) ps names /\ (forall n i, mget n m = Some i -> In n names).
Proof.
  intros Hc R N Gl. unfold parse_repo. cbn [parse_dirs]. unfold gen_index. rewrite (parse_text _ Gl).
  destruct (index_ok ps names (P false [] (IRec (i_file blank) (put "c" coll (i_val blank)) (i_base blank) (i_many blank) (i_deps blank)) no_many [] []) R N eq_refl eq_refl) as [q [E [K A]]].
  { exact Hc. }
  rewrite E. cbn [rbind parse_dirs]. exists (p_map q). split; [reflexivity|]. split; [exact A|].
  intros n i H. destruct (in_dec (list_eq_dec ascii_dec) n names) as [I|I]; [exact I|]. rewrite (K n I) in H. discriminate.
Qed.
(** the size is the size of the file when it is below 2 GiB *)
Lemma strtol10_dec (k : N) : (k < 2 ^ 63)%N -> strtol10 (dec k) = Z.of_N k.
Proof.
  intro H. assert (B : (2 ^ 63 < 2 ^ 64)%N) by (vm_compute; reflexivity). destruct (dec_spec k) as [H1 [H2 [H3 _]]]; [lia|]. unfold strtol10.
  assert (Z0 : ~ In zero (dec k)). { intro I. rewrite Forall_forall in H2. apply H2 in I. apply is_digit_nozero in I. auto. }
  rewrite cstr_nozero by exact Z0. destruct (dec k) as [|c ds]; [congruence|]. inversion H2 as [|? ? Dc Fd]; subst. cbn [drop_space]. rewrite is_digit_nospace by exact Dc.
  assert (S1 : sign (c :: ds) = (false, c :: ds)).
  { cbn [sign]. assert (ceqb c "-" = false) as ->. { apply ceqb_neq. intros ->. destruct Dc as [D1 D2]. cbn in *. lia. }
    assert (ceqb c "+" = false) as ->. { apply ceqb_neq. intros ->. destruct Dc as [D1 D2]. cbn in *. lia. } reflexivity. }
  rewrite S1, num_digits by exact H2. fold (read_dec (c :: ds)). change (2 ^ 63 - 1)%Z with (Z.of_N (2 ^ 63) - 1)%Z. lia.
Qed.
Theorem C27_size_partial p i : faithful p i -> (gp_size p < 2 ^ 31)%N -> i_size i = Some (Z.of_N (gp_size p)).
Proof.
  intros F H. unfold i_size. rewrite (fa_size p i F). cbn [option_map]. f_equal. assert (B : (2 ^ 31 < 2 ^ 32 /\ 2 ^ 31 < 2 ^ 63)%N) by (split; vm_compute; reflexivity).
  rewrite N.mod_small by lia. unfold atoi_int. rewrite strtol10_dec by lia. assert (K : (Z.of_N (gp_size p) < 2 ^ 31)%Z) by (change (2 ^ 31)%Z with (Z.of_N (2 ^ 31)); lia).
  rewrite (Z.mod_small _ (2 ^ 32)) by (change (2 ^ 32)%Z with (2 ^ 31 + 2 ^ 31)%Z; lia). rewrite Z.mod_small; [lia|]. change (2 ^ 64)%Z with (2 ^ 31 * 2 ^ 33)%Z. lia.
Qed.

(** ** examples *)
Definition g1 : gpkg := Gp (L "foo1.0-1-x86_64.cards-zst") [L "Nfoo"; L "V1.0"; L "r1"; L "Uhttp://foo.org"; L "lgtk"; L "B1700000000"; L "Rglibc1600000000"] (L "ab01") (L "ff02") 4711.
Definition g2 : gpkg := Gp (L "bar2.0-1-x86_64.cards-zst") [L "Nbar"; L "V2.0"; L "r3"; L "DA bar"; L "B1700000001"; L "Rfoo1700000000"; L "Rglibc1600000000"] (L "ab02") (L "ff03") 12.
Lemma regular_g1 : regular g1 (L "foo").
Proof.
  constructor.
  - vm_compute; discriminate.
  - reflexivity.
  - cbn. intros s H. repeat (destruct H as [<-|H]; [split; [discriminate|intros v; discriminate]|]). destruct H.
  - cbn. intros v H. repeat (destruct H as [H|H]; [inversion H; subst; exists 1%N; vm_compute; reflexivity|]). destruct H.
  - cbn. intros v H. repeat (destruct H as [H|H]; [inversion H; subst; cbn; lia|]). destruct H.
  - cbn. intros H. repeat (destruct H as [H|H]; [discriminate|]). destruct H.
Qed.
Lemma regular_g2 : regular g2 (L "bar").
Proof.
  constructor.
  - vm_compute; discriminate.
  - reflexivity.
  - cbn. intros s H. repeat (destruct H as [<-|H]; [split; [discriminate|intros v; discriminate]|]). destruct H.
  - cbn. intros v H. repeat (destruct H as [H|H]; [inversion H; subst; exists 3%N; vm_compute; reflexivity|]). destruct H.
  - cbn. intros v H. repeat (destruct H as [H|H]; [inversion H; subst; cbn; lia|]). destruct H.
  - cbn. intros H. repeat (destruct H as [H|H]; [discriminate|]). destruct H.
Qed.
Definition good_lineb (l : str) : bool := negb (existsb (ceqb nl) l) && negb (existsb (ceqb zero) l) && (length l <? 1000).
Lemma good_lineb_ok l : good_lineb l = true -> good_line l.
Proof.
  unfold good_lineb. rewrite !andb_true_iff, !negb_true_iff. intros [[A B] C]. assert (F : forall c, existsb (ceqb c) l = false -> ~ In c l).
  { intros c H I. assert (K : existsb (ceqb c) l = true) by (apply existsb_exists; exists c; split; [exact I|apply ceqb_refl]). congruence. }
  split; [apply F, A|]. split; [apply F, B|]. apply Nat.ltb_lt in C. assert (1000 < BUFSIZ - 1) by (apply Nat.ltb_lt; vm_compute; reflexivity). lia.
Qed.
Example C27_hypotheses : Forall2 regular [g1; g2] [L "foo"; L "bar"] /\ NoDup [L "foo"; L "bar"] /\ Forall good_line (flat_map gen_lines [g1; g2]).
Proof.
  split; [constructor; [apply regular_g1|constructor; [apply regular_g2|constructor]]|]. split.
  - constructor; [intros [H|[]]; discriminate|]. constructor; [intros []|constructor].
  - apply Forall_forall. intros l H. apply good_lineb_ok. revert l H. apply Forall_forall. cbn. repeat constructor.
Qed.
Definition idx12 : list (str * irec) := match parse_repo [(L "base", Some (gen_index [g1; g2]))] with Ok m => m | _ => [] end.
Definition of_idx (n : str) : irec := match mget n idx12 with Some i => i | None => blank end.
Example C27_witness : i_deps (of_idx (L "foo")) = [(L "glibc", 1600000000%Z)] /\ i_text "H" (of_idx (L "bar")) = L "ab02" /\ i_size (of_idx (L "foo")) = Some 4711%Z.
Proof. vm_compute. auto. Qed.
(** bar has no URL line and no list of libraries; its entry shows foo's URL (but not foo's libraries) *)
Theorem C27_stale_refuted : Forall2 regular [g1; g2] [L "foo"; L "bar"] /\ (forall v, ~ In ("U"%char :: v) (gp_meta g2)) /\
  exists m i, parse_repo [(L "base", Some (gen_index [g1; g2]))] = Ok m /\ mget (L "bar") m = Some i /\ i_val i "U" = Some (L "http://foo.org") /\ i_many i "l" = [].
Proof.
  split; [exact (proj1 C27_hypotheses)|]. split; [cbn; intros v H; repeat (destruct H as [H|H]; [discriminate|]); destruct H|].
  exists idx12, (of_idx (L "bar")). split; [vm_compute; reflexivity|]. split; vm_compute; auto.
Qed.
(** bar needs foo; the entry of bar does not say so *)
Theorem C27_short_refuted : In (L "Rfoo1700000000") (gp_meta g2) /\
  exists m i, parse_repo [(L "base", Some (gen_index [g1; g2]))] = Ok m /\ mget (L "bar") m = Some i /\ i_deps i = [(L "glibc", 1600000000%Z)].
Proof. split; [vm_compute; tauto|]. exists idx12, (of_idx (L "bar")). split; [vm_compute; reflexivity|]. split; vm_compute; auto. Qed.
Definition look {A} (n : str) (f : irec -> A) (r : res (list (str * irec))) : option A :=
  match r with Ok m => option_map f (mget n m) | _ => None end.
Lemma look_ok {A} n (f : irec -> A) r v : look n f r = Some v -> exists m i, r = Ok m /\ mget n m = Some i /\ f i = v.
Proof. unfold look. destruct r as [m| |]; try discriminate. destruct (mget n m) as [i|] eqn:E; [|discriminate]. cbn. intro H. exists m, i. split; [reflexivity|]. split; [exact E|congruence]. Qed.
(** a file of 3 GiB has a size of almost 2^64 bytes, one of 4 GiB has size 0 *)
Definition g_big (k : N) : gpkg := Gp (L "big1.0-1-x86_64.cards-zst") [L "Nbig"; L "V1.0"] [] [] k.
Theorem C27_size_refuted :
  (exists m i, parse_repo [(L "base", Some (gen_index [g_big (3 * 2 ^ 30)]))] = Ok m /\ mget (L "big") m = Some i /\ i_size i = Some (2 ^ 64 - 2 ^ 30)%Z) /\
  (exists m i, parse_repo [(L "base", Some (gen_index [g_big (4 * 2 ^ 30)]))] = Ok m /\ mget (L "big") m = Some i /\ i_size i = Some 0%Z).
Proof. split; apply look_ok; vm_compute; reflexivity. Qed.
(** an empty line in the META: what follows it, with the hash and the signature, is lost; the record is then stored again without its lists *)
Definition g_blank : gpkg := Gp (L "foo1.0-1-x86_64.cards-zst") [L "Nfoo"; L "V1.0"; L "Rglibc1600000000"; []; L "r2"] (L "ab01") (L "ff02") 4711.
Theorem C27_blank_refuted : exists m i, parse_repo [(L "base", Some (gen_index [g_blank]))] = Ok m /\ mget (L "foo") m = Some i /\
  i_val i "H" = None /\ i_val i "I" = None /\ i_val i "r" = None /\ i_deps i = [].
Proof.
  destruct (look_ok (L "foo") (fun i => (i_val i "H", i_val i "I", i_val i "r", i_deps i)) (parse_repo [(L "base", Some (gen_index [g_blank]))]) (None, None, None, [])) as [m [i [H1 [H2 H3]]]]; [vm_compute; reflexivity|].
  exists m, i. split; [exact H1|]. split; [exact H2|]. inversion H3. auto.
Qed.
(** an index cut before the empty line that ends its last record loses that record *)
Theorem C27_cut_refuted : parse_repo [(L "base", Some (text_of (removelast (flat_map gen_lines [g1; g2]))))] = parse_repo [(L "base", Some (gen_index [g1]))].
Proof. vm_compute. reflexivity. Qed.

(** ** C22 and the index: short names *)
(** root needs aaaa and bbbb, bbbb needs aaaa, aaaa needs zip. The index is generated from the archives; it drops "zip" from the
    dependencies of aaaa. *)
Definition s_line (n : str) : str := "R"%char :: n ++ L "1700000000".
Definition s_repo : list (str * list str) := [(L "root", [L "aaaa"; L "bbbb"]); (L "aaaa", [L "zip"]); (L "bbbb", [L "aaaa"]); (L "zip", [])].
Definition s_gpkg (e : str * list str) : gpkg := Gp (fst e ++ L "1.0-1-x86_64.cards-zst") (("N"%char :: fst e) :: L "V1.0" :: L "r1" :: L "B1700000000" :: map s_line (snd e)) [] [] 1.
Definition s_apkg (e : str * list str) : apkg := APkg (fst e) (L "1.0") 1 1700000000 [] (map d10 (snd e)).
Definition s_index : list (str * list dep) := match parse_repo [(L "base", Some (gen_index (map s_gpkg s_repo)))] with Ok m => index_deps m | _ => [] end.
(** the list puts aaaa before zip, which it needs *)
Theorem C22_short_names_refuted : exists fuel l g, generate [] 0 s_index unit (fetch_of (map s_apkg s_repo)) fuel (L "root") [] (G [] tt) = Some (Ok (l, g)) /\
  exists u v, l = u ++ (d10 (L "aaaa")) :: v /\ missing [] 0 (arch_of (map s_apkg s_repo)) (L "aaaa") (L "zip") /\ ~ In (L "zip") (map fst u).
Proof.
  exists 20. eexists. eexists. split; [vm_compute; reflexivity|]. exists []. eexists. split; [vm_compute; reflexivity|]. split; [|intros []].
  exists 1700000000%Z. split; [vm_compute; auto|]. split; [discriminate|]. split; intros [r H]; try (destruct H as [H _]; discriminate); destruct H as [q [H _]]; discriminate.
Qed.
