(** C17, C18: what a META line gives, without exception; exactly when a package is marked as automatic. *)
From Verif Require Import Base BaseProofs StrModel StrSpec StrProofs RulesModel RulesSpec RulesProofs FsModel FsSpec FsProofs FsOps FsExtract
  MetaModel MetaSpec MetaProofs MetaProps DbModel DbSpec DbLoad DbOps DbRun DbInv EngineFs EngineRoot DbFacts DbProps RemoveProps AddRun DbExamples AddProps.
From Coq Require Import Lia ZArith.

Lemma plain_digits v : Forall is_digit v -> sign (drop_space (cstr v)) = (false, v).
Proof.
  intro F. assert (Z0 : ~ In zero v). { intro I. rewrite Forall_forall in F. apply F in I. apply is_digit_nozero in I. auto. }
  rewrite cstr_nozero by auto. destruct v as [|c ds]; [reflexivity|]. inversion F as [|? ? Dc Fd]; subst. cbn [drop_space]. rewrite is_digit_nospace by auto.
  cbn. assert (ceqb c "-" = false) as ->. { apply ceqb_neq. intros ->. destruct Dc as [D1 D2]. cbn in *. lia. }
  assert (ceqb c "+" = false) as ->. { apply ceqb_neq. intros ->. destruct Dc as [D1 D2]. cbn in *. lia. } reflexivity.
Qed.
(** C17: a release is kept modulo 2^16 and a size modulo 2^32 *)
Theorem C17_numbers v : Forall is_digit v -> (read_dec v < 2 ^ 63)%N -> atoi_u16 v = (read_dec v mod 2 ^ 16)%N /\ atoi_u32 v = (read_dec v mod 2 ^ 32)%N.
Proof.
  intros D B. unfold atoi_u16, atoi_u32, strtol10. rewrite (plain_digits v D). rewrite (num_digits v D 0%N). fold (read_dec v).
  assert (E : Z.min (2 ^ 63 - 1) (Z.of_N (read_dec v)) = Z.of_N (read_dec v)) by (apply Z.min_r; lia). rewrite E.
  split.
  - change (2 ^ 16)%Z with (Z.of_N (2 ^ 16)). rewrite <- N2Z.inj_mod, N2Z.id. reflexivity.
  - change (2 ^ 32)%Z with (Z.of_N (2 ^ 32)). rewrite <- N2Z.inj_mod, N2Z.id. reflexivity.
Qed.
(** C17: a date of any number of digits, signed or not, is the number written; a leading zero makes it octal *)
Lemma date_num v : v <> [] -> Forall is_digit v -> hd zero v <> "0"%char -> base0 v = (10%N, v) /\ num 10 0 v = read_dec v.
Proof.
  intros N F H. split; [|rewrite (num_digits v F 0%N); reflexivity]. destruct v as [|c ds]; [contradiction|]. cbn [hd] in H. unfold base0. apply ceqb_neq in H. destruct ds; rewrite H; reflexivity.
Qed.
Lemma minus_digits v : Forall is_digit v -> sign (drop_space (cstr ("-"%char :: v))) = (true, v).
Proof.
  intro F. assert (Z0 : ~ In zero v). { intro I. rewrite Forall_forall in F. apply F in I. apply is_digit_nozero in I. auto. }
  rewrite cstr_nozero by (intros [E|I]; [discriminate E|exact (Z0 I)]). reflexivity.
Qed.
Lemma minus_core (n : N) : (0 < n)%N -> (n < 2 ^ 63)%N -> to_time ((2 ^ 64 - n) mod 2 ^ 64) = (- Z.of_N n)%Z.
Proof.
  intros P B. assert (Q : (2 ^ 64 = 2 * 2 ^ 63)%N) by reflexivity. assert (QZ : (2 ^ 64 = Z.of_N (2 ^ 64))%Z) by reflexivity. unfold to_time. rewrite QZ. revert B Q. generalize (2 ^ 63)%N (2 ^ 64)%N. intros a b B Q.
  rewrite N.mod_small by lia. rewrite (proj2 (N.ltb_ge _ _)) by lia. lia.
Qed.
Theorem C17_dates v : v <> [] -> Forall is_digit v -> hd zero v <> "0"%char -> (0 < read_dec v < 2 ^ 63)%N ->
  epoch v = Z.of_N (read_dec v) /\ epoch ("-"%char :: v) = (- Z.of_N (read_dec v))%Z.
Proof.
  intros N F H [P B]. destruct (date_num v N F H) as [B0 Nm]. assert (Lt : (2 ^ 64 <=? read_dec v)%N = false) by (apply N.leb_gt; eapply N.lt_trans; [exact B|reflexivity]). split.
  - unfold epoch, strtoul0. rewrite (plain_digits v F), B0, Nm, Lt. unfold to_time. rewrite (proj2 (N.ltb_lt _ _) B). reflexivity.
  - unfold epoch, strtoul0. rewrite (minus_digits v F), B0, Nm, Lt. exact (minus_core _ P B).
Qed.
Print Assumptions C17_dates.
Theorem C17_octal_refuted : epoch (L "0170000000") = 31457280%Z /\ read_dec (L "0170000000") = 170000000%N.
Proof. split; vm_compute; reflexivity. Qed.
Print Assumptions C17_octal_refuted.
Example C17_dates_case : epoch (L "1700000000") = 1700000000%Z /\ epoch (L "-5") = (-5)%Z.
Proof. split; vm_compute; reflexivity. Qed.

(** a dependency line of nine characters after the tag: all of them are the name, and the date is 0 *)
Lemma dep_nine v : length v = 9 -> dep_of_line ("R"%char :: v) = Ok (v, 0%Z).
Proof.
  intro H. unfold dep_of_line. cbn [List.length skipn]. rewrite H. cbn [Nat.ltb Nat.leb Nat.sub skipn]. f_equal. f_equal.
  unfold epoch, strtoul0. assert (C : cstr ("R"%char :: v) = "R"%char :: cstr v) by reflexivity. rewrite C. destruct (cstr v) as [|a t]; reflexivity.
Qed.
(** C17: the dependencies that come out of any META whose dependency lines can be read at all *)
Theorem C17_dependencies i dir ls c :
  good_lines ls -> mget (L "META") dir = Some (text_of ls) -> mget (L "files") dir = Some c -> (forall v, In ("R"%char :: v) ls -> 9 <= length v) ->
  exists r, load_pkg i dir = Ok r /\
    forall n e, In (n, e) (r_deps r) <-> (exists dt, length dt = 10 /\ In ("R"%char :: n ++ dt) ls /\ e = epoch dt) \/ (length n = 9 /\ In ("R"%char :: n) ls /\ e = 0%Z).
Proof.
  intros G M F H. rewrite (load_pkg_meta i dir ls c G M F).
  assert (I : forall x, In x (set_of ls) <-> In x ls) by (intro; apply set_of_In).
  destruct (meta_lines_ok i start_rec (set_of ls)) as [r0 E].
  { intros s Is T. apply I in Is. apply has_tag_In in T as [v ->]. apply H in Is. cbn. lia. }
  rewrite E. cbn [rbind]. eexists. split; [reflexivity|]. cbn [with_files r_deps]. rewrite (meta_fold _ _ i (step_deps i) _ _ _ E).
  intros n e. rewrite deps_fold. cbn [start_rec with_auto with_release empty_rec r_deps]. split.
  - intros [[]|[s [I1 [I2 I3]]]]. apply I in I1. apply has_tag_In in I2 as [v ->]. pose proof (H v I1) as Hv. destruct (Nat.eq_dec (length v) 9) as [E9|N9].
    + right. rewrite (dep_nine v E9) in I3. injection I3 as <- <-. auto.
    + left. destruct (split_last10 v ltac:(lia)) as [n' [dt [-> Ld]]]. rewrite dep_of_line_spec in I3 by auto. injection I3 as <- <-. eauto.
  - intros [[dt [Ld [I1 ->]]]|(Ln & I1 & ->)]; right.
    + exists ("R"%char :: n ++ dt). split; [apply I; auto|]. split; [reflexivity|]. apply dep_of_line_spec; auto.
    + exists ("R"%char :: n). split; [apply I; auto|]. split; [reflexivity|]. apply dep_nine. exact Ln.
Qed.
Section Mark.
  Variables (junk : bool) (machine : str) (re : str -> str -> option bool) (sh : str -> fs -> fs * bool) (root : str).
  Hypothesis Rs : ends_slash root = true.
  Notation session := (session junk machine re sh root).
  (** C18: exactly when a package is marked as automatic after it was added or upgraded: the META of the archive says so, or it was asked for
      as a dependency, or it was so before the upgrade, or the uninitialised flag of the tool happened to be set *)
  Theorem C18_exact o sd conf a n w w' name ls : no_dot_name a -> archive_name a name ->
    o_scripts o = false -> tree (w_fs w) -> dir_at (w_fs w) (comps root) -> ~ where_meta (comps root) ->
    meta_once a n -> rooted a -> plain_names a -> (forall nm x, archive_name a nm -> lists (w_db w) nm x -> exists cs, plain x cs) ->
    parse_lines (n_data n) = Some ls -> session (Add o sd conf a) w = (None, w') ->
    (automatic (w_db w') name <-> In (L "d1") ls \/ sd = true \/ (o_upgrade o = true /\ automatic (w_db w) name) \/ junk = true).
  Proof.
    intros ND An NS T D NW MO Ro PN PL Pl E.
    destruct (C01_meta_recorded junk machine re sh root Rs o sd conf a n w w' ND NS T D NW MO Ro PN PL E) as [nm [ls' [An' [P [b [B Db]]]]]].
    rewrite Pl in P. injection P as <-. rewrite (archive_name_unique _ _ _ An' An) in *. apply dbfile_get in Db as (dir & G1 & G2).
    assert (Hm : forall t ls0, mget (L "META") dir = Some t -> parse_lines t = Some ls0 -> (automatic (w_db w') name <-> In (L "d1") ls0)).
    { intros t ls0 Gt Pt. split.
      - intros (dr & c & l & X1 & X2 & X3 & X4). rewrite G1 in X1. injection X1 as <-. rewrite Gt in X2. injection X2 as <-. rewrite Pt in X3. injection X3 as <-. exact X4.
      - intro I. exists dir, t, ls0. auto. }
    destruct b.
    - assert (Pt : parse_lines (text_of (sins (L "d1") (set_of ls))) = Some (sins (L "d1") (set_of ls))).
      { apply parse_text. pose proof (parse_lines_good _ _ Pl) as Gl. unfold good_lines in Gl. rewrite Forall_forall in *. intros x Ix. apply sins_In in Ix as [->|Ix]; [|apply Gl, set_of_In, Ix].
        pose proof BUFSIZ_big as BB. split; [intros [X|[X|[]]]; discriminate X|]. split; [intros [X|[X|[]]]; discriminate X|]. cbn [List.length L list_ascii_of_string]. lia. }
      rewrite (Hm _ _ G2 Pt). split; [intros _|intros _; apply sins_In; left; reflexivity]. right. destruct (proj1 B eq_refl) as [X|[X|X]]; tauto.
    - rewrite (Hm _ _ G2 Pl). split; [intro I; left; exact I|]. intros [I|H]; [exact I|]. assert (X : false = true) by (apply B; tauto). discriminate X.
  Qed.
End Mark.
(** the cases of C17_dependencies and C17_numbers occur *)
Example C17_exact_case : exists r, load_pkg (L "foo") [(L "META", text_of [L "Nfoo"; L "r65537"; L "Rglibc1700000000"; L "Rabc123456"]); (L "files", [])] = Ok r /\
  r_deps r = [(L "abc123456", 0%Z); (L "glibc", 1700000000%Z)] /\ r_release r = Some 1%N /\ Forall is_digit (L "65537") /\ (read_dec (L "65537") < 2 ^ 63)%N.
Proof. eexists. split; [vm_compute; reflexivity|]. split; [reflexivity|]. split; [reflexivity|]. split; [|reflexivity]. repeat (constructor; [split; vm_compute; discriminate|]). constructor. Qed.
