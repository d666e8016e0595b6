(** C111: the packages of a group *)
From Verif Require Import Base BaseProofs StrModel StrSpec StrProofs RulesModel FsModel FsProofs MetaModel MetaSpec MetaProofs DbModel DbSpec DbFacts GenDeps GenDepsProofs GenDepsProps HexModel FilesModel.
From Verif Require FilesProps.
From Verif Require Import IndexModel IndexProofs IndexProps FetchModel ConfModel DiffModel SizeModel DiffAmounts InstallModel IndexExact OrderProps InfoModel InfoProps InfoMembers RepoObjModel RepoObjProps RepoObjMore.
From Coq Require Import ZArith Lia.
Open Scope nat_scope.

(** ** specification *)
(** the meta data begin with the name, as pkgmk writes them *)
Definition name_first (p : gpkg) : Prop := exists n t, gp_meta p = ("N"%char :: n) :: t.
(** the package that [p], called [n], says it is a part of: the last line of its group or language tells how much of its name to drop (with the dot
    before it); a name that is too short is kept *)
Definition part_of (p : gpkg) (n b : str) : Prop :=
  exists u x v r, gp_meta p = u ++ (x :: v) :: r /\ In x ["g"; "n"]%char /\ (forall y z, In y ["g"; "n"]%char -> ~ In (y :: z) r) /\
    (1 + length v <= length n -> exists e, n = b ++ e /\ length e = 1 + length v) /\ (length n < 1 + length v -> b = n).

(** ** proofs *)
Definition stepb (n b s : str) : str := if has_tag "g" s || has_tag "n" s then base_name n s else b.
Definition base_of (n : str) (p : gpkg) : str := fold_left (stepb n) (gp_meta p) [].
Lemma step_base s p p' : idx_line s p = Ok p' -> p_found p = true -> s <> [] -> (forall v, s <> "@"%char :: v) ->
  p_found p' = true /\ p_name p' = stepn (p_name p) s /\ i_base (p_info p') = stepb (p_name p) (i_base (p_info p)) s.
Proof.
  intros E F Ne At. destruct s as [|c v]; [contradiction|]. unfold idx_line in E. cbn [has_tag] in E. assert (A : ceqb c "@" = false) by (apply ceqb_neq; intros ->; exact (At v eq_refl)). rewrite A, F in E. clear A. unfold tag_line in E. unfold stepn, stepb. cbn [has_tag skipn].
  destruct (ceqb c "N") eqn:EN. { apply ceqb_eq in EN. subst c. injection E as <-. cbn. rewrite F. auto. }
  destruct (ceqb c "r") eqn:Er. { apply ceqb_eq in Er. subst c. destruct (stoi_u16 v); [|discriminate E|discriminate E]. injection E as <-. cbn. rewrite F. auto. }
  destruct (amem c one_tags) eqn:E1.
  { injection E as <-. cbn [p_found p_name p_info i_base]. rewrite F. split; [reflexivity|]. split; [reflexivity|]. cbn [amem existsb]. rewrite orb_false_r. reflexivity. }
  assert (G : ceqb c "g" || ceqb c "n" = false).
  { destruct (ceqb c "g") eqn:Eg; [apply ceqb_eq in Eg; subst c; discriminate E1|]. destruct (ceqb c "n") eqn:En; [apply ceqb_eq in En; subst c; discriminate E1|]. reflexivity. }
  rewrite G. destruct (amem c many_tags); [injection E as <-; cbn; rewrite F; auto|]. destruct (ceqb c "R") eqn:ER.
  - destruct (14 <? length (c :: v)); [|injection E as <-; rewrite F; auto]. destruct (dep_of_line (c :: v)); cbn [rbind] in E; [|discriminate E|discriminate E]. injection E as <-. cbn. rewrite F. auto.
  - injection E as <-. rewrite F. auto.
Qed.
Lemma steps_base : forall ls p rest r, (forall s, In s ls -> s <> [] /\ forall v, s <> "@"%char :: v) -> (forall s, In s ls -> has_tag "N" s = false) -> p_found p = true -> idx_lines (ls ++ rest) p = Ok r ->
  exists p', idx_lines rest p' = Ok r /\ p_found p' = true /\ p_name p' = p_name p /\ i_base (p_info p') = fold_left (stepb (p_name p)) ls (i_base (p_info p)).
Proof.
  induction ls as [|s t IH]; intros p rest r H Hn F E; cbn [List.app] in E.
  - exists p. split; [exact E|]. split; [exact F|]. split; reflexivity.
  - cbn [idx_lines] in E. destruct (idx_line s p) as [q| |] eqn:Eq; cbn [rbind] in E; [|discriminate E|discriminate E]. destruct (H s (or_introl eq_refl)) as [Ne At]. destruct (step_base s p q Eq F Ne At) as (Fq & Nq & Bq).
    assert (Nm : p_name q = p_name p) by (rewrite Nq; unfold stepn; rewrite (Hn s (or_introl eq_refl)); reflexivity).
    destruct (IH q rest r (fun x X => H x (or_intror X)) (fun x X => Hn x (or_intror X)) Fq E) as (p' & E' & F' & N' & B'). exists p'. split; [exact E'|]. split; [exact F'|]. split; [congruence|]. cbn [fold_left]. rewrite B', Nm, Bq. reflexivity.
Qed.
Lemma record_base p name q r : regular p name -> name_first p -> idx_lines (gen_lines p) q = Ok r -> exists i, mget name (p_map r) = Some i /\ i_base i = base_of name p.
Proof.
  intros [R1 R2 R3 R4 R5 R6] (n & t & Em) E. unfold gen_lines in E. cbn [idx_lines] in E. unfold idx_line at 1 in E. cbn [has_tag] in E. rewrite ceqb_refl in E. cbn [rbind] in E. unfold at_line in E.
  destruct (sfind (L ".cards-") ("@"%char :: gp_file p)) as [k|]; [|contradiction]. set (q1 := P true _ _ _ _ _) in E. rewrite Em in E. rewrite <- app_comm_cons in E. cbn [idx_lines] in E. rewrite Em in R2. cbn [filter has_tag] in R2. rewrite ceqb_refl in R2. injection R2 as -> R2.
  assert (E1 : idx_line ("N"%char :: name) q1 = Ok (P (p_found q1) name (p_info q1) (p_many q1) (p_deps q1) (p_map q1))) by reflexivity. rewrite E1 in E. cbn [rbind] in E.
  destruct (steps_base t (P (p_found q1) name (p_info q1) (p_many q1) (p_deps q1) (p_map q1)) (gen_tail p) r) with (4 := E) as (p' & E' & F' & N' & B').
  { intros s I. apply R3. rewrite Em. right. exact I. }
  { intros s I. destruct (has_tag "N" s) eqn:T; [|reflexivity]. exfalso. assert (X : In s (filter (has_tag "N") t)) by (apply filter_In; auto). rewrite R2 in X. destruct X. }
  { reflexivity. }
  cbn [p_name p_info] in N', B'. change (i_base (p_info q1)) with (@nil ascii) in B'.
  assert (Bo : i_base (p_info p') = base_of name p) by (rewrite B'; unfold base_of; rewrite Em; reflexivity).
  change (gen_tail p) with ([("H"%char :: gp_hash p); ("I"%char :: gp_sig p); ("i"%char :: dec (gp_size p mod 2 ^ 32))] ++ [[]]) in E'. destruct (steps_base [("H"%char :: gp_hash p); ("I"%char :: gp_sig p); ("i"%char :: dec (gp_size p mod 2 ^ 32))] p' [[]] r) with (4 := E') as (p2 & E2 & F2 & N2 & B2).
  { intros s [<-|[<-|[<-|[]]]]; (split; [discriminate|intros v X; discriminate X]). }
  { intros s [<-|[<-|[<-|[]]]]; reflexivity. }
  { exact F'. }
  cbn [fold_left] in B2. unfold stepb in B2. cbn [has_tag] in B2. change (ceqb "i" "g" || ceqb "i" "n") with false in B2. change (ceqb "I" "g" || ceqb "I" "n") with false in B2. change (ceqb "H" "g" || ceqb "H" "n") with false in B2. cbv iota in B2.
  cbn [idx_lines] in E2. unfold idx_line in E2. cbn [has_tag] in E2. assert (St : Ok (store p2) = Ok r) by (destruct (p_found p2); cbn [tag_line rbind] in E2; exact E2). injection St as <-. clear E2.
  rewrite <- Bo, <- B2, <- N', <- N2. clear. unfold store. set (z := if _ && _ then _ else _). assert (Z : i_base (fst z) = i_base (p_info p2)).
  { unfold z. destruct (_ && _); [|reflexivity]. destruct (mget (i_base (p_info p2)) (p_map p2)); reflexivity. }
  destruct z as [i1 m1]. cbn [fst] in Z. cbn [p_map]. rewrite mget_mset, seqb_refl. eexists. split; [reflexivity|]. cbn [i_base]. exact Z.
Qed.
Lemma dir_base : forall ps q r, (forall p, In p ps -> exists n, regular p n) -> (forall p, In p ps -> name_first p) -> p_many q = no_many -> p_deps q = [] -> i_text "c" (p_info q) <> [] -> idx_lines (flat_map gen_lines ps) q = Ok r ->
  forall n, (exists ps1 p ps2 i, ps = ps1 ++ p :: ps2 /\ regular p n /\ (forall p', In p' ps2 -> ~ regular p' n) /\ mget n (p_map r) = Some i /\ i_base i = base_of n p) \/
            ((forall p, In p ps -> ~ regular p n) /\ mget n (p_map r) = mget n (p_map q)).
Proof.
  induction ps as [|p ps IH]; intros q r Rg Nf M D C E n; cbn [flat_map] in E.
  - injection E as <-. right. split; [intros p []|reflexivity].
  - destruct (Rg p (or_introl eq_refl)) as (n0 & R0). destruct (record_ok p n0 q R0 M D C) as (i & E0 & _ & Ci & _). rewrite idx_lines_app, E0 in E. cbn [rbind] in E.
    destruct (record_base p n0 q _ R0 (Nf p (or_introl eq_refl)) E0) as (i' & G' & B'). cbn [p_map] in G'. rewrite mget_mset, seqb_refl in G'. injection G' as <-.
    destruct (IH (P false n0 i no_many [] (mset n0 i (p_map q))) r (fun x I => Rg x (or_intror I)) (fun x I => Nf x (or_intror I)) eq_refl eq_refl Ci E n) as [(ps1 & p1 & ps2 & i1 & -> & R1 & N1 & G1 & B1)|[N1 G1]].
    + left. exists (p :: ps1), p1, ps2, i1. split; [reflexivity|]. split; [exact R1|]. split; [exact N1|]. split; [exact G1|exact B1].
    + cbn [p_map] in G1. rewrite mget_mset in G1. destruct (seqb_spec n n0) as [->|Ne].
      * left. exists [], p, ps, i. split; [reflexivity|]. split; [exact R0|]. split; [exact N1|]. split; [exact G1|exact B'].
      * right. split; [|exact G1]. intros x [<-|I]; [intro Rx; apply Ne; exact (regular_name _ _ _ Rx R0)|exact (N1 x I)].
Qed.
Definition names_first (l : depots) : Prop := forall c ps p, In (c, Some ps) l -> In p ps -> name_first p.
Lemma dirs_base : forall l before i m m', good_depots l -> names_first l -> tracks before (i_val i) -> parse_dirs (indexes l) i m = Ok m' ->
  forall n, (exists l1 c ps1 p ps2 l2 i', l = l1 ++ (c, Some (ps1 ++ p :: ps2)) :: l2 /\ regular p n /\ (forall p', In p' ps2 -> ~ regular p' n) /\ (forall d ps p', In (d, Some ps) l2 -> In p' ps -> ~ regular p' n) /\
               mget n m' = Some i' /\ i_base i' = base_of n p) \/ ((forall d ps p, In (d, Some ps) l -> In p ps -> ~ regular p n) /\ mget n m' = mget n m).
Proof.
  induction l as [|[coll o] l IH]; intros before i m m' Gd Nf T E n; cbn [indexes map parse_dirs fst snd] in E.
  - injection E as <-. right. split; [intros d ps p []|reflexivity].
  - destruct (Gd coll o (or_introl eq_refl)) as [Nc Go]. set (i0 := IRec (i_file i) (put "c" coll (i_val i)) (i_base i) (i_many i) (i_deps i)) in *.
    assert (T0 : tracks (before ++ ["c"%char :: coll]) (i_val i0)).
    { intros c Ic. rewrite fold_left_app. cbn [fold_left i0 i_val]. cbn [stepv]. change (amem "c" one_tags) with true. cbv iota. unfold put. destruct (ceqb c "c"); [reflexivity|exact (T c Ic)]. }
    assert (Gl : good_depots l) by (intros c' o' I; apply Gd; right; exact I). assert (Nl : names_first l) by (intros c ps p I; apply (Nf c ps p); right; exact I).
    destruct o as [ps|]; cbn [option_map] in E.
    + destruct (Go ps eq_refl) as [Rg Gg]. unfold gen_index in E. rewrite (parse_text _ Gg) in E.
      destruct (dir_ok ps (before ++ ["c"%char :: coll]) (P false [] i0 no_many [] m) Rg eq_refl eq_refl ltac:(exact Nc) T0) as (q & Eq & Cq & Tq & _). rewrite Eq in E. cbn [rbind] in E.
      pose proof (dir_base ps (P false [] i0 no_many [] m) q Rg (fun p I => Nf coll ps p (or_introl eq_refl) I) eq_refl eq_refl ltac:(exact Nc) Eq n) as K.
      destruct (IH _ (p_info q) (p_map q) m' Gl Nl Tq E n) as [(l1 & c1 & ps1 & p & ps2 & l2 & j & -> & R & N1 & N2 & G & B)|[N G]].
      * left. exists ((coll, Some ps) :: l1), c1, ps1, p, ps2, l2, j. split; [reflexivity|]. split; [exact R|]. split; [exact N1|]. split; [exact N2|]. split; [exact G|exact B].
      * destruct K as [(ps1 & p & ps2 & j & -> & R & N1 & G1 & B)|[N1 G1]].
        -- left. exists [], coll, ps1, p, ps2, l, j. split; [reflexivity|]. split; [exact R|]. split; [exact N1|]. split; [exact N|]. split; [rewrite G; exact G1|exact B].
        -- right. split; [|rewrite G; exact G1]. intros d ps' p [X|I] Ip; [injection X as <- <-; exact (N1 p Ip)|exact (N d ps' p I Ip)].
    + destruct (IH _ i0 m m' Gl Nl T0 E n) as [(l1 & c1 & ps1 & p & ps2 & l2 & j & -> & R & N1 & N2 & G & B)|[N G]].
      * left. exists ((coll, None) :: l1), c1, ps1, p, ps2, l2, j. split; [reflexivity|]. split; [exact R|]. split; [exact N1|]. split; [exact N2|]. split; [exact G|exact B].
      * right. split; [|exact G]. intros d ps' p [X|I] Ip; [discriminate X|exact (N d ps' p I Ip)].
Qed.
Lemma parsed_base l m n p before i : good_depots l -> names_first l -> parse_repo (indexes l) = Ok m -> last_named l n p before -> mget n m = Some i -> i_base i = base_of n p.
Proof.
  intros Gd Nf E Ln G. destruct (dirs_base l [] blank [] m Gd Nf ltac:(intros c _; reflexivity) E n) as [(l1 & c & ps1 & q & ps2 & l2 & j & El & R & N1 & N2 & G' & B)|[No _]].
  - rewrite G in G'. injection G' as <-. destruct (last_named_unique l n p before q (flat_map lines_of l1 ++ ("c"%char :: c) :: flat_map gp_meta ps1) Ln) as [-> _]; [|exact B].
    exists l1, c, ps1, ps2, l2. split; [exact El|]. split; [exact R|]. split; [reflexivity|]. split; [exact N1|exact N2].
  - exfalso. destruct Ln as (l1 & c & ps1 & ps2 & l2 & El & R & _). apply (No c (ps1 ++ p :: ps2) p); [rewrite El; apply in_elt|apply in_elt|exact R].
Qed.
Lemma base_name_part n x v b : base_name n (x :: v) = b <-> (1 + length v <= length n -> exists e, n = b ++ e /\ length e = 1 + length v) /\ (length n < 1 + length v -> b = n).
Proof.
  unfold base_name. cbn [length]. destruct (Nat.leb_spec (S (length v)) (length n)) as [H|H].
  - split.
    + intros <-. split; [|intro; lia]. intros _. exists (skipn (length n - S (length v)) n). split; [symmetry; apply firstn_skipn|]. rewrite skipn_length. lia.
    + intros [K _]. destruct (K ltac:(lia)) as (e & -> & Le). rewrite app_length, Le. replace (length b + (1 + length v) - S (length v)) with (length b) by lia. rewrite firstn_app, Nat.sub_diag, firstn_all. cbn [firstn]. apply app_nil_r.
  - split; [intros <-; split; [intro; lia|reflexivity]|]. intros [_ K]. symmetry. apply K. lia.
Qed.
Lemma stepb_none n : forall ls b, (forall y z, In y ["g"; "n"]%char -> ~ In (y :: z) ls) -> fold_left (stepb n) ls b = b.
Proof.
  induction ls as [|s t IH]; intros b H; [reflexivity|]. cbn [fold_left]. rewrite IH by (intros y z Iy I; apply (H y z Iy); right; exact I). unfold stepb. destruct s as [|c v]; [reflexivity|]. cbn [has_tag].
  destruct (ceqb c "g") eqn:Eg; [apply ceqb_eq in Eg; subst c; exfalso; apply (H "g"%char v); [cbn; tauto|left; reflexivity]|]. destruct (ceqb c "n") eqn:En; [apply ceqb_eq in En; subst c; exfalso; apply (H "n"%char v); [cbn; tauto|left; reflexivity]|]. reflexivity.
Qed.
Lemma stepb_last n ls b0 : (forall y z, In y ["g"; "n"]%char -> ~ In (y :: z) ls) \/
  exists u x v r, ls = u ++ (x :: v) :: r /\ In x ["g"; "n"]%char /\ (forall y z, In y ["g"; "n"]%char -> ~ In (y :: z) r) /\ fold_left (stepb n) ls b0 = base_name n (x :: v).
Proof.
  induction ls as [|s ls IH] using rev_ind; [left; intros y z _ []|]. destruct (has_tag "g" s || has_tag "n" s) eqn:T.
  - right. apply orb_true_iff in T. assert (X : exists x v, s = x :: v /\ In x ["g"; "n"]%char) by (destruct T as [T|T]; apply has_tag_In in T as [v ->]; eexists; exists v; (split; [reflexivity|cbn; tauto])).
    destruct X as (x & v & -> & Ix). exists ls, x, v, []. split; [reflexivity|]. split; [exact Ix|]. split; [intros y z _ []|]. rewrite fold_left_app. cbn [fold_left]. unfold stepb. destruct T as [-> | ->]; [reflexivity|rewrite orb_true_r; reflexivity].
  - assert (Ns : forall y z, In y ["g"; "n"]%char -> s <> y :: z) by (intros y z [<-|[<-|[]]] ->; cbn in T; discriminate T). destruct IH as [IH|(u & x & v & r & -> & Ix & N & B)].
    + left. intros y z Iy I. apply in_app_iff in I as [I|[I|[]]]; [exact (IH y z Iy I)|exact (Ns y z Iy I)].
    + right. exists u, x, v, (r ++ [s]). split; [rewrite <- app_assoc; reflexivity|]. split; [exact Ix|]. split; [intros y z Iy I; apply in_app_iff in I as [I|[I|[]]]; [exact (N y z Iy I)|exact (Ns y z Iy I)]|]. rewrite fold_left_app. cbn [fold_left]. unfold stepb at 1. rewrite T. exact B.
Qed.
Lemma base_part p n b : b <> [] -> (base_of n p = b <-> part_of p n b).
Proof.
  intro Nb. unfold base_of, part_of. destruct (stepb_last n (gp_meta p) []) as [No|(u & x & v & r & E & Ix & N & B)].
  - rewrite (stepb_none n (gp_meta p) [] No). split; [intro K; exfalso; apply Nb; symmetry; exact K|]. intros (u & x & v & r & E & Ix & _). exfalso. apply (No x v Ix). rewrite E. apply in_elt.
  - rewrite B. split.
    + intro K. exists u, x, v, r. split; [exact E|]. split; [exact Ix|]. split; [exact N|]. apply (base_name_part n x v b). exact K.
    + intros (u' & x' & v' & r' & E' & Ix' & N' & P). assert (X : x' :: v' = x :: v).
      { destruct (split_two (fun s => exists y z, s = y :: z /\ In y ["g"; "n"]%char) u (x :: v) r u' (x' :: v') r') as (_ & K & _); [congruence|exists x, v; auto|exists x', v'; auto| | |symmetry; exact K].
        - intros s I (y & z & -> & Iy). exact (N y z Iy I).
        - intros s I (y & z & -> & Iy). exact (N' y z Iy I). }
      rewrite <- X. apply base_name_part. exact P.
Qed.

Section Group.
Variable cfg : list dirurl.
Variables (date : Z -> str) (machine version : str) (j_rel : N) (j_build : Z) (j_size j_space : N).
Notation after := (after cfg date machine version j_rel j_build j_size j_space).
Notation answer := (answer cfg date machine version j_rel j_build j_size j_space).
Notation added := (added cfg).
Notation stocked := (stocked cfg).
Definition archive_at (p : gpkg) (d : dirurl) : str := (u_depot d ++ L "/" ++ u_coll d) ++ L "/" ++ gp_file p.
(** The archives of a group: that of the package of that name, and those of every package that says it is a part of it. *)
Theorem C111_group : forall w0 h w h2 l n w', last_read w0 h w h2 -> stocked w l -> names_first (at_colls l) -> n <> [] -> offered (at_colls l) n ->
  exists k, answer w0 h (OfGroup n) w' = Ok (ASet k) /\ ssorted k /\ forall x, In x k <->
    exists n' p before d, last_named (at_colls l) n' p before /\ offered_by l n' d /\ (n' = n \/ part_of p n' n) /\ x = archive_at p d.
Proof.
  intros w0 h w h2 l n w' Lr St Nf Nn On. destruct (served cfg date machine version j_rel j_build j_size j_space w0 h w h2 l Lr St) as (m & own & (Ep & _ & Ks & Rd & Of) & Hd). unfold RepoObjProps.answer. set (o := after w0 h) in *. cbn [call].
  rewrite after_load_held by apply Hd. cbn [snd]. pose proof (proj1 (proj2 St)) as Gd. apply Of in On. destruct (mget n m) as [i0|] eqn:G0; [|contradiction]. assert (Hk : ssorted (keys (b_map o))) by apply Hd. destruct Hd as (_ & Eo & _ & H4 & H5 & _).
  unfold group_paths. rewrite (H4 n i0 G0). eexists. split; [reflexivity|]. split; [apply set_of_sorted|].
  assert (Pa : forall n' i, mget n' m = Some i -> exists p before d, last_named (at_colls l) n' p before /\ offered_by l n' d /\ archive_path o (n', i) = archive_at p d /\ (i_base i = n <-> part_of p n' n)).
  { intros n' i G. assert (O : offered (at_colls l) n') by (apply Of; rewrite G; discriminate). destruct (offered_placed l n' Gd O) as (p & before & d & Ln & Ob). exists p, before, d. split; [exact Ln|]. split; [exact Ob|].
    destruct (Rd n' p before d Ln Ob) as (i' & G' & Fa & _ & _ & Go). rewrite G in G'. injection G' as <-. split.
    - unfold archive_path, dir_of, archive_at. cbn [fst snd]. rewrite Eo, Go, (fa_file _ _ Fa). reflexivity.
    - rewrite (parsed_base (at_colls l) m n' p before i Gd Nf Ep Ln G). apply base_part. exact Nn. }
  assert (Back : forall n' p before d, last_named (at_colls l) n' p before -> offered_by l n' d -> exists i, mget n' m = Some i /\ archive_path o (n', i) = archive_at p d /\ (i_base i = n <-> part_of p n' n)).
  { intros n' p before d Ln Ob. pose proof (last_offered _ _ _ _ Ln) as O. apply Of in O. destruct (mget n' m) as [i|] eqn:G; [|contradiction]. exists i. split; [reflexivity|]. destruct (Pa n' i G) as (p' & b' & d' & Ln' & Ob' & A & B).
    destruct (last_named_unique _ _ _ _ _ _ Ln Ln') as [<- _]. rewrite (offered_unique _ _ _ _ Ob Ob'). split; [exact A|exact B]. }
  intro x. rewrite set_of_In. cbn [In]. rewrite in_map_iff. split.
  - intros [<-|((n' & i) & <- & I)].
    + destruct (Pa n i0 G0) as (p & before & d & Ln & Ob & A & _). exists n, p, before, d. split; [exact Ln|]. split; [exact Ob|]. split; [left; reflexivity|exact A].
    + apply filter_In in I as [I Bi]. cbn [fst snd] in Bi. apply seqb_eq in Bi. apply (in_keyed _ n' i Hk) in I. destruct (mget n' m) as [j|] eqn:G.
      * rewrite (H4 n' j G) in I. injection I as <-. destruct (Pa n' j G) as (p & before & d & Ln & Ob & A & B). exists n', p, before, d. split; [exact Ln|]. split; [exact Ob|]. split; [right; apply B; exact Bi|exact A].
      * exfalso. specialize (H5 n' G). rewrite I in H5. destruct H5 as [-> _]. apply Nn. rewrite <- Bi. reflexivity.
  - intros (n' & p & before & d & Ln & Ob & D & ->). destruct (Back n' p before d Ln Ob) as (i & G & A & B). destruct D as [->|D].
    + left. rewrite G0 in G. injection G as <-. exact A.
    + right. exists (n', i). split; [exact A|]. apply filter_In. split; [apply (in_keyed _ n' i Hk), H4, G|]. cbn [fst snd]. apply seqb_eq. apply B. exact D.
Qed.
(** Of a name that is not known there are none. *)
Theorem C111_group_none : forall w0 h w h2 l n w', last_read w0 h w h2 -> stocked w l -> ~ offered (at_colls l) n -> ~ added h2 n -> answer w0 h (OfGroup n) w' = Ok (ASet []).
Proof.
  intros w0 h w h2 l n w' Lr St No Na. destruct (served cfg date machine version j_rel j_build j_size j_space w0 h w h2 l Lr St) as (m & own & (_ & _ & _ & _ & Of) & Hd). unfold RepoObjProps.answer. cbn [call]. rewrite after_load_held by apply Hd. cbn [snd]. unfold group_paths.
  destruct (mget n (b_map (after w0 h))) as [i|] eqn:G; [|reflexivity]. exfalso. assert (X : mget n (b_map (after w0 h)) <> None) by (rewrite G; discriminate). apply (held_in _ _ _ _ _ n Hd) in X. rewrite Of in X. destruct X; contradiction.
Qed.
End Group.
