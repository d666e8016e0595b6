(** C27: what reading the generated indexes of all the collections gives, exactly. *)
From Verif Require Import Base BaseProofs StrModel StrSpec StrProofs RulesModel FsModel FsProofs MetaModel MetaSpec MetaProofs DbModel GenDeps GenDepsProofs GenDepsProps IndexModel IndexProofs IndexProps.
From Coq Require Import ZArith Lia.

(** the collections of the configuration: name, and the packages its index was generated from (None: it cannot be read) *)
Definition depots := list (str * option (list gpkg)).
Definition indexes (l : depots) : list (str * option str) := map (fun d => (fst d, option_map gen_index (snd d))) l.
(** the lines that set fields, in the order in which they are read: a collection begins with its own name as the collection *)
Definition lines_of (d : str * option (list gpkg)) : list str := ("c"%char :: fst d) :: match snd d with Some ps => flat_map gp_meta ps | None => [] end.
(** [p] is the last package of that name; [before]: what was read before it *)
Definition last_named (l : depots) (n : str) (p : gpkg) (before : list str) : Prop :=
  exists l1 coll ps1 ps2 l2, l = l1 ++ (coll, Some (ps1 ++ p :: ps2)) :: l2 /\ regular p n /\ before = flat_map lines_of l1 ++ ("c"%char :: coll) :: flat_map gp_meta ps1 /\
    (forall p', In p' ps2 -> ~ regular p' n) /\ (forall d ps p', In (d, Some ps) l2 -> In p' ps -> ~ regular p' n).
(** the one-valued fields: the value of the last line with that tag read so far, of whatever package *)
Definition carried (p : gpkg) (before : list str) (i : irec) : Prop :=
  forall c, In c ["V"; "r"; "S"; "a"; "D"; "U"; "C"; "M"; "P"; "L"; "B"; "c"]%char ->
    (forall v, last_line c (before ++ gp_meta p) v -> i_val i c = Some v) /\ ((forall v, ~ In (c :: v) (before ++ gp_meta p)) -> i_val i c = None).
Definition good_depots (l : depots) : Prop :=
  forall coll o, In (coll, o) l -> coll <> [] /\ forall ps, o = Some ps -> (forall p, In p ps -> exists n, regular p n) /\ Forall good_line (flat_map gen_lines ps).

(** ** proofs *)
Definition no_value : ascii -> option str := fun _ => None.
Definition tracks (before : list str) (f : ascii -> option str) : Prop := forall c, In c plain_tags -> f c = fold_left stepv before no_value c.
Lemma tracks_carried p before i : tracks (before ++ gp_meta p) (i_val i) -> carried p before i.
Proof.
  intros T c Ic. rewrite (T c Ic). split; [intros v Lv; apply stepv_last; [|exact Lv]; cbn in Ic |- *; tauto|]. intro N. rewrite stepv_other by exact N. reflexivity.
Qed.
Lemma regular_name p n n' : regular p n -> regular p n' -> n = n'.
Proof. intros R R'. pose proof (rg_name _ _ R) as E. rewrite (rg_name _ _ R') in E. injection E as E. symmetry. exact E. Qed.
Lemma dir_ok : forall ps before q, (forall p, In p ps -> exists n, regular p n) -> p_many q = no_many -> p_deps q = [] -> i_text "c" (p_info q) <> [] -> tracks before (i_val (p_info q)) ->
  exists q', idx_lines (flat_map gen_lines ps) q = Ok q' /\ i_text "c" (p_info q') <> [] /\ tracks (before ++ flat_map gp_meta ps) (i_val (p_info q')) /\
    forall n, (exists ps1 p ps2 i, ps = ps1 ++ p :: ps2 /\ regular p n /\ (forall p', In p' ps2 -> ~ regular p' n) /\ mget n (p_map q') = Some i /\ faithful p i /\ carried p (before ++ flat_map gp_meta ps1) i) \/
              ((forall p, In p ps -> ~ regular p n) /\ mget n (p_map q') = mget n (p_map q)).
Proof.
  induction ps as [|p ps IH]; intros before q Rg M D C T; cbn [flat_map].
  - exists q. rewrite app_nil_r. split; [reflexivity|]. split; [exact C|]. split; [exact T|]. intro n. right. split; [intros p []|reflexivity].
  - destruct (Rg p (or_introl eq_refl)) as (n0 & R0). destruct (record_ok p n0 q R0 M D C) as (i & E & Fa & Ci & V). rewrite idx_lines_app, E. cbn [rbind].
    assert (T1 : tracks (before ++ gp_meta p) (i_val i)).
    { intros c Ic. rewrite (V c Ic), fold_left_app. apply stepv_local. exact (T c Ic). }
    destruct (IH (before ++ gp_meta p) (P false n0 i no_many [] (mset n0 i (p_map q))) (fun x I => Rg x (or_intror I)) eq_refl eq_refl Ci T1) as (q' & E' & C' & T' & K).
    exists q'. split; [exact E'|]. split; [exact C'|]. split; [rewrite app_assoc; exact T'|]. intro n. destruct (K n) as [(ps1 & p1 & ps2 & i1 & -> & R1 & N1 & G1 & F1 & A1)|[N1 G1]].
    + left. exists (p :: ps1), p1, ps2, i1. split; [reflexivity|]. split; [exact R1|]. split; [exact N1|]. split; [exact G1|]. split; [exact F1|]. cbn [flat_map]. rewrite app_assoc. exact A1.
    + cbn [p_map] in G1. rewrite mget_mset in G1. destruct (seqb_spec n n0) as [->|Ne].
      * left. exists [], p, ps, i. split; [reflexivity|]. split; [exact R0|]. split; [exact N1|]. split; [exact G1|]. split; [exact Fa|]. cbn [flat_map]. rewrite app_nil_r. apply tracks_carried. exact T1.
      * right. split; [|exact G1]. intros x [<-|I]; [intro Rx; apply Ne; exact (regular_name _ _ _ Rx R0)|exact (N1 x I)].
Qed.
Definition kept (l : depots) (before : list str) (m m' : list (str * irec)) : Prop :=
  forall n, (exists l1 coll ps1 p ps2 l2 i, l = l1 ++ (coll, Some (ps1 ++ p :: ps2)) :: l2 /\ regular p n /\ (forall p', In p' ps2 -> ~ regular p' n) /\ (forall d ps p', In (d, Some ps) l2 -> In p' ps -> ~ regular p' n) /\
               mget n m' = Some i /\ faithful p i /\ carried p (before ++ flat_map lines_of l1 ++ ("c"%char :: coll) :: flat_map gp_meta ps1) i) \/
            ((forall d ps p, In (d, Some ps) l -> In p ps -> ~ regular p n) /\ mget n m' = mget n m).
Lemma dirs_ok : forall l before i m, good_depots l -> tracks before (i_val i) -> exists m', parse_dirs (indexes l) i m = Ok m' /\ kept l before m m'.
Proof.
  induction l as [|[coll o] l IH]; intros before i m Gd T; cbn [indexes map parse_dirs fst snd].
  - exists m. split; [reflexivity|]. intro n. right. split; [intros d ps p []|reflexivity].
  - destruct (Gd coll o (or_introl eq_refl)) as [Nc Go]. set (i0 := IRec (i_file i) (put "c" coll (i_val i)) (i_base i) (i_many i) (i_deps i)).
    assert (T0 : tracks (before ++ ["c"%char :: coll]) (i_val i0)).
    { intros c Ic. rewrite fold_left_app. cbn [fold_left i0 i_val]. cbn [stepv]. change (amem "c" one_tags) with true. cbv iota. unfold put. destruct (ceqb c "c"); [reflexivity|exact (T c Ic)]. }
    assert (Gl : good_depots l) by (intros c' o' I; apply Gd; right; exact I).
    destruct o as [ps|]; cbn [option_map].
    + destruct (Go ps eq_refl) as [Rg Gg]. unfold gen_index. rewrite (parse_text _ Gg).
      destruct (dir_ok ps (before ++ ["c"%char :: coll]) (P false [] i0 no_many [] m) Rg eq_refl eq_refl ltac:(exact Nc) T0) as (q & E & Cq & Tq & K). rewrite E. cbn [rbind].
      destruct (IH _ (p_info q) (p_map q) Gl Tq) as (m' & E' & K'). exists m'. split; [exact E'|]. intro n. rewrite <- app_assoc in K'. cbn [List.app] in K'.
      destruct (K' n) as [(l1 & c1 & ps1 & p & ps2 & l2 & j & -> & R & N1 & N2 & G & F & A)|[N G]].
      * left. exists ((coll, Some ps) :: l1), c1, ps1, p, ps2, l2, j. split; [reflexivity|]. split; [exact R|]. split; [exact N1|]. split; [exact N2|]. split; [exact G|]. split; [exact F|]. cbn [flat_map lines_of fst snd]. rewrite <- !app_assoc in *. cbn [List.app] in *. exact A.
      * destruct (K n) as [(ps1 & p & ps2 & j & -> & R & N1 & G1 & F & A)|[N1 G1]].
        -- left. exists [], coll, ps1, p, ps2, l, j. split; [reflexivity|]. split; [exact R|]. split; [exact N1|]. split; [exact N|]. split; [rewrite G; exact G1|]. split; [exact F|]. cbn [flat_map List.app]. rewrite <- app_assoc in A. exact A.
        -- right. split; [|rewrite G; exact G1]. intros d ps' p [X|I] Ip; [injection X as <- <-; exact (N1 p Ip)|exact (N d ps' p I Ip)].
    + destruct (IH _ i0 m Gl T0) as (m' & E' & K'). exists m'. split; [exact E'|]. intro n.
      destruct (K' n) as [(l1 & c1 & ps1 & p & ps2 & l2 & j & -> & R & N1 & N2 & G & F & A)|[N G]].
      * left. exists ((coll, None) :: l1), c1, ps1, p, ps2, l2, j. split; [reflexivity|]. split; [exact R|]. split; [exact N1|]. split; [exact N2|]. split; [exact G|]. split; [exact F|]. cbn [flat_map lines_of fst snd]. rewrite <- !app_assoc in *. cbn [List.app] in *. exact A.
      * right. split; [|exact G]. intros d ps' p [X|I] Ip; [discriminate X|exact (N d ps' p I Ip)].
Qed.
(** Every generated repository is read, and of every name the last package read with it is known, with the file name, hash, signature, size, lists
    and dependencies written for it; its other fields are those of the last line with that tag read so far, its own or an earlier package's. No
    other name is known. A repository that meets the hypothesis, with a collection that cannot be read and a name offered twice: C93_good in OrderProps.v. *)
Theorem C27_exact : forall l, good_depots l -> exists m, parse_repo (indexes l) = Ok m /\
  (forall n i, mget n m = Some i -> exists p before, last_named l n p before /\ faithful p i /\ carried p before i) /\
  (forall n coll ps p, In (coll, Some ps) l -> In p ps -> regular p n -> exists i, mget n m = Some i).
Proof.
  intros l Gd. destruct (dirs_ok l [] blank [] Gd ltac:(intros c _; reflexivity)) as (m & E & K). exists m. split; [exact E|]. split.
  - intros n i G. destruct (K n) as [(l1 & c1 & ps1 & p & ps2 & l2 & j & -> & R & N1 & N2 & G' & F & A)|[N G']]; [|rewrite G' in G; discriminate G].
    rewrite G' in G. injection G as <-. exists p. eexists. split; [|split; [exact F|exact A]]. exists l1, c1, ps1, ps2, l2. split; [reflexivity|]. split; [exact R|]. split; [reflexivity|]. split; [exact N1|exact N2].
  - intros n coll ps p I Ip R. destruct (K n) as [(l1 & c1 & ps1 & p1 & ps2 & l2 & j & _ & _ & _ & _ & G' & _)|[N _]]; [exists j; exact G'|]. exfalso. exact (N coll ps p I Ip R).
Qed.
(** a record whose index belongs to no collection takes the collection of the package it belongs to *)
Definition g3 : gpkg := Gp (L "foo.doc1.0-1-any.cards-zst") [L "Nfoo.doc"; L "V1.0"; L "r1"; L "gdoc"; L "B1700000000"] (L "ab03") (L "ff04") 5.
Example C27_inherit_case : exists m i, parse_repo (indexes [(L "extra", Some [g1]); ([], Some [g3])]) = Ok m /\ mget (L "foo.doc") m = Some i /\ i_val i "c" = Some (L "extra").
Proof. eexists. eexists. split; [vm_compute; reflexivity|]. split; [vm_compute; reflexivity|]. reflexivity. Qed.
