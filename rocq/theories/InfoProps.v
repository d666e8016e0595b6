(** C100: what 'cards info -b' shows. C101: what a name given to 'cards install' or 'cards info -S' stands for. *)
From Verif Require Import Base BaseProofs StrModel StrSpec StrProofs RulesModel FsModel FsProofs MetaModel MetaSpec MetaProofs DbModel GenDeps GenDepsProofs GenDepsProps HexModel IndexModel IndexProofs IndexProps FetchModel ConfModel DiffModel SizeModel DiffAmounts InstallModel IndexExact OrderProps InfoModel.
From Coq Require Import ZArith Lia Sorted.
Open Scope nat_scope.

(** ** specification *)
(** the collections of the configuration, with the packages their index was generated from (None: it cannot be read) *)
Definition shelves := list (dirurl * option (list gpkg)).
Definition at_colls (l : shelves) : depots := map (fun x => (u_coll (fst x), snd x)) l.
Definition files (l : shelves) : list (dirurl * option str) := map (fun x => (fst x, option_map gen_index (snd x))) l.
(** [d] is the last collection that offers [n] *)
Definition offered_by (l : shelves) (n : str) (d : dirurl) : Prop :=
  exists l1 ps p l2, l = l1 ++ (d, Some ps) :: l2 /\ In p ps /\ regular p n /\ forall d' ps' p', In (d', Some ps') l2 -> In p' ps' -> ~ regular p' n.
(** the value of the last line with tag [c]; the values of all lines with tag [c], sorted *)
Definition last_of (c : ascii) (ls : list str) : option str :=
  fold_left (fun o l => match l with x :: v => if ceqb x c then Some v else o | [] => o end) ls None.
Definition text (o : option str) : str := match o with Some v => v | None => [] end.
Definition all_of (c : ascii) (ls : list str) : list str := set_of (flat_map (fun l => match l with x :: v => if ceqb x c then [v] else [] | [] => [] end) ls).
(** the dependencies, by name and date: those with names of four characters or more *)
Definition before_dep (a b : dep) : Prop := slt (fst a) (fst b) \/ (fst a = fst b /\ (snd a < snd b)%Z).
Definition deps_of (p : gpkg) (ds : list dep) : Prop :=
  StronglySorted before_dep ds /\ forall n e, In (n, e) ds <-> exists dt, length dt = 10 /\ 4 <= length n /\ In ("R"%char :: n ++ dt) (gp_meta p) /\ e = epoch dt.
(** the size of an archive as the index is read: in 32 bits, with a sign, then in 64 bits without *)
Definition read_size (n : N) : N := (let k := n mod 2 ^ 32 in if k <? 2 ^ 31 then k else 2 ^ 64 - 2 ^ 32 + k)%N.
Section Spec.
  Variables (date : Z -> str) (machine version : str) (j_rel : N) (j_build : Z) (j_size j_space : N).
  (** the report on [p], called [n], offered by [d]; [before]: the lines read before those of [p] *)
  Definition report (n : str) (p : gpkg) (before : list str) (d : dirurl) (ds : list dep) : list str :=
    let says (c : ascii) := last_of c (before ++ gp_meta p) in
    [L "Name           : " ++ n] ++
    match all_of "A" (gp_meta p) with [] => [] | l => [L "Alias          :" ++ flat_map (fun x => " "%char :: x) l] end ++
    [L "Description    : " ++ text (says "D"%char); L "Archive name   : " ++ gp_file p] ++
    match text (last_of "g" (gp_meta p)) with [] => [] | g => [L "Group          : " ++ g] end ++
    match all_of "T" (gp_meta p) with [] => [] | l => [L "Categories     :" ++ flat_map (fun x => " "%char :: x) l] end ++
    [L "Collection     : " ++ text (says "c"%char)] ++
    match all_of "s" (gp_meta p) with [] => [] | l => [L "Sets           :" ++ flat_map (fun x => " "%char :: x) l] end ++
    [L "URL            : " ++ text (says "U"%char); L "License        : " ++ text (says "L"%char); L "Version        : " ++ text (says "V"%char);
     L "Release        : " ++ dec (match says "r"%char with Some v => match stoi_u16 v with Ok k => k | _ => j_rel end | None => j_rel end);
     L "Build date     : " ++ date (match says "B"%char with Some v => epoch v | None => j_build end);
     L "Hashsum        : " ++ gp_hash p; L "Signature      : " ++ gp_sig p;
     L "Archive Size   : " ++ size_text (read_size (gp_size p)) ++ L "bytes";
     L "Installed Size : " ++ size_text (match says "S"%char with Some v => atoi_u32 v | None => j_space end) ++ L "bytes";
     L "Maintainer(s)  : " ++ text (says "M"%char); L "Packager       : " ++ text (says "P"%char); L "Contributor(s) : " ++ text (says "C"%char);
     L "Arch           : " ++ text (says "a"%char);
     L "Binary URL     : " ++ u_url d ++ L "/" ++ machine ++ L "/" ++ version ++ L "/" ++ u_coll d;
     L "Local folder   : " ++ u_depot d ++ L "/" ++ u_coll d] ++
    match ds with [] => [] | _ => [L "Dependencies   : " ++ flat_map (fun x : dep => fst x ++ L " ") ds] end.
End Spec.

(** ** proofs *)
Lemma last_of_snoc c ls l : last_of c (ls ++ [l]) = match l with x :: v => if ceqb x c then Some v else last_of c ls | [] => last_of c ls end.
Proof. unfold last_of. rewrite fold_left_app. reflexivity. Qed.
Lemma last_of_spec c ls : match last_of c ls with Some v => last_line c ls v | None => forall v, ~ In (c :: v) ls end.
Proof.
  induction ls as [|l ls IH] using rev_ind; [intros v []|]. rewrite last_of_snoc.
  assert (Keep : (forall v, l <> c :: v) -> match last_of c ls with Some v => last_line c (ls ++ [l]) v | None => forall v, ~ In (c :: v) (ls ++ [l]) end).
  { intro Nl. destruct (last_of c ls) as [v|].
    - destruct IH as (u & w & -> & N). exists u, (w ++ [l]). split; [rewrite <- app_assoc; reflexivity|]. intros x I. apply in_app_iff in I as [I|[I|[]]]; [exact (N x I)|exact (Nl x I)].
    - intros v I. apply in_app_iff in I as [I|[I|[]]]; [exact (IH v I)|exact (Nl v I)]. }
  destruct l as [|x v]; [apply Keep; intros v E; discriminate E|]. destruct (ceqb x c) eqn:E.
  - apply ceqb_eq in E. subst x. exists ls, []. split; [reflexivity|intros x []].
  - apply Keep. intros y Ey. injection Ey as -> _. rewrite ceqb_refl in E. discriminate E.
Qed.
Lemma carried_last p before i c : carried p before i -> In c ["V"; "r"; "S"; "a"; "D"; "U"; "C"; "M"; "P"; "L"; "B"; "c"]%char -> i_val i c = last_of c (before ++ gp_meta p).
Proof.
  intros A I. destruct (A c I) as [Av An]. pose proof (last_of_spec c (before ++ gp_meta p)) as Lo. destruct (last_of c (before ++ gp_meta p)) as [v|]; [exact (Av v Lo)|exact (An Lo)].
Qed.
Lemma own_last p i c : faithful p i -> In c ["g"; "n"]%char -> i_text c i = text (last_of c (gp_meta p)).
Proof.
  intros F I. unfold i_text. pose proof (last_of_spec c (gp_meta p)) as Lo. destruct (last_of c (gp_meta p)) as [v|].
  - rewrite (fa_one _ _ F c v); [reflexivity| |exact Lo]. cbn in I |- *. tauto.
  - rewrite (fa_group _ _ F c I Lo). reflexivity.
Qed.
(** every list of a record is sorted *)
Definition dsorted (l : list dep) : Prop := StronglySorted before_dep l.
Definition neat (i : irec) : Prop := (forall c, ssorted (i_many i c)) /\ dsorted (i_deps i).
Definition neat_state (p : pst) : Prop := neat (p_info p) /\ (forall c, ssorted (p_many p c)) /\ dsorted (p_deps p) /\ forall n i, mget n (p_map p) = Some i -> neat i.
Lemma before_trans a b c : before_dep a b -> before_dep b c -> before_dep a c.
Proof.
  unfold before_dep, slt. intros [A|[A1 A2]] [B|[B1 B2]].
  - left. exact (sltb_trans _ _ _ A B).
  - left. rewrite <- B1. exact A.
  - left. rewrite A1. exact B.
  - right. split; [congruence|lia].
Qed.
Lemma dins_sorted x s : dsorted s -> dsorted (dins x s).
Proof.
  unfold dsorted. induction s as [|y t IH]; intro H; [constructor; [constructor|constructor]|]. cbn [dins]. inversion H as [|? ? Ht Hy]; subst. destruct (dltb x y) eqn:E1.
  - apply dltb_spec in E1. constructor; [exact H|]. constructor; [exact E1|]. apply Forall_forall. intros z I. apply (before_trans x y z E1). exact (proj1 (Forall_forall _ _) Hy z I).
  - destruct (dltb y x) eqn:E2; [|exact H]. apply dltb_spec in E2. constructor; [apply IH, Ht|]. apply Forall_forall. intros z I. apply dins_In in I as [->|I]; [exact E2|]. exact (proj1 (Forall_forall _ _) Hy z I).
Qed.
Lemma neat_blank : neat blank.
Proof. split; [intro c; constructor|constructor]. Qed.
Lemma idx_line_neat s p p' : neat_state p -> idx_line s p = Ok p' -> neat_state p'.
Proof.
  intros (A & B & C & D) E. unfold idx_line in E. destruct (has_tag "@" s).
  { injection E as <-. unfold at_line. destruct (sfind (L ".cards-") s); split; try exact A; split; try exact B; split; try exact C; exact D. }
  assert (St : forall q, neat_state q -> neat_state (store q)).
  { intros q (A' & B' & C' & D'). unfold store. set (z := if _ && _ then _ else _). assert (Z : forall n i, mget n (snd z) = Some i -> neat i).
    { unfold z. destruct (_ && _); [|exact D']. destruct (mget (i_base (p_info q)) (p_map q)); [exact D'|]. cbn [snd]. intros n i. rewrite mget_mset. destruct (seqb n _); [intro X; injection X as <-; exact neat_blank|apply D']. }
    destruct z as [i1 m1]. cbn [snd] in Z. split; [split; [exact B'|exact C']|]. split; [intro c; constructor|]. split; [constructor|]. cbn [p_map]. intros n i. rewrite mget_mset.
    destruct (seqb n (p_name q)); [intro X; injection X as <-; split; [exact B'|exact C']|apply Z]. }
  destruct (if p_found p then tag_line s p else None) as [r|] eqn:T.
  - destruct (p_found p); [|discriminate T]. unfold tag_line in T. destruct s as [|c v]; [discriminate T|].
    destruct (ceqb c "N"); [injection T as <-; injection E as <-; split; [exact A|]; split; [exact B|]; split; [exact C|exact D]|].
    destruct (ceqb c "r").
    { injection T as <-. destruct (stoi_u16 v); cbn [rbind] in E; [|discriminate E..]. injection E as <-. split; [exact A|]; split; [exact B|]; split; [exact C|exact D]. }
    destruct (amem c one_tags); [injection T as <-; injection E as <-; split; [exact A|]; split; [exact B|]; split; [exact C|exact D]|].
    destruct (amem c many_tags).
    { injection T as <-; injection E as <-. split; [exact A|]. split; [|split; [exact C|exact D]]. cbn [p_many]. intro x. unfold putm. destruct (ceqb x c); [apply sins_sorted, B|apply B]. }
    destruct (ceqb c "R"); [|discriminate T]. assert (T' : (if 14 <? length (c :: v) then rbind (dep_of_line (c :: v)) (fun d => Ok (P (p_found p) (p_name p) (p_info p) (p_many p) (dins d (p_deps p)) (p_map p))) else Ok p) = r) by (injection T as <-; reflexivity). clear T. rewrite <- T' in E. clear T'. destruct (14 <? length (c :: v)); [|injection E as <-; split; [exact A|]; split; [exact B|]; split; [exact C|exact D]].
    destruct (dep_of_line (c :: v)) as [dd| |]; cbn [rbind] in E; [|discriminate E..]. injection E as <-. split; [exact A|]. split; [exact B|]. split; [apply dins_sorted, C|exact D].
  - destruct s as [|c v]; injection E as <-; [apply St; exact (conj A (conj B (conj C D)))|exact (conj A (conj B (conj C D)))].
Qed.
Lemma idx_lines_neat ls : forall p p', neat_state p -> idx_lines ls p = Ok p' -> neat_state p'.
Proof.
  induction ls as [|s t IH]; intros p p' N E; cbn [idx_lines] in E; [injection E as <-; exact N|]. destruct (idx_line s p) as [q| |] eqn:Eq; cbn [rbind] in E; [|discriminate E..].
  exact (IH q p' (idx_line_neat s p q N Eq) E).
Qed.
Lemma parse_neat dirs : forall i m m', neat i -> (forall n j, mget n m = Some j -> neat j) -> parse_dirs dirs i m = Ok m' -> forall n j, mget n m' = Some j -> neat j.
Proof.
  induction dirs as [|[coll o] t IH]; intros i m m' A B E; cbn [parse_dirs] in E; [injection E as <-; exact B|]. destruct o as [x|]; [|exact (IH (IRec (i_file i) (put "c" coll (i_val i)) (i_base i) (i_many i) (i_deps i)) m m' A B E)].
  destruct (parse_lines x) as [ls|]; [|discriminate E]. destruct (idx_lines ls _) as [p| |] eqn:Ep; cbn [rbind] in E; [|discriminate E..].
  assert (N0 : neat_state (P false [] (IRec (i_file i) (put "c" coll (i_val i)) (i_base i) (i_many i) (i_deps i)) no_many [] m)) by (split; [exact A|split; [intro c; constructor|split; [constructor|exact B]]]).
  destruct (idx_lines_neat ls _ p N0 Ep) as (N1 & _ & _ & N2). exact (IH _ _ _ N1 N2 E).
Qed.
Lemma many_all p i c : neat i -> faithful p i -> In c many_tags -> i_many i c = all_of c (gp_meta p).
Proof.
  intros [N _] F I. apply ssorted_ext; [apply N|apply set_of_sorted|]. intro x. rewrite (fa_many _ _ F c x I). unfold all_of. rewrite set_of_In, in_flat_map. split.
  - intro J. exists (c :: x). split; [exact J|]. rewrite ceqb_refl. left. reflexivity.
  - intros (l & J & K). destruct l as [|y v]; [destruct K|]. destruct (ceqb y c) eqn:E; [|destruct K]. apply ceqb_eq in E. destruct K as [<-|[]]. subst y. exact J.
Qed.
(** where the records were read *)
Lemma stored_app a : forall b p p', idx_lines a p = Ok p' -> stored (a ++ b) p = stored a p ++ stored b p'.
Proof.
  induction a as [|s t IH]; intros b p p' E; cbn [idx_lines List.app stored] in *; [injection E as <-; reflexivity|]. destruct (idx_line s p) as [q| |]; cbn [rbind] in E; [|discriminate E..].
  rewrite (IH b q p' E), app_assoc. reflexivity.
Qed.
Lemma stored_none ls : forall p, (forall s, In s ls -> s <> []) -> stored ls p = [].
Proof.
  induction ls as [|s t IH]; intros p H; [reflexivity|]. cbn [stored]. destruct (idx_line s p) as [q| |]; [|reflexivity..]. rewrite (IH q) by (intros x I; apply H; right; exact I).
  destruct s; [exfalso; apply (H []); [left; reflexivity|reflexivity]|reflexivity].
Qed.
Lemma stored_one p name q : regular p name -> p_many q = no_many -> p_deps q = [] -> i_text "c" (p_info q) <> [] -> stored (gen_lines p) q = [name].
Proof.
  intros R M D C. destruct (record_ok p name q R M D C) as (i & E & _). set (u := ("@"%char :: gp_file p) :: gp_meta p ++ [("H"%char :: gp_hash p); ("I"%char :: gp_sig p); ("i"%char :: dec (gp_size p mod 2 ^ 32))]).
  assert (G : gen_lines p = u ++ [[]]) by (unfold gen_lines, gen_tail, u; cbn [List.app]; rewrite <- app_assoc; reflexivity). rewrite G. rewrite G in E. clear G. rewrite idx_lines_app in E.
  destruct (idx_lines u q) as [q1| |] eqn:E1; cbn [rbind] in E; [|discriminate E..]. assert (Sa : stored (u ++ [[]]) q = stored u q ++ stored [[]] q1) by exact (stored_app u [[]] q q1 E1).
  etransitivity; [exact Sa|]. rewrite stored_none.
  - cbn [List.app stored]. cbn [idx_lines] in E. destruct (idx_line [] q1) as [q2| |] eqn:E2; cbn [rbind] in E; [|discriminate E..]. cbn [is_nil List.app]. f_equal.
    unfold idx_line in E2. cbn [has_tag tag_line] in E2. assert (X : Ok (store q1) = Ok q2) by (destruct (p_found q1); exact E2). injection X as X. injection E as E. rewrite <- X in E.
    unfold store in E. destruct (if _ && _ then _ else _) as [i1 m1]. injection E as Ep _ _. exact Ep.
  - intros s [<-|I]; [discriminate|]. apply in_app_iff in I as [I|I]; [exact (proj1 (rg_lines _ _ R s I))|]. destruct I as [<-|[<-|[<-|[]]]]; discriminate.
Qed.
Lemma stored_all : forall ps names q, Forall2 regular ps names -> p_many q = no_many -> p_deps q = [] -> i_text "c" (p_info q) <> [] -> stored (flat_map gen_lines ps) q = names.
Proof.
  induction ps as [|p ps IH]; intros names q F M D C; inversion F as [|x n y l R F' E1 E2]; subst; [reflexivity|]. cbn [flat_map].
  destruct (record_ok p n q R M D C) as (i & E & _ & Ci & _). rewrite (stored_app _ _ _ _ E), (stored_one p n q R M D C). cbn [List.app]. f_equal. exact (IH l (P false n i no_many [] (mset n i (p_map q))) F' eq_refl eq_refl Ci).
Qed.
Lemma names_for (ps : list gpkg) : (forall p, In p ps -> exists n, regular p n) -> exists names, Forall2 regular ps names.
Proof.
  induction ps as [|p ps IH]; intro H; [exists []; constructor|]. destruct (H p (or_introl eq_refl)) as (n & R). destruct IH as (ns & F); [intros x I; apply H; right; exact I|]. exists (n :: ns). constructor; assumption.
Qed.
Lemma named_in_get d ns : forall own n, mget n (named_in d ns own) = if smem n ns then Some d else mget n own.
Proof.
  induction ns as [|x ns IH]; intros own n; [reflexivity|]. cbn [named_in fold_left]. change (mget n (named_in d ns (mset x d own)) = if smem n (x :: ns) then Some d else mget n own). rewrite IH, mget_mset. cbn [smem].
  destruct (smem n ns) eqn:E; [rewrite orb_true_r; reflexivity|]. rewrite orb_false_r. reflexivity.
Qed.
Lemma offers_names ps names n : Forall2 regular ps names -> (In n names <-> exists p, In p ps /\ regular p n).
Proof.
  induction 1 as [|p m ps names R F IH]; [split; [intros []|intros (p & [] & _)]|]. cbn [In]. rewrite IH. split.
  - intros [<-|(q & I & Q)]; [exists p; split; [left; reflexivity|exact R]|exists q; split; [right; exact I|exact Q]].
  - intros (q & [<-|I] & Q); [left; exact (regular_name _ _ _ R Q)|right; exists q; split; [exact I|exact Q]].
Qed.
Lemma places_ok : forall l before i m own, good_depots (at_colls l) -> tracks before (i_val i) -> exists m' own', parse_places (files l) i m own = Ok (m', own') /\
  parse_dirs (indexes (at_colls l)) i m = Ok m' /\ forall n, (exists d, offered_by l n d /\ mget n own' = Some d) \/ ((forall d ps p, In (d, Some ps) l -> In p ps -> ~ regular p n) /\ mget n own' = mget n own).
Proof.
  induction l as [|[d o] l IH]; intros before i m own Gd T; cbn [files at_colls indexes map parse_places parse_dirs fst snd].
  - exists m, own. split; [reflexivity|]. split; [reflexivity|]. intro n. right. split; [intros d ps p []|reflexivity].
  - destruct (Gd (u_coll d) o (or_introl eq_refl)) as [Nc Go]. set (i0 := IRec (i_file i) (put "c" (u_coll d) (i_val i)) (i_base i) (i_many i) (i_deps i)).
    assert (T0 : tracks (before ++ ["c"%char :: u_coll d]) (i_val i0)).
    { intros c Ic. rewrite fold_left_app. cbn [fold_left i0 i_val]. cbn [stepv]. change (amem "c" one_tags) with true. cbv iota. unfold put. destruct (ceqb c "c"); [reflexivity|exact (T c Ic)]. }
    assert (Gl : good_depots (at_colls l)) by (intros c' o' I; apply Gd; right; exact I).
    destruct o as [ps|]; cbn [option_map].
    + destruct (Go ps eq_refl) as [Rg Gg]. unfold gen_index. rewrite (parse_text _ Gg). set (q0 := P false [] i0 no_many [] m).
      destruct (dir_ok ps (before ++ ["c"%char :: u_coll d]) q0 Rg eq_refl eq_refl ltac:(exact Nc) T0) as (q & E & Cq & Tq & K). rewrite E. cbn [rbind].
      destruct (names_for ps Rg) as (names & Fn). rewrite (stored_all ps names q0 Fn eq_refl eq_refl ltac:(exact Nc)).
      destruct (IH _ (p_info q) (p_map q) (named_in d names own) Gl Tq) as (m' & own' & E' & E2 & K'). exists m', own'. split; [exact E'|]. split; [exact E2|]. intro n.
      destruct (K' n) as [(d' & (l1 & ps1 & p & l2 & -> & Ip & R & Nl) & G)|[N G]].
      * left. exists d'. split; [|exact G]. exists ((d, Some ps) :: l1), ps1, p, l2. split; [reflexivity|]. split; [exact Ip|]. split; [exact R|exact Nl].
      * rewrite named_in_get in G. destruct (smem n names) eqn:Sn.
        -- apply smem_In, (offers_names ps names n Fn) in Sn as (p & Ip & R). left. exists d. split; [|exact G]. exists [], ps, p, l. split; [reflexivity|]. split; [exact Ip|]. split; [exact R|exact N].
        -- right. split; [|exact G]. intros d' ps' p [X|I] Ip; [injection X as <- <-; intro R|exact (N d' ps' p I Ip)].
           apply smem_nIn in Sn. apply Sn, (offers_names ps names n Fn). exists p. split; [exact Ip|exact R].
    + destruct (IH _ i0 m own Gl T0) as (m' & own' & E' & E2 & K'). exists m', own'. split; [exact E'|]. split; [exact E2|]. intro n.
      destruct (K' n) as [(d' & (l1 & ps1 & p & l2 & -> & Ip & R & Nl) & G)|[N G]].
      * left. exists d'. split; [|exact G]. exists ((d, None) :: l1), ps1, p, l2. split; [reflexivity|]. split; [exact Ip|]. split; [exact R|exact Nl].
      * right. split; [|exact G]. intros d' ps' p [X|I] Ip; [discriminate X|exact (N d' ps' p I Ip)].
Qed.
Lemma offered_unique l n d d' : offered_by l n d -> offered_by l n d' -> d = d'.
Proof.
  intros (l1 & ps & p & l2 & -> & Ip & R & N) (k1 & qs & q & k2 & E & Iq & Q & K). revert l1 E. induction k1 as [|y k1 IH]; intros [|x l1] E; cbn in E.
  - injection E as -> _ _. reflexivity.
  - injection E as -> E. exfalso. apply (K d ps p); [rewrite <- E; apply in_elt|exact Ip|exact R].
  - injection E as _ E. exfalso. apply (N d' qs q); [rewrite E; apply in_elt|exact Iq|exact Q].
  - injection E as _ E. exact (IH l1 E).
Qed.
Lemma last_named_unique l n p before p' before' : last_named l n p before -> last_named l n p' before' -> p = p' /\ before = before'.
Proof.
  intros (l1 & c & ps1 & ps2 & l2 & El & R & Eb & N1 & N2) (k1 & c' & qs1 & qs2 & k2 & Ek & Q & Eb' & M1 & M2).
  destruct (split_two (offers n) l1 (c, Some (ps1 ++ p :: ps2)) l2 k1 (c', Some (qs1 ++ p' :: qs2)) k2) as (<- & Ed & <-).
  { rewrite <- El. exact Ek. }
  { exists (ps1 ++ p :: ps2), p. split; [reflexivity|]. split; [apply in_elt|exact R]. }
  { exists (qs1 ++ p' :: qs2), p'. split; [reflexivity|]. split; [apply in_elt|exact Q]. }
  { intros [d o] Iz (ps & x & Eo & Ip & Rp). cbn [snd] in Eo. subst o. exact (N2 d ps x Iz Ip Rp). }
  { intros [d o] Iz (ps & x & Eo & Ip & Rp). cbn [snd] in Eo. subst o. exact (M2 d ps x Iz Ip Rp). }
  injection Ed as Ec Eps. destruct (split_two (fun x => regular x n) ps1 p ps2 qs1 p' qs2 Eps R Q N1 M1) as (<- & <- & <-). subst c'. split; [reflexivity|]. rewrite Eb, Eb'. reflexivity.
Qed.
Lemma size_read p i j : faithful p i -> Z.to_N (known (Z.of_N j) (i_size i)) = read_size (gp_size p).
Proof.
  intro F. unfold i_size. rewrite (fa_size p i F). cbn [option_map known]. unfold atoi_int, read_size. set (k := (gp_size p mod 2 ^ 32)%N).
  assert (K : (k < 2 ^ 32)%N) by (apply N.mod_lt; discriminate). clearbody k. clear F p i.
  assert (B : (2 ^ 32 < 2 ^ 63)%N) by (vm_compute; reflexivity). rewrite strtol10_dec by lia. cbv zeta.
  change (2 ^ 31)%Z with (Z.of_N (2 ^ 31)). change (2 ^ 32)%Z with (Z.of_N (2 ^ 32)). change (2 ^ 64)%Z with (Z.of_N (2 ^ 64)). set (a := (2 ^ 31)%N) in *. assert (E32 : (2 ^ 32)%N = (a + a)%N) by reflexivity.
  assert (Big : (a + a < 2 ^ 64)%N) by (vm_compute; reflexivity). rewrite E32 in *. set (b := (2 ^ 64)%N) in *. assert (Pa : (0 < a)%N) by (vm_compute; reflexivity). clearbody a b. clear E32 B.
  destruct (N.ltb_spec k a) as [H|H].
  - rewrite (Z.mod_small _ (Z.of_N (a + a))) by lia. rewrite Z.mod_small by lia. lia.
  - replace (Z.of_N k + Z.of_N a)%Z with (Z.of_N k - Z.of_N a + 1 * Z.of_N (a + a))%Z by lia. rewrite Z.mod_add by lia. rewrite (Z.mod_small (Z.of_N k - Z.of_N a)) by lia.
    replace (Z.of_N k - Z.of_N a - Z.of_N a)%Z with (Z.of_N b - Z.of_N (a + a) + Z.of_N k + -1 * Z.of_N b)%Z by lia. rewrite Z.mod_add by lia. rewrite Z.mod_small by lia. lia.
Qed.
Lemma heads_all h l : heads h l = match l with [] => [] | _ => [L h ++ flat_map (fun x => " "%char :: x) l] end.
Proof. reflexivity. Qed.

Section Theorems.
  Variables (date : Z -> str) (machine version : str) (j_rel : N) (j_build : Z) (j_size j_space : N).
  Notation shown m own n := (info_binary date machine version j_rel j_build j_size j_space m own n).

  (** The report on a name that the collections offer is on the package [p] that the index keeps for it (C27, C93), read at [d]: field by field what
      its meta data say, those that it does not say as the packages read before it left them, and no line for what is empty. *)
  Theorem C100_report : forall l n p before d, good_depots (at_colls l) -> last_named (at_colls l) n p before -> offered_by l n d ->
    exists m own ds, read_places (files l) = Ok (m, own) /\ deps_of p ds /\ shown m own n = text_of (report date machine version j_rel j_build j_space n p before d ds).
  Proof.
    intros l n p before d Gd Ln Of. destruct (places_ok l [] blank [] [] Gd ltac:(intros c _; reflexivity)) as (m & own & E & Ed & K).
    destruct (C27_exact (at_colls l) Gd) as (m' & Em & Kf & Kin). unfold parse_repo in Em. rewrite Ed in Em. injection Em as <-.
    destruct (mget n m) as [i|] eqn:G.
    2: { exfalso. destruct Ln as (l1 & c & ps1 & ps2 & l2 & El & R & _). destruct (Kin n c (ps1 ++ p :: ps2) p) as (i & X); [rewrite El; apply in_elt|apply in_elt|exact R|]. rewrite G in X. discriminate X. }
    destruct (Kf n i G) as (q & b' & Lq & F & A). destruct (last_named_unique _ _ _ _ _ _ Ln Lq) as [<- <-].
    assert (N0 : forall x j, mget x (@nil (str * irec)) = Some j -> neat j) by (intros x j X; discriminate X).
    pose proof (parse_neat (indexes (at_colls l)) blank [] m neat_blank N0 Ed n i G) as N.
    destruct (K n) as [(d' & Of' & Go)|[No _]].
    2: { exfalso. destruct Of as (l1 & ps & x & l2 & El & Ix & Rx & _). apply (No d ps x); [rewrite El; apply in_elt|exact Ix|exact Rx]. }
    rewrite <- (offered_unique _ _ _ _ Of Of') in Go. exists m, own, (i_deps i). split; [exact E|]. split; [split; [exact (proj2 N)|exact (fa_deps _ _ F)]|].
    unfold info_binary. rewrite G. f_equal. rewrite Go. unfold info_lines, report. cbv zeta.
    assert (V : forall c, In c ["V"; "r"; "S"; "a"; "D"; "U"; "C"; "M"; "P"; "L"; "B"; "c"]%char -> i_val i c = last_of c (before ++ gp_meta p)) by (intros c I; exact (carried_last p before i c A I)).
    assert (Tx : forall c, In c ["V"; "r"; "S"; "a"; "D"; "U"; "C"; "M"; "P"; "L"; "B"; "c"]%char -> i_text c i = text (last_of c (before ++ gp_meta p))) by (intros c I; unfold i_text; rewrite (V c I); reflexivity).
    assert (My : forall c, In c many_tags -> i_many i c = all_of c (gp_meta p)) by (intros c I; exact (many_all p i c N F I)).
    rewrite (size_read p i j_size F). unfold i_release, i_build, i_space.
    rewrite (V "r"%char) by (cbn; tauto). rewrite (V "B"%char) by (cbn; tauto). rewrite (V "S"%char) by (cbn; tauto).
    rewrite (Tx "D"%char), (Tx "c"%char), (Tx "U"%char), (Tx "L"%char), (Tx "V"%char), (Tx "M"%char), (Tx "P"%char), (Tx "C"%char), (Tx "a"%char) by (cbn; tauto).
    rewrite (own_last p i "g" F) by (cbn; tauto). rewrite (My "A"%char), (My "T"%char), (My "s"%char) by (cbn; tauto).
    rewrite (fa_file _ _ F). unfold i_text. rewrite (fa_hash _ _ F), (fa_sig _ _ F). rewrite !heads_all. unfold head.
    assert (Er : known j_rel match last_of "r" (before ++ gp_meta p) with Some v => match stoi_u16 v with Ok k => Some k | _ => None end | None => None end =
                 match last_of "r" (before ++ gp_meta p) with Some v => match stoi_u16 v with Ok k => k | _ => j_rel end | None => j_rel end).
    { destruct (last_of "r" (before ++ gp_meta p)) as [v|]; [destruct (stoi_u16 v)|]; reflexivity. }
    rewrite Er. clear Er.
    assert (Eb : known j_build (option_map epoch (last_of "B" (before ++ gp_meta p))) = match last_of "B" (before ++ gp_meta p) with Some v => epoch v | None => j_build end) by (destruct (last_of "B" (before ++ gp_meta p)); reflexivity).
    rewrite Eb. clear Eb.
    assert (Es : known j_space (option_map atoi_u32 (last_of "S" (before ++ gp_meta p))) = match last_of "S" (before ++ gp_meta p) with Some v => atoi_u32 v | None => j_space end) by (destruct (last_of "S" (before ++ gp_meta p)); reflexivity).
    rewrite Es. clear Es.
    unfold coll_path. generalize (text (last_of "g" (gp_meta p))), (all_of "A" (gp_meta p)), (all_of "T" (gp_meta p)), (all_of "s" (gp_meta p)), (i_deps i). clear.
    intros g a t s ds. destruct g; destruct a; destruct t; destruct s; destruct ds; reflexivity.
  Qed.

  (** Every name that some collection offers has such a package and such a place ... *)
  Theorem C100_all : forall l n d0 ps p0, good_depots (at_colls l) -> In (d0, Some ps) l -> In p0 ps -> regular p0 n ->
    exists p before d, last_named (at_colls l) n p before /\ offered_by l n d.
  Proof.
    intros l n d0 ps p0 Gd I0 Ip R. destruct (places_ok l [] blank [] [] Gd ltac:(intros c _; reflexivity)) as (m & own & E & Ed & K).
    destruct (C27_exact (at_colls l) Gd) as (m' & Em & Kf & Kin).
    destruct (Kin n (u_coll d0) ps p0) as (i & G); [apply in_map_iff; exists (d0, Some ps); split; [reflexivity|exact I0]|exact Ip|exact R|].
    destruct (Kf n i G) as (p & before & Ln & _). destruct (K n) as [(d & Of & _)|[No _]]; [|exfalso; exact (No d0 ps p0 I0 Ip R)]. exists p, before, d. split; [exact Ln|exact Of].
  Qed.
  (** ... and for every other name the command prints nothing. *)
  Theorem C100_unknown : forall l n, good_depots (at_colls l) -> (forall d ps p, In (d, Some ps) l -> In p ps -> ~ regular p n) ->
    exists m own, read_places (files l) = Ok (m, own) /\ shown m own n = [].
  Proof.
    intros l n Gd No. destruct (places_ok l [] blank [] [] Gd ltac:(intros c _; reflexivity)) as (m & own & E & Ed & K).
    destruct (C27_exact (at_colls l) Gd) as (m' & Em & Kf & Kin). unfold parse_repo in Em. rewrite Ed in Em. injection Em as <-. exists m, own. split; [exact E|].
    unfold info_binary. destruct (mget n m) as [i|] eqn:G; [|reflexivity]. exfalso. destruct (Kf n i G) as (p & b & (l1 & c & ps1 & ps2 & l2 & El & R & _) & _).
    assert (I : In (c, Some (ps1 ++ p :: ps2)) (at_colls l)) by (rewrite El; apply in_elt). apply in_map_iff in I as ((d & o) & Ex & I). cbn [fst snd] in Ex. injection Ex as _ ->. exact (No d _ p I (in_elt p ps1 ps2) R).
  Qed.
End Theorems.

(** ** a case: own, gone and base of C93 *)
Definition own_d : dirurl := DU (L "own") (L "/depot") (L "http://own.org").
Definition gone_d : dirurl := DU (L "gone") (L "/depot") (L "http://own.org").
Definition base_d : dirurl := DU (L "base") (L "/srv/depot") (L "http://one.org").
Definition three : shelves := [(own_d, Some [g_own]); (gone_d, None); (base_d, Some [g1; g2])].
Example C100_case : good_depots (at_colls three) /\ last_named (at_colls three) (L "bar") g2 (flat_map lines_of [(L "own", Some [g_own]); (L "gone", None)] ++ L "cbase" :: gp_meta g1) /\
  offered_by three (L "bar") base_d.
Proof.
  split; [exact C93_good|]. split.
  - exists [(L "own", Some [g_own]); (L "gone", None)], (L "base"), [g1], [], []. split; [reflexivity|]. split; [exact regular_g2|]. split; [cbn [flat_map]; rewrite app_nil_r; reflexivity|]. split; [intros p' []|intros d ps p' []].
  - exists [(own_d, Some [g_own]); (gone_d, None)], [g1; g2], g2, []. split; [reflexivity|]. split; [right; left; reflexivity|]. split; [exact regular_g2|intros d' ps' p' []].
Qed.
Definition no_date (_ : Z) : str := L "(date)".
Definition read_three : list (str * irec) * list (str * dirurl) := match read_places (files three) with Ok x => x | _ => ([], []) end.
(** The meta data of bar have no address of a project: that of foo, which was read just before, is shown for it. *)
Theorem C100_stale_refuted : exists m own pre post, read_places (files three) = Ok (m, own) /\ (forall v, ~ In ("U"%char :: v) (gp_meta g2)) /\
  info_binary no_date (L "x86_64") (L "rolling") 0 0 0 0 m own (L "bar") = pre ++ L "URL            : http://foo.org" ++ post.
Proof.
  exists (fst read_three), (snd read_three). eexists (text_of _). eexists. split; [vm_compute; reflexivity|]. split.
  - cbn [g2 gp_meta]. intros v I. repeat (destruct I as [I|I]; [discriminate I|]). destruct I.
  - instantiate (2 := [L "Name           : bar"; L "Description    : A bar"; L "Archive name   : bar2.0-1-x86_64.cards-zst"; L "Collection     : base"]). vm_compute. reflexivity.
Qed.
(** An archive of 3 GB: the index says so, but it is read as a number with a sign and shown as a huge size. *)
Theorem C100_large_refuted : read_size (3 * 2 ^ 30) <> (3 * 2 ^ 30)%N /\ size_text (read_size (3 * 2 ^ 30)) <> size_text (3 * 2 ^ 30).
Proof. split; vm_compute; intro H; discriminate H. Qed.
(** Below 2 GiB the size shown is the size of the archive. *)
Theorem C100_size : forall k, (k < 2 ^ 31)%N -> read_size k = k.
Proof.
  intros k H. unfold read_size. assert (B : (2 ^ 31 < 2 ^ 32)%N) by (vm_compute; reflexivity). rewrite N.mod_small by (eapply N.lt_trans; [exact H|exact B]). apply N.ltb_lt in H. cbv zeta. rewrite H. reflexivity.
Qed.
