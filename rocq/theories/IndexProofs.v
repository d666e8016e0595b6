(** C27: reading back a generated index. *)
From Verif Require Import Base BaseProofs StrModel StrSpec StrProofs RulesModel FsModel FsProofs MetaModel MetaSpec MetaProofs DbModel GenDeps IndexModel.
From Coq Require Import ZArith Lia.

(** ** vocabulary *)
(** the last line with tag [c] *)
Definition last_line (c : ascii) (ls : list str) (v : str) : Prop := exists u w, ls = u ++ (c :: v) :: w /\ forall x, ~ In (c :: x) w.
(** a package the generator handles faithfully: file name with ".cards-", exactly one name line, no empty META line, no line
    starting with @, release lines that are numbers, no empty collection line *)
Record regular (p : gpkg) (name : str) : Prop := Reg {
  rg_file : sfind (L ".cards-") ("@"%char :: gp_file p) <> None;
  rg_name : filter (has_tag "N") (gp_meta p) = [("N"%char :: name)];
  rg_lines : forall s, In s (gp_meta p) -> s <> [] /\ forall v, s <> "@"%char :: v;
  rg_rel : forall v, In ("r"%char :: v) (gp_meta p) -> exists k, stoi_u16 v = Ok k;
  rg_dep : forall v, In ("R"%char :: v) (gp_meta p) -> 10 <= length v;
  rg_coll : ~ In (L "c") (gp_meta p) }.
(** what the index says of [p] *)
Record faithful (p : gpkg) (i : irec) : Prop := Faith {
  fa_file : i_file i = gp_file p;
  fa_hash : i_val i "H" = Some (gp_hash p);
  fa_sig : i_val i "I" = Some (gp_sig p);
  fa_size : i_val i "i" = Some (dec (gp_size p mod 2 ^ 32));
  fa_one : forall c v, In c ["V"; "r"; "S"; "a"; "D"; "U"; "C"; "M"; "P"; "L"; "B"; "c"; "g"; "n"]%char -> last_line c (gp_meta p) v -> i_val i c = Some v;
  fa_group : forall c, In c ["g"; "n"]%char -> (forall v, ~ In (c :: v) (gp_meta p)) -> i_val i c = Some [];
  fa_many : forall c x, In c many_tags -> (In x (i_many i c) <-> In (c :: x) (gp_meta p));
  fa_deps : forall n e, In (n, e) (i_deps i) <-> exists dt, length dt = 10 /\ 4 <= length n /\ In ("R"%char :: n ++ dt) (gp_meta p) /\ e = epoch dt }.

(** ** one record *)
Definition stepv (f : ascii -> option str) (s : str) : ascii -> option str := match s with c :: v => if amem c one_tags then put c v f else f | [] => f end.
Definition stepm (f : ascii -> list str) (s : str) : ascii -> list str :=
  match s with c :: v => if amem c many_tags then putm c (sins v (f c)) f else f | [] => f end.
Definition stepd (d : list dep) (s : str) : list dep :=
  if has_tag "R" s && (14 <? length s) then match dep_of_line s with Ok x => dins x d | _ => d end else d.
Definition stepn (n : str) (s : str) : str := if has_tag "N" s then skipn 1 s else n.

Lemma tag_line_step s p : s <> [] -> (forall v, s = "r"%char :: v -> exists k, stoi_u16 v = Ok k) -> (forall v, s = "R"%char :: v -> 10 <= length v) -> p_found p = true -> (forall v, s <> "@"%char :: v) ->
  exists i, idx_line s p = Ok (P true (stepn (p_name p) s) i (stepm (p_many p) s) (stepd (p_deps p) s) (p_map p)) /\
    i_file i = i_file (p_info p) /\ i_val i = stepv (i_val (p_info p)) s.
Proof.
  intros Ne Hr HR F At. destruct s as [|c v]; [contradiction|]. unfold idx_line. cbn [has_tag]. 
  assert (A : ceqb c "@" = false) by (apply ceqb_neq; intros ->; exact (At v eq_refl)). rewrite A, F. unfold tag_line.
  unfold stepn, stepv, stepm, stepd. cbn [has_tag skipn].
  destruct (ceqb c "N") eqn:EN. { apply ceqb_eq in EN. subst c. cbn. exists (p_info p). rewrite F. auto. }
  destruct (ceqb c "r") eqn:Er. { apply ceqb_eq in Er. subst c. destruct (Hr v eq_refl) as [k ->]. eexists. rewrite F. cbn. split; [reflexivity|]. split; reflexivity. }
  destruct (amem c one_tags) eqn:E1.
  { eexists. rewrite F. assert (EM : amem c many_tags = false).
    { apply not_true_iff_false. intro H. unfold amem in *. apply existsb_exists in H as [x [Ix X]]. apply ceqb_eq in X. subst x. cbn in Ix.
      destruct Ix as [<-|[<-|[<-|[<-|[<-|[]]]]]]; discriminate E1. }
    assert (ER : ceqb c "R" = false) by (apply ceqb_neq; intros ->; discriminate E1). rewrite EM, ER. cbn [andb]. split; [reflexivity|]. split; reflexivity. }
  destruct (amem c many_tags) eqn:E2.
  { eexists. rewrite F. assert (ER : ceqb c "R" = false) by (apply ceqb_neq; intros ->; discriminate E2). rewrite ER. cbn [andb]. split; [reflexivity|]. split; reflexivity. }
  destruct (ceqb c "R") eqn:ER.
  { apply ceqb_eq in ER. subst c. exists (p_info p). destruct (14 <? length ("R"%char :: v)) eqn:Le; cbn [andb].
    - apply Nat.ltb_lt in Le. unfold dep_of_line. replace (length ("R"%char :: v) <? 10) with false by (symmetry; apply Nat.ltb_ge; lia). cbn [rbind]. rewrite F. auto.
    - destruct p; cbn in *. subst. auto. }
  exists (p_info p). cbn [andb]. destruct p; cbn in *. subst. auto.
Qed.
Lemma tag_lines_fold (ls : list str) : (forall s, In s ls -> s <> [] /\ forall v, s <> "@"%char :: v) -> (forall v, In ("r"%char :: v) ls -> exists k, stoi_u16 v = Ok k) ->
  (forall v, In ("R"%char :: v) ls -> 10 <= length v) -> forall p (rest : list str), p_found p = true ->
  exists i, idx_lines (ls ++ rest) p = idx_lines rest (P true (fold_left stepn ls (p_name p)) i (fold_left stepm ls (p_many p)) (fold_left stepd ls (p_deps p)) (p_map p)) /\
    i_file i = i_file (p_info p) /\ i_val i = fold_left stepv ls (i_val (p_info p)).
Proof.
  induction ls as [|s t IH]; intros H Hr HR p rest F; cbn [app fold_left].
  - exists (p_info p). destruct p; cbn in *. subst. auto.
  - destruct (H s (or_introl eq_refl)) as [Ne At]. destruct (tag_line_step s p Ne) as [i [E [E1 E2]]].
    + intros v ->. apply Hr. left. reflexivity.
    + intros v ->. apply HR. left. reflexivity.
    + exact F.
    + exact At.
    + cbn [idx_lines]. rewrite E. cbn [rbind].
      destruct (IH (fun x X => H x (or_intror X)) (fun v X => Hr v (or_intror X)) (fun v X => HR v (or_intror X)) (P true (stepn (p_name p) s) i (stepm (p_many p) s) (stepd (p_deps p) s) (p_map p)) rest eq_refl) as [j [J1 [J2 J3]]].
      exists j. rewrite J1. cbn [p_name p_many p_deps p_map p_info] in *. split; [reflexivity|]. split; [congruence|]. rewrite J3, E2. reflexivity.
Qed.
(** values of the folds *)
Lemma stepv_other c (ls : list str) : (forall v, ~ In (c :: v) ls) -> forall f, fold_left stepv ls f c = f c.
Proof.
  induction ls as [|s t IH]; intros H f; [reflexivity|]. cbn [fold_left]. rewrite IH by (intros v X; apply (H v); right; exact X). destruct s as [|d v]; [reflexivity|]. cbn [stepv].
  destruct (amem d one_tags); [|reflexivity]. unfold put. destruct (ceqb c d) eqn:E; [|reflexivity]. apply ceqb_eq in E. subst d. exfalso. apply (H v). left. reflexivity.
Qed.
Lemma stepv_last c (ls : list str) v f : In c one_tags -> last_line c ls v -> fold_left stepv ls f c = Some v.
Proof.
  intros I [u [w [-> N]]]. rewrite fold_left_app. cbn [fold_left]. rewrite stepv_other by exact N. cbn [stepv]. 
  assert (A : amem c one_tags = true) by (apply existsb_exists; exists c; split; [exact I|apply ceqb_refl]). rewrite A. unfold put. rewrite ceqb_refl. reflexivity.
Qed.
Lemma stepm_In c (ls : list str) x : In c many_tags -> forall f, In x (fold_left stepm ls f c) <-> In x (f c) \/ In (c :: x) ls.
Proof.
  intro I. assert (A : amem c many_tags = true) by (apply existsb_exists; exists c; split; [exact I|apply ceqb_refl]).
  induction ls as [|s t IH]; intro f; cbn [fold_left]; [cbn; tauto|]. rewrite IH. destruct s as [|d v]; cbn [stepm]; [cbn; intuition discriminate|].
  destruct (amem d many_tags) eqn:E.
  - unfold putm. destruct (ceqb c d) eqn:B.
    + apply ceqb_eq in B. subst d. rewrite sins_In. cbn [In]. split; [intros [[->|H]|H]; auto|]. intros [H|[H|H]]; [auto|inversion H; auto|auto].
    + cbn [In]. split; [tauto|]. intros [H|[H|H]]; [auto| |auto]. inversion H; subst. rewrite ceqb_refl in B. discriminate.
  - cbn [In]. split; [tauto|]. intros [H|[H|H]]; [auto| |auto]. inversion H; subst. congruence.
Qed.
Lemma stepd_In (ls : list str) x : forall d, In x (fold_left stepd ls d) <-> In x d \/ exists s, In s ls /\ has_tag "R" s = true /\ 14 < length s /\ dep_of_line s = Ok x.
Proof.
  induction ls as [|s t IH]; intro d; cbn [fold_left]; [split; [auto|intros [H|[s [[] _]]]; exact H]|]. rewrite IH. unfold stepd.
  destruct (has_tag "R" s) eqn:T; cbn [andb].
  - destruct (14 <? length s) eqn:Le.
    + apply Nat.ltb_lt in Le. destruct (dep_of_line s) as [y| |] eqn:D.
      * rewrite dins_In. split.
        -- intros [[->|H]|[q [Q H]]]; [right; exists s; cbn; auto|auto|right; exists q; cbn; tauto].
        -- intros [H|[q [[->|Q] [H1 [H2 H3]]]]]; [auto|left; left; congruence|right; exists q; auto].
      * split; [intros [H|[q [Q H]]]; [auto|right; exists q; cbn; tauto]|]. intros [H|[q [[->|Q] [H1 [H2 H3]]]]]; [auto|congruence|right; exists q; auto].
      * split; [intros [H|[q [Q H]]]; [auto|right; exists q; cbn; tauto]|]. intros [H|[q [[->|Q] [H1 [H2 H3]]]]]; [auto|congruence|right; exists q; auto].
    + apply Nat.ltb_ge in Le. split; [intros [H|[q [Q H]]]; [auto|right; exists q; cbn; tauto]|]. intros [H|[q [[->|Q] [H1 [H2 H3]]]]]; [auto|lia|right; exists q; auto].
  - split; [intros [H|[q [Q H]]]; [auto|right; exists q; cbn; tauto]|]. intros [H|[q [[->|Q] [H1 [H2 H3]]]]]; [auto|congruence|right; exists q; auto].
Qed.
Lemma stepn_name (ls : list str) name : filter (has_tag "N") ls = [("N"%char :: name)] -> forall n, fold_left stepn ls n = name.
Proof.
  intro H. assert (G : forall l n, filter (has_tag "N") l = [] -> fold_left stepn l n = n).
  { induction l as [|s t IH]; intros n E; [reflexivity|]. cbn in *. destruct (has_tag "N" s) eqn:T; [discriminate|]. unfold stepn at 2. rewrite T. apply IH, E. }
  induction ls as [|s t IH]; intro n; [discriminate|]. cbn in *. destruct (has_tag "N" s) eqn:T.
  - inversion H; subst. rewrite G by assumption. reflexivity.
  - apply IH, H.
Qed.
Lemma coll_nonempty (ls : list str) : ~ In (L "c") ls -> forall f, (match f "c"%char with Some v => v | None => [] end) <> [] -> (match fold_left stepv ls f "c"%char with Some v => v | None => [] end) <> [].
Proof.
  induction ls as [|s t IH]; intros N f H; [exact H|]. cbn [fold_left]. apply IH; [intro K; apply N; right; exact K|]. destruct s as [|d v]; [exact H|]. cbn [stepv].
  destruct (amem d one_tags); [|exact H]. unfold put. destruct (ceqb "c" d) eqn:B; [|exact H]. apply ceqb_eq in B. subst d. intros ->. apply N. left. reflexivity.
Qed.
Definition plain_tags : list ascii := ["V"; "r"; "S"; "a"; "D"; "U"; "C"; "M"; "P"; "L"; "B"; "c"]%char.
Lemma stepv_local c (ls : list str) : forall f g, f c = g c -> fold_left stepv ls f c = fold_left stepv ls g c.
Proof.
  induction ls as [|s t IH]; intros f g E; [exact E|]. cbn [fold_left]. apply IH. destruct s as [|d v]; [exact E|]. cbn [stepv]. destruct (amem d one_tags); [|exact E]. unfold put. destruct (ceqb c d); [reflexivity|exact E].
Qed.
Lemma record_ok p name q : regular p name -> p_many q = no_many -> p_deps q = [] -> i_text "c" (p_info q) <> [] ->
  exists i, idx_lines (gen_lines p) q = Ok (P false name i no_many [] (mset name i (p_map q))) /\ faithful p i /\ i_text "c" i <> [] /\
    forall c, In c plain_tags -> i_val i c = fold_left stepv (gp_meta p) (i_val (p_info q)) c.
Proof.
  intros [R1 R2 R3 R4 R5 R6] M D C. unfold gen_lines. cbn [idx_lines]. unfold idx_line at 1. cbn [has_tag]. rewrite ceqb_refl. cbn [rbind]. unfold at_line.
  destruct (sfind (L ".cards-") ("@"%char :: gp_file p)) as [k|]; [|contradiction]. cbn [skipn].
  set (q1 := P true _ _ _ _ _). destruct (tag_lines_fold (gp_meta p) R3 R4 R5 q1 (gen_tail p) eq_refl) as [i [E [F V]]].
  rewrite E. clear E. rewrite (stepn_name _ name R2). unfold q1 in *. cbn [p_name p_many p_deps p_map p_info i_file i_val] in *. rewrite M, D.
  assert (Ci : i_text "c" i <> []).
  { unfold i_text. rewrite V. apply coll_nonempty; [exact R6|]. cbn. exact C. }
  set (pm := fold_left stepm (gp_meta p) no_many). set (pd := fold_left stepd (gp_meta p) []).
  assert (Tail : exists i', idx_lines (gen_tail p) (P true name i pm pd (p_map q)) =
    Ok (P false name i' no_many [] (mset name i' (p_map q))) /\ i_file i' = i_file i /\ i_val i' = put "i" (dec (gp_size p mod 2 ^ 32)) (put "I" (gp_sig p) (put "H" (gp_hash p) (i_val i))) /\ i_many i' = pm /\ i_deps i' = pd).
  { unfold gen_tail. set (sz := dec (gp_size p mod 2 ^ 32)). cbn [idx_lines]. unfold idx_line, tag_line. cbn [has_tag ceqb Ascii.eqb Bool.eqb p_found amem existsb one_tags orb rbind p_info p_name p_many p_deps p_map i_file i_val i_base i_many i_deps].
    unfold store. cbn [p_info p_name p_many p_deps p_map i_file i_val i_base i_many i_deps].
    unfold i_text. cbn [i_val]. unfold put at 1 2 3. cbn [ceqb Ascii.eqb Bool.eqb]. fold (i_text "c" i).
    replace (length (i_text "c" i) =? 0) with false by (symmetry; apply Nat.eqb_neq; destruct (i_text "c" i); [contradiction|discriminate]). cbn [andb].
    eexists. split; [reflexivity|]. cbn [i_file i_val i_many i_deps]. auto. }
  destruct Tail as [i' [T1 [T2 [T3 [T4 T5]]]]]. exists i'. split; [exact T1|]. split.
  - constructor.
    + rewrite T2, F. reflexivity.
    + rewrite T3. reflexivity.
    + rewrite T3. reflexivity.
    + rewrite T3. reflexivity.
    + intros c v Ic Lc. rewrite T3. assert (Hc : put "i" (dec (gp_size p mod 2 ^ 32)) (put "I" (gp_sig p) (put "H" (gp_hash p) (i_val i))) c = i_val i c).
      { unfold put. cbn in Ic. destruct Ic as [<-|[<-|[<-|[<-|[<-|[<-|[<-|[<-|[<-|[<-|[<-|[<-|[<-|[<-|[]]]]]]]]]]]]]]]; reflexivity. }
      rewrite Hc, V. apply stepv_last; [|exact Lc]. cbn in Ic |- *. tauto.
    + intros c Ic Nc. rewrite T3. assert (Hc : put "i" (dec (gp_size p mod 2 ^ 32)) (put "I" (gp_sig p) (put "H" (gp_hash p) (i_val i))) c = i_val i c) by (cbn in Ic; destruct Ic as [<-|[<-|[]]]; reflexivity).
      rewrite Hc, V, stepv_other by exact Nc. cbn in Ic. destruct Ic as [<-|[<-|[]]]; reflexivity.
    + intros c x Ic. rewrite T4. unfold pm. rewrite (stepm_In c _ x Ic). cbn. tauto.
    + intros n e. rewrite T5. unfold pd. rewrite stepd_In. split.
      * intros [[]|[s [Is [T [Le Ds]]]]]. apply has_tag_In in T as [v ->]. pose proof (R5 v Is) as Lv. destruct (split_last10 v Lv) as [n' [dt [-> Ld]]].
        rewrite dep_of_line_spec in Ds by exact Ld. inversion Ds; subst. exists dt. cbn in Le. rewrite app_length in Le. split; [exact Ld|]. split; [lia|]. auto.
      * intros [dt [Ld [Ln [Id ->]]]]. right. exists ("R"%char :: n ++ dt). split; [exact Id|]. split; [reflexivity|]. split; [cbn; rewrite app_length; lia|]. apply dep_of_line_spec, Ld.
  - split; [unfold i_text; rewrite T3; unfold put; cbn [ceqb Ascii.eqb Bool.eqb]; exact Ci|]. intros c Ic. rewrite T3.
    assert (Hc : put "i" (dec (gp_size p mod 2 ^ 32)) (put "I" (gp_sig p) (put "H" (gp_hash p) (i_val i))) c = i_val i c).
    { unfold put. cbn in Ic. destruct Ic as [<-|[<-|[<-|[<-|[<-|[<-|[<-|[<-|[<-|[<-|[<-|[<-|[]]]]]]]]]]]]]; reflexivity. }
    rewrite Hc, V. apply stepv_local. unfold put. cbn in Ic. destruct Ic as [<-|[<-|[<-|[<-|[<-|[<-|[<-|[<-|[<-|[<-|[<-|[<-|[]]]]]]]]]]]]]; reflexivity.
Qed.
Lemma idx_lines_app a : forall b p, idx_lines (a ++ b) p = rbind (idx_lines a p) (idx_lines b).
Proof. induction a as [|s t IH]; intros b p; [reflexivity|]. cbn. destruct (idx_line s p); cbn; auto. Qed.
Lemma index_ok ps : forall names q, Forall2 regular ps names -> NoDup names -> p_many q = no_many -> p_deps q = [] -> i_text "c" (p_info q) <> [] ->
  exists q', idx_lines (flat_map gen_lines ps) q = Ok q' /\ (forall n, ~ In n names -> mget n (p_map q') = mget n (p_map q)) /\
    Forall2 (fun p n => exists i, mget n (p_map q') = Some i /\ faithful p i) ps names.
Proof.
  induction ps as [|p ps IH]; intros names q F N M D C; inversion F as [|x n y l R F' E1 E2]; subst; cbn [flat_map].
  - exists q. split; [reflexivity|]. split; [auto|constructor].
  - inversion N as [|? ? Nn N']; subst. destruct (record_ok p n q R M D C) as (i & E & Fa & Ci & _). rewrite idx_lines_app, E. cbn [rbind].
    destruct (IH l (P false n i no_many [] (mset n i (p_map q))) F' N' eq_refl eq_refl Ci) as [q' [E' [K A]]]. exists q'. split; [exact E'|]. cbn [p_map] in K. split.
    + intros k Nk. rewrite K by (intro X; apply Nk; right; exact X). rewrite mget_mset. rewrite (proj2 (seqb_neq k n)); [reflexivity|]. intros ->. apply Nk. left. reflexivity.
    + constructor; [|exact A]. exists i. split; [|exact Fa]. rewrite (K n Nn), mget_mset, seqb_refl. reflexivity.
Qed.
