(** C63, C64: what the .FILES indexes tell. *)
From Verif Require Import Base BaseProofs StrModel FsModel FsProofs MetaModel FilesModel.

(** ** specification *)
(** the archive belongs to the package: "<name>.cards-<anything>" *)
Definition named (a : farch) (n : str) : Prop := exists r, fa_file a = n ++ L ".cards-" ++ r.
(** a file that is not mistaken for a heading *)
Definition plain (f : str) : Prop := f <> [] /\ forall t, f <> "@"%char :: t.
Definition regular (a : farch) : Prop := ~ In "@"%char (fa_file a) /\ Forall plain (fa_files a).
Definition fits (l : str) : Prop := ~ In nl l /\ ~ In zero l /\ length l < BUFSIZ - 1.
(** the depot: collections and their archives; [written]: the indexes generated for it *)
Definition depot := list (str * list farch).
Definition written (d : depot) : list (str * option str) := map (fun e => (fst e, Some (files_index (snd e)))) d.
Definition well (d : depot) : Prop := forall c ar, In (c, ar) d -> Forall regular ar /\ Forall fits (files_lines ar).
Definition archives (d : depot) : list farch := flat_map snd d.

(** ** proofs *)
Lemma index_lines ar : Forall fits (files_lines ar) -> parse_lines (files_index ar) = Some (files_lines ar).
Proof. exact (parse_text (files_lines ar)). Qed.
Lemma plain_starts f : plain f -> starts_at f = false.
Proof. intros [N H]. destruct f as [|c t]; [reflexivity|]. cbn [starts_at]. destruct (ceqb c at_sign) eqn:E; [|reflexivity]. apply ceqb_eq in E. subst c. destruct (H t). reflexivity. Qed.
Lemma found_in_spec p s : found_in p s = true <-> occurs p s.
Proof.
  unfold found_in. destruct (sfind p s) as [n|] eqn:E.
  - split; [|reflexivity]. intros _. apply sfind_Some in E as [E _]. exists (firstn n s), (skipn (n + length p) s). exact E.
  - split; [discriminate|]. intro H. destruct (proj1 (sfind_None p s) E H).
Qed.
Lemma heading a n : ~ In "@"%char (fa_file a) -> occurs (at_sign :: n ++ dot_cards) (at_sign :: fa_file a) <-> named a n.
Proof.
  intro N. split.
  - intros [x [y E]]. destruct x as [|c x].
    + cbn [app] in E. injection E as E. exists y. rewrite E. unfold dot_cards. rewrite <- app_assoc. reflexivity.
    + exfalso. apply N. cbn [app] in E. injection E as _ E. rewrite E. apply in_app_iff. right. left. reflexivity.
  - intros [r E]. exists [], r. rewrite E. unfold dot_cards. cbn [app]. rewrite <- app_assoc. reflexivity.
Qed.
Lemma scan_files pat fs t out : Forall plain fs -> files_scan pat (fs ++ t) true out = files_scan pat t true (out ++ fs).
Proof.
  intro F. revert out. induction F as [|f fs P F IH]; intro out; [rewrite app_nil_r; reflexivity|]. cbn [app files_scan]. rewrite (plain_starts f P). cbn [andb]. destruct f as [|c f]; [destruct P as [P _]; destruct P; reflexivity|].
  rewrite IH, <- app_assoc. reflexivity.
Qed.
Lemma scan_skip pat fs t out : Forall plain fs -> files_scan pat (fs ++ t) false out = files_scan pat t false out.
Proof. induction 1 as [|f fs P F IH]; [reflexivity|]. cbn [app files_scan]. rewrite (plain_starts f P). exact IH. Qed.
Notation pattern n := (at_sign :: n ++ dot_cards).
Lemma scan_other n a t out : regular a -> ~ named a n -> files_scan (pattern n) (files_par a ++ t) false out = files_scan (pattern n) t false out.
Proof.
  intros [N F] H. unfold files_par. cbn [app files_scan starts_at]. rewrite ceqb_refl. cbn [andb]. destruct (found_in (pattern n) (at_sign :: fa_file a)) eqn:E; [apply found_in_spec, (heading a n N) in E; contradiction|].
  rewrite <- app_assoc, scan_skip by exact F. reflexivity.
Qed.
Lemma scan_hit n a t out : regular a -> named a n -> files_scan (pattern n) (files_par a ++ t) false out = (true, out ++ fa_files a).
Proof.
  intros [N F] H. unfold files_par. cbn [app files_scan starts_at]. rewrite ceqb_refl, (proj2 (found_in_spec _ _) (proj2 (heading a n N) H)). cbn [andb]. rewrite <- app_assoc, scan_files by exact F. reflexivity.
Qed.
Lemma scan_archives n ar out : Forall regular ar ->
  (Forall (fun a => ~ named a n) ar -> files_scan (pattern n) (files_lines ar) false out = (false, out)) /\
  (forall xs a ys, ar = xs ++ a :: ys -> Forall (fun a => ~ named a n) xs -> named a n -> files_scan (pattern n) (files_lines ar) false out = (true, out ++ fa_files a)).
Proof.
  intro R. split.
  - intro H. unfold files_lines. induction ar as [|a ar IH]; [reflexivity|]. cbn [flat_map]. inversion R as [|? ? Ra R']; subst. inversion H as [|? ? Ha H']; subst. rewrite scan_other by assumption. apply IH; assumption.
  - intros xs a ys -> Fx Hn. unfold files_lines. revert R. induction xs as [|x xs IH]; intro R; cbn [app flat_map] in *.
    + inversion R as [|? ? Ra R']; subst. apply scan_hit; assumption.
    + inversion R as [|? ? Rx R']; subst. inversion Fx as [|? ? Hx Fx']; subst. rewrite scan_other by assumption. apply IH; assumption.
Qed.
Lemma well_tail c ar d : well ((c, ar) :: d) -> Forall regular ar /\ Forall fits (files_lines ar) /\ well d.
Proof. intro W. split; [apply (W c ar); left; reflexivity|]. split; [apply (W c ar); left; reflexivity|]. intros c' ar' I. apply (W c' ar'). right. exact I. Qed.

(** *** cards files -b prints exactly the files of the first archive of the package, in the order of the collections *)
Theorem C63_files_partial d n xs a ys : well d -> archives d = xs ++ a :: ys -> Forall (fun x => ~ named x n) xs -> named a n ->
  files_cmd n (written d) = Ok (fa_files a).
Proof.
  intros W E Fx Na. unfold files_cmd. change (fa_files a) with ([] ++ fa_files a). generalize ([] : list str) as out.
  revert xs E Fx. induction d as [|[c ar] d IH]; intros xs E Fx out; [destruct xs; discriminate E|]. apply well_tail in W as [R [G W]]. cbn [written map fst snd files_dirs]. rewrite (index_lines ar G).
  cbn [archives flat_map snd] in E. destruct (scan_archives n ar out R) as [No Yes]. apply app_eq_app in E. destruct E as [l [[E1 E2]|[E1 E2]]].
  - destruct l as [|b l].
    + cbn [app] in E2. rewrite app_nil_r in E1. subst xs. rewrite No by exact Fx. apply (IH W [] (eq_sym E2) (Forall_nil _)).
    + cbn [app] in E2. injection E2 as -> _. rewrite (Yes xs b l E1 Fx Na). reflexivity.
  - subst xs. apply Forall_app in Fx as [Fa Fl]. rewrite No by exact Fa. apply (IH W l); [exact E2|exact Fl].
Qed.
(** *** and nothing for a package that no collection has *)
Theorem C63_none_partial d n : well d -> (forall a, In a (archives d) -> ~ named a n) -> files_cmd n (written d) = Ok [].
Proof.
  intros W H. unfold files_cmd. generalize ([] : list str) as out. induction d as [|[c ar] d IH]; intro out; [reflexivity|]. apply well_tail in W as [R [G W]]. cbn [written map fst snd files_dirs]. rewrite (index_lines ar G).
  destruct (scan_archives n ar out R) as [No _]. rewrite No by (apply Forall_forall; intros a I; apply H; cbn [archives flat_map snd]; apply in_app_iff; left; exact I).
  apply IH; [exact W|]. intros a I. apply H. cbn [archives flat_map snd]. apply in_app_iff. right. exact I.
Qed.
(** an archive belongs to one package only, when names do not contain ".cards-" *)
Lemma occurs_pre p x y : occurs p x -> occurs p (x ++ y).
Proof. intros [u [v ->]]. exists u, (v ++ y). rewrite <- !app_assoc. reflexivity. Qed.
Lemma dc_split (l r r' : str) : L ".cards-" ++ r = l ++ L ".cards-" ++ r' -> l = [] \/ occurs (L ".cards-") l.
Proof.
  intro E. do 7 (destruct l as [|? l]; [first [left; reflexivity|exfalso; cbn in E; congruence]|]). right.
  cbn in E. injection E as <- <- <- <- <- <- <- E. exists [], l. reflexivity.
Qed.
Theorem C63_one_owner a n n' : named a n -> named a n' -> ~ occurs (L ".cards-") n -> ~ occurs (L ".cards-") n' -> n = n'.
Proof.
  intros [r E] [r' E'] N N'. rewrite E in E'. apply app_eq_app in E' as [l [[E1 E2]|[E1 E2]]].
  - apply dc_split in E2 as [-> | O]; [rewrite app_nil_r in E1; exact E1|]. exfalso. apply N. rewrite E1. destruct O as [u [v ->]]. exists (n' ++ u), v. rewrite <- app_assoc. reflexivity.
  - apply dc_split in E2 as [-> | O]; [rewrite app_nil_r in E1; symmetry; exact E1|]. exfalso. apply N'. rewrite E1. destruct O as [u [v ->]]. exists (n ++ u), v. rewrite <- app_assoc. reflexivity.
Qed.

(** ** query -b *)
Definition hits (m : str -> bool) (c : str) (a : farch) : list (str * str * str) :=
  map (fun f => (c, fa_file a, slash :: f)) (filter (fun f => m (slash :: f)) (fa_files a ++ [[]])).
Lemma qscan_files m c fs t name out : Forall (fun f => starts_at f = false) fs ->
  query_scan m c (fs ++ t) name out = query_scan m c t name (out ++ map (fun f => (c, name, slash :: f)) (filter (fun f => m (slash :: f)) fs)).
Proof.
  intro F. revert out. induction F as [|f fs P F IH]; intro out; [cbn [app filter map]; rewrite app_nil_r; reflexivity|]. cbn [app query_scan filter]. rewrite P, IH. destruct (m (slash :: f)); [|reflexivity]. cbn [map]. rewrite <- app_assoc. reflexivity.
Qed.
Lemma qscan_archives m c ar name out : Forall regular ar -> exists name', query_scan m c (files_lines ar) name out = (name', out ++ flat_map (hits m c) ar).
Proof.
  intro R. unfold files_lines. revert name out. induction R as [|a ar [N F] R IH]; intros name out; [exists name; cbn [flat_map query_scan]; rewrite app_nil_r; reflexivity|].
  cbn [flat_map]. unfold files_par at 1. cbn [app query_scan starts_at]. rewrite ceqb_refl. cbn [skipn]. rewrite qscan_files.
  - destruct (IH (fa_file a) (out ++ hits m c a)) as [name' E]. exists name'. unfold hits in E at 1. rewrite E, <- app_assoc. reflexivity.
  - apply Forall_app. split; [|constructor; [reflexivity|constructor]]. apply Forall_forall. intros f I. apply plain_starts. exact (proj1 (Forall_forall _ _) F f I).
Qed.
Lemma query_exact m d : well d -> query_cmd m (written d) = Ok (flat_map (fun e => flat_map (hits m (fst e)) (snd e)) d).
Proof.
  unfold query_cmd. intro W. change (flat_map (fun e => flat_map (hits m (fst e)) (snd e)) d) with ([] ++ flat_map (fun e => flat_map (hits m (fst e)) (snd e)) d). generalize ([] : list (str * str * str)) as out. generalize (L "Package") as name.
  induction d as [|[c ar] d IH]; intros name out; [cbn [written map query_dirs flat_map]; rewrite app_nil_r; reflexivity|]. apply well_tail in W as [R [G W]]. cbn [written map fst snd query_dirs]. rewrite (index_lines ar G).
  destruct (qscan_archives m c ar name out R) as [name' E]. rewrite E. etransitivity; [exact (IH W name' _)|]. cbn [flat_map fst snd]. rewrite <- app_assoc. reflexivity.
Qed.
(** *** cards query -b lists exactly the matching files with the collection and archive that hold them *)
Theorem C64_query_partial m d : well d -> m (L "/") = false -> exists out, query_cmd m (written d) = Ok out /\
  forall c p f, In (c, p, f) out <-> exists ar a g, In (c, ar) d /\ In a ar /\ In g (fa_files a) /\ p = fa_file a /\ f = L "/" ++ g /\ m f = true.
Proof.
  intros W M. eexists. split; [apply query_exact, W|]. intros c p f. rewrite in_flat_map. split.
  - intros [[c' ar] [I H]]. cbn [fst snd] in H. apply in_flat_map in H as [a [Ia H]]. unfold hits in H. apply in_map_iff in H as [g [E H]]. apply filter_In in H as [Ig Mg]. injection E as <- <- <-. apply in_app_iff in Ig as [Ig|[<-|[]]]; [|change (L "/") with [slash] in M; congruence].
    exists ar, a, g. cbn [app L list_ascii_of_string]. auto 8.
  - intros [ar [a [g [I [Ia [Ig [-> [-> Mg]]]]]]]]. exists (c, ar). split; [exact I|]. cbn [fst snd]. apply in_flat_map. exists a. split; [exact Ia|]. unfold hits. apply in_map_iff. exists g. split; [reflexivity|]. apply filter_In. split; [apply in_app_iff; left; exact Ig|exact Mg].
Qed.

(** ** the files of the packages as 'cards create' reads them *)
Definition files_of (m : list (str * list str)) (n : str) : list str := match mget n m with Some l => l | None => [] end.
Lemma files_of_add n f m k g : In g (files_of (add_file n f m) k) <-> (k = n /\ g = f) \/ In g (files_of m k).
Proof.
  unfold files_of, add_file. rewrite mget_mset. destruct (seqb k n) eqn:E.
  - apply seqb_eq in E. subst k. rewrite sins_In. split; [intros [->|H]; [left; auto|right; exact H]|intros [[_ ->]|H]; [left; reflexivity|right; exact H]].
  - apply seqb_neq in E. split; [right; assumption|intros [[H _]|H]; [contradiction|exact H]].
Qed.
Lemma dc_first0 n r : ~ occurs (L ".cards-") n -> sfind dot_cards (n ++ dot_cards ++ r) = Some (length n).
Proof.
  induction n as [|c n IH]; intro N; [reflexivity|]. assert (P : prefixb dot_cards ((c :: n) ++ dot_cards ++ r) = false).
  { destruct (prefixb dot_cards ((c :: n) ++ dot_cards ++ r)) eqn:P; [|reflexivity]. apply prefixb_spec in P as [w P]. destruct (dc_split _ _ _ (eq_sym P)) as [H|H]; [discriminate H|contradiction]. }
  cbn [app] in P |- *. cbn [sfind]. rewrite P, IH; [reflexivity|]. intros [u [v ->]]. apply N. exists (c :: u), v. reflexivity.
Qed.
Lemma dc_first n r : ~ occurs (L ".cards-") n -> sfind dot_cards (at_sign :: n ++ dot_cards ++ r) = Some (S (length n)).
Proof. intro N. cbn [sfind]. replace (prefixb dot_cards (at_sign :: n ++ dot_cards ++ r)) with false by reflexivity. rewrite (dc_first0 n r N). reflexivity. Qed.
Lemma pf_files fs n m : Forall plain fs -> exists m', fold_left pf_line fs (PF n true m) = PF n true m' /\ forall k g, In g (files_of m' k) <-> (k = n /\ In g fs) \/ In g (files_of m k).
Proof.
  intro F. revert m. induction F as [|f fs P F IH]; intro m.
  - exists m. split; [reflexivity|]. intros k g. split; [right; assumption|intros [[_ []]|H]; exact H].
  - cbn [fold_left]. unfold pf_line at 2. rewrite (plain_starts f P). cbn [pf_found pf_name pf_map]. destruct f as [|c f]; [destruct P as [P _]; destruct P; reflexivity|].
    destruct (IH (add_file n (c :: f) m)) as [m' [E H]]. exists m'. split; [exact E|]. intros k g. rewrite H, files_of_add. split.
    + intros [[A B]|[[A B]|B]]; [left; split; [exact A|right; exact B]|left; split; [exact A|left; symmetry; exact B]|right; exact B].
    + intros [[A [B|B]]|B]; [right; left; split; [exact A|symmetry; exact B]|left; split; assumption|right; right; exact B].
Qed.
Definition owned (a : farch) : Prop := exists n, named a n /\ ~ occurs (L ".cards-") n.
Lemma pf_archive a n m q : regular a -> named a n -> ~ occurs (L ".cards-") n -> exists m', fold_left pf_line (files_par a) (PF q false m) = PF n false m' /\ forall k g, In g (files_of m' k) <-> (k = n /\ In g (fa_files a)) \/ In g (files_of m k).
Proof.
  intros [N F] [r E] O. unfold files_par. cbn [fold_left]. unfold pf_line at 2. cbn [starts_at]. rewrite ceqb_refl, E. change (L ".cards-") with dot_cards. rewrite (dc_first n r O). cbn [pf_map].
  replace (firstn (S (length n) - 1) (skipn 1 (at_sign :: n ++ dot_cards ++ r))) with n by (cbn [Nat.sub skipn]; rewrite Nat.sub_0_r, firstn_app, firstn_all, Nat.sub_diag, firstn_O, app_nil_r; reflexivity).
  rewrite fold_left_app. destruct (pf_files (fa_files a) n m F) as [m' [E' H]]. rewrite E'. exists m'. split; [reflexivity|exact H].
Qed.
Lemma pf_archives ar m q : Forall regular ar -> Forall owned ar -> exists q' m', fold_left pf_line (files_lines ar) (PF q false m) = PF q' false m' /\
  forall k g, ~ occurs (L ".cards-") k -> In g (files_of m' k) <-> (exists a, In a ar /\ named a k /\ In g (fa_files a)) \/ In g (files_of m k).
Proof.
  intros R. revert m q. unfold files_lines. induction R as [|a ar Ra R IH]; intros m q O.
  - exists q, m. split; [reflexivity|]. intros k g _. split; [right; assumption|intros [[a [[] _]]|H]; exact H].
  - inversion O as [|? ? [n [Na On]] O']; subst. cbn [flat_map]. rewrite fold_left_app. destruct (pf_archive a n m q Ra Na On) as [m1 [E1 H1]]. rewrite E1. destruct (IH m1 n O') as [q' [m' [E' H']]]. exists q', m'. split; [exact E'|].
    intros k g Ok. rewrite (H' k g Ok), (H1 k g). split.
    + intros [[b [Ib Hb]]|[[-> Hg]|Hg]]; [left; exists b; split; [right; exact Ib|exact Hb]|left; exists a; split; [left; reflexivity|split; assumption]|right; exact Hg].
    + intros [[b [[<-|Ib] [Nb Hb]]]|Hg]; [right; left; split; [exact (C63_one_owner a k n Nb Na Ok On)|exact Hb]|left; exists b; auto|right; right; exact Hg].
Qed.
(** *** the files recorded for a package are those of its archives and those recorded before *)
Theorem C63_recorded_partial d m : well d -> Forall owned (archives d) -> exists m', parse_files (written d) m = Ok m' /\
  forall n f, ~ occurs (L ".cards-") n -> In f (files_of m' n) <-> (exists a, In a (archives d) /\ named a n /\ In f (fa_files a)) \/ In f (files_of m n).
Proof.
  intros W O. assert (K : forall q m, exists q' m', pf_dirs (written d) (PF q false m) = Ok (PF q' false m') /\
    forall n f, ~ occurs (L ".cards-") n -> In f (files_of m' n) <-> (exists a, In a (archives d) /\ named a n /\ In f (fa_files a)) \/ In f (files_of m n)).
  { clear m. induction d as [|[c ar] d IH]; intros q m.
    - exists q, m. split; [reflexivity|]. intros n f _. split; [right; assumption|intros [[a [[] _]]|H]; exact H].
    - apply well_tail in W as [R [G W]]. cbn [archives flat_map snd] in O. apply Forall_app in O as [Oa Od]. cbn [written map fst snd pf_dirs]. rewrite (index_lines ar G).
      destruct (pf_archives ar m q R Oa) as [q1 [m1 [E1 H1]]]. rewrite E1. destruct (IH W Od q1 m1) as [q' [m' [E' H']]]. exists q', m'. split; [exact E'|]. intros n f N. rewrite (H' n f N), (H1 n f N). cbn [archives flat_map snd]. split.
      + intros [[a [Ia Ha]]|[[a [Ia Ha]]|H]]; [left; exists a; split; [apply in_app_iff; right; exact Ia|exact Ha]|left; exists a; split; [apply in_app_iff; left; exact Ia|exact Ha]|right; exact H].
      + intros [[a [Ia Ha]]|H]; [|right; right; exact H]. apply in_app_iff in Ia as [Ia|Ia]; [right; left; exists a; auto|left; exists a; auto]. }
  destruct (K [] m) as [q' [m' [E H]]]. exists m'. split; [unfold parse_files; rewrite E; reflexivity|exact H].
Qed.

(** *** collections without an index are passed over, wherever they stand in the configuration *)
Theorem C63_unreadable dirs m : parse_files dirs m = parse_files (filter (fun d => match snd d with Some _ => true | None => false end) dirs) m.
Proof.
  unfold parse_files. assert (K : forall p, pf_dirs dirs p = pf_dirs (filter (fun d => match snd d with Some _ => true | None => false end) dirs) p); [|rewrite K; reflexivity].
  induction dirs as [|[c [t|]] dirs IH]; intro p; [reflexivity| |]; cbn [filter snd pf_dirs]; [destruct (parse_lines t); [apply IH|reflexivity]|apply IH].
Qed.

(** ** witness *)
Definition fitsb (l : str) : bool := negb (existsb (ceqb nl) l) && negb (existsb (ceqb zero) l) && (length l <? 1000).
Lemma fitsb_ok l : fitsb l = true -> fits l.
Proof.
  unfold fitsb. rewrite !andb_true_iff, !negb_true_iff. intros [[A B] C]. assert (F : forall c, existsb (ceqb c) l = false -> ~ In c l).
  { intros c H I. assert (K : existsb (ceqb c) l = true) by (apply existsb_exists; exists c; split; [exact I|apply ceqb_refl]). congruence. }
  split; [apply F, A|]. split; [apply F, B|]. apply Nat.ltb_lt in C. assert (1000 < BUFSIZ - 1) by (apply Nat.ltb_lt; vm_compute; reflexivity). lia.
Qed.
Definition a_bash : farch := FA (L "bash.cards-5.2-1-x86_64") [L "usr/bin/bash"; L "usr/bin/sh"].
Definition a_bashdoc : farch := FA (L "bash.doc.cards-5.2-1-any") [L "usr/share/doc/bash/README"].
Definition a_zsh : farch := FA (L "zsh.cards-5.9-2-x86_64") [L "usr/bin/zsh"].
Definition depot1 : depot := [(L "base", [a_bash; a_bashdoc]); (L "extra", [a_zsh])].
Lemma regular_dec ar : forallb (fun a => negb (existsb (ceqb at_sign) (fa_file a)) && forallb (fun f => match f with [] => false | c :: _ => negb (ceqb c at_sign) end) (fa_files a)) ar = true -> Forall regular ar.
Proof.
  rewrite forallb_forall. intro H. apply Forall_forall. intros a I. apply H in I. apply andb_true_iff in I as [A B]. apply negb_true_iff in A. split.
  - intro J. assert (K : existsb (ceqb at_sign) (fa_file a) = true) by (apply existsb_exists; exists "@"%char; split; [exact J|apply ceqb_refl]). congruence.
  - rewrite forallb_forall in B. apply Forall_forall. intros f J. apply B in J. destruct f as [|c t]; [discriminate J|]. split; [discriminate|]. intros u E. injection E as -> _. discriminate J.
Qed.
Lemma well1 : well depot1.
Proof.
  intros c ar [E|[E|[]]]; injection E as <- <-; (split; [apply regular_dec; reflexivity|]); apply Forall_forall; intros l H; apply fitsb_ok; revert l H; apply Forall_forall; cbn; repeat constructor.
Qed.
Example C63_witness : well depot1 /\ Forall owned (archives depot1) /\ files_cmd (L "bash.doc") (written depot1) = Ok [L "usr/share/doc/bash/README"] /\
  query_cmd (fun f => found_in (L "/bin/") f) (written depot1) =
  Ok [(L "base", L "bash.cards-5.2-1-x86_64", L "/usr/bin/bash"); (L "base", L "bash.cards-5.2-1-x86_64", L "/usr/bin/sh"); (L "extra", L "zsh.cards-5.9-2-x86_64", L "/usr/bin/zsh")].
Proof.
  split; [exact well1|]. split.
  - assert (K : forall n, sfind (L ".cards-") n = None -> ~ occurs (L ".cards-") n) by (intros n H; apply sfind_None, H).
    constructor; [exists (L "bash"); split; [exists (L "5.2-1-x86_64"); reflexivity|apply K; reflexivity]|]. constructor; [exists (L "bash.doc"); split; [exists (L "5.2-1-any"); reflexivity|apply K; reflexivity]|].
    constructor; [exists (L "zsh"); split; [exists (L "5.9-2-x86_64"); reflexivity|apply K; reflexivity]|constructor].
  - split; vm_compute; reflexivity.
Qed.
(** *** an expression that matches "/" gives an extra line per archive: the blank line that ends its paragraph *)
Theorem C64_blank_refuted : exists out, query_cmd (fun _ => true) (written depot1) = Ok out /\ In (L "extra", L "zsh.cards-5.9-2-x86_64", L "/") out /\ ~ In [] (fa_files a_zsh).
Proof. eexists. split; [apply query_exact, well1|]. split; [cbn; auto 10|]. cbn. intros [H|[]]; discriminate H. Qed.
(** *** a file whose name begins with '@' is taken for a heading: it is not found and hides the owner of the files behind it *)
Definition a_at : farch := FA (L "odd.cards-1-1-any") [L "@data"; L "etc/odd"].
Theorem C64_at_refuted : query_cmd (found_in (L "odd")) (written [(L "base", [a_at])]) = Ok [(L "base", L "data", L "/etc/odd")] /\ query_cmd (found_in (L "data")) (written [(L "base", [a_at])]) = Ok [].
Proof. split; vm_compute; reflexivity. Qed.
(** *** one collection without its index makes both commands read through a null pointer, even when an earlier one has the package (query) *)
Theorem C63_missing_refuted : files_cmd (L "zsh") ((L "lost", None) :: written depot1) = UB.
Proof. reflexivity. Qed.
Theorem C64_missing_refuted : query_cmd (found_in (L "zsh")) (written depot1 ++ [(L "lost", None)]) = UB.
Proof. vm_compute. reflexivity. Qed.
(** *** an archive of which two versions lie in the depot: only the first is shown, and both are recorded together *)
Theorem C63_versions_refuted : let old := FA (L "zsh.cards-5.8-1-x86_64") [L "usr/bin/zsh-5.8"] in let d := [(L "base", [old; a_zsh])] in
  files_cmd (L "zsh") (written d) = Ok [L "usr/bin/zsh-5.8"] /\ (exists m, parse_files (written d) [] = Ok m /\ files_of m (L "zsh") = [L "usr/bin/zsh"; L "usr/bin/zsh-5.8"]).
Proof. split; [vm_compute; reflexivity|]. eexists. split; vm_compute; reflexivity. Qed.
