(** C45: listing the packages of the indexes. C54: searching them. *)
From Verif Require Import Base BaseProofs StrModel FsModel FsProofs MetaModel IndexModel DbModel ScanModel.
From Coq Require Import Lia.

Definition plain (ls : list str) : Prop := forall l, In l ls -> ~ In nl l.
Lemma text_cons l ls : text_of (l :: ls) = l ++ nl :: text_of ls.
Proof. unfold text_of. cbn [map concat]. rewrite <- app_assoc. reflexivity. Qed.
Lemma text_app a b : text_of (a ++ b) = text_of a ++ text_of b.
Proof. unfold text_of. rewrite map_app, concat_app. reflexivity. Qed.
Lemma text_len ls : length ls <= length (text_of ls).
Proof. induction ls as [|l ls IH]; [cbn; lia|]. rewrite text_cons, app_length. cbn [List.length]. lia. Qed.
Lemma text_split (d : str) : exists ls rest, plain ls /\ ~ In nl rest /\ d = text_of ls ++ rest.
Proof.
  induction d as [|c d (ls & rest & P & N & ->)]; [exists [], []; split; [intros l []|]; split; [intros []|reflexivity]|]. destruct (Ascii.ascii_dec c nl) as [->|Hc].
  - exists ([] :: ls), rest. split; [intros l [<-|I]; [intros []|exact (P l I)]|]. split; [exact N|]. rewrite text_cons. reflexivity.
  - destruct ls as [|l ls].
    + exists [], (c :: rest). split; [intros l []|]. split; [intros [E|I]; [congruence|contradiction]|reflexivity].
    + exists ((c :: l) :: ls), rest. split; [intros x [<-|I]; [intros [E|I]; [congruence|exact (P l (or_introl eq_refl) I)]|exact (P x (or_intror I))]|]. split; [exact N|]. rewrite !text_cons. reflexivity.
Qed.
Lemma text_ends ls rest : ~ In nl rest -> (exists y, text_of ls ++ rest = y ++ [nl]) <-> ls <> [] /\ rest = [].
Proof.
  intro N. split.
  - intros [y E]. destruct rest as [|c rest _] using rev_ind.
    + split; [|reflexivity]. intros ->. destruct y; discriminate.
    + rewrite app_assoc in E. apply app_inj_tail in E. destruct E as [_ ->]. exfalso. apply N, in_app_iff. right. left. reflexivity.
  - intros [Nl ->]. rewrite app_nil_r. destruct (exists_last Nl) as [a [b ->]]. rewrite text_app. exists (text_of a ++ b). rewrite <- app_assoc, text_cons. reflexivity.
Qed.
Lemma scan_text tags resets : forall ls rest fuel st, plain ls -> ~ In nl rest -> length ls < fuel ->
  scan_loop fuel tags resets (text_of ls ++ rest) st = match rest with [] => Some (fold_left (fun s l => scan_line tags resets l s) ls st) | _ => None end.
Proof.
  induction ls as [|l ls IH]; intros rest fuel st P N F; (destruct fuel as [|fuel]; [cbn in F; lia|]).
  - cbn [text_of map concat List.app fold_left]. destruct rest as [|c r]; [reflexivity|]. cbn [scan_loop]. apply cfind_None in N. rewrite N. reflexivity.
  - rewrite text_cons, <- app_assoc. cbn [List.app]. assert (Nl : ~ In nl l) by (apply P; left; reflexivity). assert (C := cfind_app nl l (text_of ls ++ rest) Nl).
    assert (U : scan_loop (S fuel) tags resets (l ++ nl :: text_of ls ++ rest) st = match cfind nl (l ++ nl :: text_of ls ++ rest) with None => None | Some n => scan_loop fuel tags resets (skipn (S n) (l ++ nl :: text_of ls ++ rest)) (scan_line tags resets (firstn n (l ++ nl :: text_of ls ++ rest)) st) end) by (destruct l; reflexivity).
    rewrite U, C. replace (firstn (length l) (l ++ nl :: text_of ls ++ rest)) with l by (rewrite firstn_app, Nat.sub_diag, firstn_all, firstn_O, app_nil_r; reflexivity). replace (skipn (S (length l)) (l ++ nl :: text_of ls ++ rest)) with (text_of ls ++ rest) by (rewrite skipn_app, skipn_all2 by lia; replace (S (length l) - length l) with 1 by lia; reflexivity).
    rewrite IH; [reflexivity|intros x I; apply P; right; exact I|exact N|cbn in F; lia].
Qed.
Lemma scan_file_text tags resets ls rest : plain ls -> ~ In nl rest ->
  scan_file tags resets (text_of ls ++ rest) = match rest with [] => Some (snd (fold_left (fun s l => scan_line tags resets l s) ls (start_entry, []))) | _ => None end.
Proof.
  intros P N. unfold scan_file. destruct (Nat.eq_dec (length (text_of ls ++ rest)) 0) as [Z|Z].
  - pose proof (text_len ls). rewrite app_length in Z. destruct ls; [|cbn [List.length] in *; lia]. destruct rest; [|cbn [List.length] in *; lia]. reflexivity.
  - destruct rest as [|c r].
    + rewrite app_nil_r. (* the loop needs one round per line *)
      assert (G : forall ls fuel st, plain ls -> length ls <= fuel -> scan_loop fuel tags resets (text_of ls) st = Some (fold_left (fun s l => scan_line tags resets l s) ls st)).
      { clear. intros ls fuel st P F. destruct (Nat.eq_dec (length ls) fuel) as [E|E]; [|pose proof (scan_text tags resets ls [] fuel st P ltac:(intros []) ltac:(lia)) as H; rewrite app_nil_r in H; exact H].
        clear F. revert fuel st E. induction ls as [|l ls IH]; intros fuel st E; [subst fuel; reflexivity|]. destruct fuel as [|fuel]; [discriminate|]. rewrite text_cons. assert (Nl : ~ In nl l) by (apply P; left; reflexivity).
        assert (U : scan_loop (S fuel) tags resets (l ++ nl :: text_of ls) st = match cfind nl (l ++ nl :: text_of ls) with None => None | Some n => scan_loop fuel tags resets (skipn (S n) (l ++ nl :: text_of ls)) (scan_line tags resets (firstn n (l ++ nl :: text_of ls)) st) end) by (destruct l; reflexivity).
        rewrite U, (cfind_app nl l (text_of ls) Nl). replace (firstn (length l) (l ++ nl :: text_of ls)) with l by (rewrite firstn_app, Nat.sub_diag, firstn_all, firstn_O, app_nil_r; reflexivity). replace (skipn (S (length l)) (l ++ nl :: text_of ls)) with (text_of ls) by (rewrite skipn_app, skipn_all2 by lia; replace (S (length l) - length l) with 1 by lia; reflexivity).
        apply IH; [intros x I; apply P; right; exact I|cbn in E; lia]. }
      rewrite G; [reflexivity|exact P|apply text_len].
    + rewrite scan_text; [reflexivity|exact P|exact N|]. pose proof (text_len ls). rewrite app_length. cbn [List.length]. lia.
Qed.
(** a read outside the mapped file happens iff some index, before one that cannot be mapped, is not empty and does not end with a newline *)
Theorem C45_inside_iff : forall tags resets files acc, scan_all tags resets files acc = Over <->
  exists pre d post, files = pre ++ Some d :: post /\ (forall x, In x pre -> exists y, x = Some (y ++ [nl])) /\ d <> [] /\ ~ exists y, d = y ++ [nl].
Proof.
  intros tags resets files. induction files as [|f files IH]; intro acc.
  - split; [discriminate|]. intros (pre & d & post & E & _). destruct pre; discriminate.
  - destruct f as [[|c d]|].
    + split; [discriminate|]. intros ([|x pre] & d & post & E & P & Nd & _); injection E as E _; [congruence|]. destruct (P x (or_introl eq_refl)) as [y Hy]. rewrite <- E in Hy. injection Hy as Hy. destruct y; discriminate.
    + destruct (text_split (c :: d)) as (ls & rest & P & N & E). cbn [scan_all]. rewrite E, (scan_file_text tags resets ls rest P N). destruct rest as [|r0 rest].
      * rewrite IH. assert (T : exists y, c :: d = y ++ [nl]) by (rewrite E; apply text_ends; [intros []|split; [intros ->; discriminate|reflexivity]]). split.
        { intros (pre & d' & post & -> & Q & R). exists (Some (text_of ls ++ []) :: pre), d', post. split; [reflexivity|]. split; [|exact R]. intros x [<-|I]; [|exact (Q x I)]. destruct T as [y T]. exists y. rewrite <- E, T. reflexivity. }
        { intros ([|x pre] & d' & post & Eq & Q & R); injection Eq as Eq1 Eq2; [exfalso; apply (proj2 R); rewrite <- Eq1, <- E; exact T|]. exists pre, d', post. split; [exact Eq2|]. split; [intros z I; apply Q; right; exact I|exact R]. }
      * split; [|reflexivity]. intros _. exists [], (text_of ls ++ r0 :: rest), files. split; [reflexivity|]. split; [intros x []|]. split; [intros H; apply app_eq_nil in H; destruct H; discriminate|]. rewrite (text_ends ls (r0 :: rest) N). intros [_ H]. discriminate.
    + split; [discriminate|]. intros ([|x pre] & d & post & E & P & _); injection E as E _; [discriminate|]. destruct (P x (or_introl eq_refl)) as [y Hy]. congruence.
Qed.
(** ** what is reported *)
(** the value of the last line tagged c *)
Definition field_of (c : ascii) (ls : list str) (v : str) : Prop := exists a b, ls = a ++ (c :: v) :: b /\ forall w, ~ In (c :: w) b.
Definition has_field (c : ascii) (ls : list str) : Prop := exists v, In (c :: v) ls.
Lemma amem_In c l : amem c l = true <-> In c l.
Proof. unfold amem. rewrite existsb_exists. split; [intros [x [I E]]; apply ceqb_eq in E; subst; exact I|intro I; exists c; split; [exact I|apply ceqb_refl]]. Qed.
Lemma has_field_of c ls : has_field c ls -> exists v, field_of c ls v.
Proof.
  induction ls as [|l ls IH] using rev_ind; intros [v I]; [contradiction|]. destruct l as [|x w].
  - apply in_app_iff in I. destruct I as [I|[I|[]]]; [|discriminate]. destruct IH as [u (a & b & -> & N)]; [exists v; exact I|]. exists u, a, (b ++ [[]]). split; [rewrite <- app_assoc; reflexivity|]. intros z Iz. apply in_app_iff in Iz. destruct Iz as [Iz|[Iz|[]]]; [exact (N z Iz)|discriminate].
  - destruct (Ascii.ascii_dec x c) as [->|Hx]; [exists w, ls, []; split; [reflexivity|intros z []]|]. apply in_app_iff in I. destruct I as [I|[I|[]]]; [|congruence]. destruct IH as [u (a & b & -> & N)]; [exists v; exact I|]. exists u, a, (b ++ [x :: w]). split; [rewrite <- app_assoc; reflexivity|]. intros z Iz. apply in_app_iff in Iz. destruct Iz as [Iz|[Iz|[]]]; [exact (N z Iz)|congruence].
Qed.
Definition run_lines (tags resets : list ascii) (ls : list str) (st : entry * list entry) : entry * list entry := fold_left (fun s l => scan_line tags resets l s) ls st.
Lemma run_app tags resets a b st : run_lines tags resets (a ++ b) st = run_lines tags resets b (run_lines tags resets a st).
Proof. unfold run_lines. apply fold_left_app. Qed.
Lemma run_keep tags resets c : forall ls st, (forall l, In l ls -> l <> []) -> (forall w, ~ In (c :: w) ls) -> fst (run_lines tags resets ls st) c = fst st c.
Proof.
  induction ls as [|l ls IH]; intros st P N; [reflexivity|]. unfold run_lines in *. cbn [fold_left]. rewrite IH; [|intros x I; apply P; right; exact I|intros w I; apply (N w); right; exact I]. destruct l as [|x v]; [exfalso; apply (P []); [left|]; reflexivity|]. cbn [scan_line fst].
  destruct (amem x tags); [|reflexivity]. unfold set_entry. destruct (ceqb_spec c x) as [->|_]; [exfalso; apply (N v); left; reflexivity|reflexivity].
Qed.
Lemma run_out tags resets : forall ls st, (forall l, In l ls -> l <> []) -> snd (run_lines tags resets ls st) = snd st.
Proof.
  induction ls as [|l ls IH]; intros st P; [reflexivity|]. unfold run_lines in *. cbn [fold_left]. rewrite IH; [|intros x I; apply P; right; exact I]. destruct l as [|x v]; [exfalso; apply (P []); [left|]; reflexivity|reflexivity].
Qed.
Lemma run_field tags resets c ls v st : In c tags -> (forall l, In l ls -> l <> []) -> field_of c ls v -> fst (run_lines tags resets ls st) c = v.
Proof.
  intros T P (a & b & -> & N). rewrite run_app. change ((c :: v) :: b) with ([c :: v] ++ b). rewrite run_app. rewrite run_keep; [|intros l I; apply P; apply in_app_iff; right; right; exact I|exact N].
  unfold run_lines at 1. cbn [fold_left scan_line fst]. apply amem_In in T. rewrite T. unfold set_entry. rewrite ceqb_refl. reflexivity.
Qed.
(** a record: lines that are not empty, closed by an empty line *)
Definition closed (recs : list (list str)) : list str := flat_map (fun r : list str => r ++ [[] : str]) recs.
Definition record_text (recs : list (list str)) : str := text_of (closed recs).
Definition good_record (r : list str) : Prop := forall l, In l r -> l <> [] /\ ~ In nl l.
Lemma good_plain recs : (forall r, In r recs -> good_record r) -> plain (closed recs).
Proof.
  intros G l I. unfold closed in I. apply in_flat_map in I. destruct I as [r [Ir I]]. apply in_app_iff in I. destruct I as [I|[<-|[]]]; [exact (proj2 (G r Ir l I))|intros []].
Qed.
Lemma run_records tags resets : forall recs st, (forall r, In r recs -> good_record r) -> exists es,
  snd (run_lines tags resets (closed recs) st) = snd st ++ es /\ length es = length recs /\
  Forall2 (fun r e => forall c v, In c tags -> field_of c r v -> e c = v) recs es /\
  (forall c, In c tags -> In c resets -> fst st c = [] -> Forall2 (fun r e => ~ has_field c r -> e c = []) recs es).
Proof.
  induction recs as [|r recs IH]; intros st G.
  - exists []. cbn. rewrite app_nil_r. split; [reflexivity|]. split; [reflexivity|]. split; [constructor|]. intros; constructor.
  - change (closed (r :: recs)) with ((r ++ [[] : str]) ++ closed recs). rewrite run_app. assert (Gr : forall l, In l r -> l <> []) by (intros l I; exact (proj1 (G r (or_introl eq_refl) l I))).
    set (st1 := run_lines tags resets (r ++ [[] : str]) st). assert (E1 : snd st1 = snd st ++ [fst (run_lines tags resets r st)] /\ forall c, In c resets -> fst st1 c = []).
    { subst st1. rewrite run_app. assert (S1 : forall s, run_lines tags resets [[] : str] s = (fun x => if amem x resets then [] else fst s x, snd s ++ [fst s])) by reflexivity. rewrite S1. cbn [fst snd]. split; [rewrite run_out by exact Gr; reflexivity|]. intros c I. apply amem_In in I. rewrite I. reflexivity. }
    destruct E1 as [E1 E2]. destruct (IH st1) as (es & A & B & C & D); [intros x I; apply G; right; exact I|]. exists (fst (run_lines tags resets r st) :: es). split; [rewrite A, E1, <- app_assoc; reflexivity|]. split; [cbn; rewrite B; reflexivity|]. split.
    + constructor; [|exact C]. intros c v T F. exact (run_field tags resets c r v st T Gr F).
    + intros c T R Z. constructor; [|exact (D c T R (E2 c R))]. intros NF. rewrite run_keep; [exact Z|exact Gr|]. intros w I. apply NF. exists w. exact I.
Qed.
Lemma scan_records tags resets recs : (forall r, In r recs -> good_record r) -> exists es, scan_file tags resets (record_text recs) = Some es /\ length es = length recs /\
  Forall2 (fun r e => forall c v, In c tags -> field_of c r v -> e c = v) recs es /\
  (forall c, In c tags -> In c resets -> c <> "c"%char -> Forall2 (fun r e => ~ has_field c r -> e c = []) recs es).
Proof.
  intro G. destruct (run_records tags resets recs (start_entry, []) G) as (es & A & B & C & D). exists es. unfold record_text. pose proof (scan_file_text tags resets (closed recs) [] (good_plain recs G) ltac:(intros [])) as S. rewrite app_nil_r in S. rewrite S. fold (run_lines tags resets (closed recs) (start_entry, [])). rewrite A. split; [reflexivity|]. split; [exact B|]. split; [exact C|].
  intros c T R Nc. apply D; [exact T|exact R|]. cbn [fst]. unfold start_entry. apply ceqb_neq in Nc. rewrite Nc. reflexivity.
Qed.
Lemma record_nonempty recs : recs <> [] -> exists c d, record_text recs = c :: d.
Proof.
  intro N. destruct recs as [|r recs]; [contradiction|]. unfold record_text. change (closed (r :: recs)) with ((r ++ [[] : str]) ++ closed recs). rewrite text_app, text_app. destruct (text_of r) as [|c d]; cbn; eauto.
Qed.
Lemma scan_all_records tags resets : forall recss acc, (forall recs, In recs recss -> recs <> [] /\ forall r, In r recs -> good_record r) -> exists es, scan_all tags resets (map (fun recs => Some (record_text recs)) recss) acc = Listed (acc ++ es) /\
  Forall2 (fun r e => forall c v, In c tags -> field_of c r v -> e c = v) (concat recss) es /\
  (forall c, In c tags -> In c resets -> c <> "c"%char -> Forall2 (fun r e => ~ has_field c r -> e c = []) (concat recss) es).
Proof.
  induction recss as [|recs recss IH]; intros acc G; [exists []; cbn; rewrite app_nil_r; split; [reflexivity|]; split; [constructor|intros; constructor]|]. destruct (G recs (or_introl eq_refl)) as [N Gr]. destruct (scan_records tags resets recs Gr) as (es1 & A & _ & C & D). destruct (record_nonempty recs N) as (x & y & E).
  destruct (IH (acc ++ es1)) as (es2 & A2 & C2 & D2); [intros z I; apply G; right; exact I|]. exists (es1 ++ es2). cbn [map scan_all]. rewrite E in *. rewrite A, A2, <- app_assoc. split; [reflexivity|]. cbn [concat]. split; [apply Forall2_app; assumption|]. intros c T R Nc. apply Forall2_app; auto.
Qed.
(** every record of every index is listed, in order, with its own collection, name, version and release, when no index is empty
    and every record has those four lines *)
Theorem C45_listed_partial : forall recss, (forall recs, In recs recss -> recs <> [] /\ forall r, In r recs -> good_record r /\ forall c, In c list_tags -> has_field c r) ->
  exists out, list_cmd (map (fun recs => Some (record_text recs)) recss) = Some out /\
    Forall2 (fun r o => let '(col, name, ver, rel) := o in field_of "c"%char r col /\ field_of "N"%char r name /\ field_of "V"%char r ver /\ field_of "r"%char r rel) (concat recss) out.
Proof.
  intros recss G. destruct (scan_all_records list_tags [] recss []) as (es & A & C & _); [intros recs I; destruct (G recs I) as [N H]; split; [exact N|intros r Ir; exact (proj1 (H r Ir))]|].
  unfold list_cmd. rewrite A. cbn [List.app]. eexists. split; [reflexivity|].
  assert (F : forall r, In r (concat recss) -> forall c, In c list_tags -> has_field c r). { intros r I. apply in_concat in I. destruct I as [recs [I1 I2]]. exact (proj2 (proj2 (G recs I1) r I2)). }
  clear A G. induction C as [|r e rs es H _ IH]; cbn [map]; constructor.
  - assert (X : forall c, In c list_tags -> field_of c r (e c)). { intros c T. destruct (has_field_of c r (F r (or_introl eq_refl) c T)) as [v Fv]. rewrite (H c v T Fv). exact Fv. }
    split; [apply X; cbn; auto 10|]. split; [apply X; cbn; auto 10|]. split; apply X; cbn; auto 10.
  - apply IH. intros x I. apply F. right. exact I.
Qed.
Lemma in_split_tail {A} (a b : list A) x m t : m ++ t = a ++ x :: b -> ~ In x t -> exists b', m = a ++ x :: b' /\ b = b' ++ t.
Proof.
  revert m. induction a as [|y a IH]; intros m E N; (destruct m as [|z m]; cbn in E).
  - exfalso. apply N. rewrite E. left. reflexivity.
  - injection E as -> <-. exists m. auto.
  - exfalso. apply N. rewrite E. right. apply in_app_iff. right. left. reflexivity.
  - injection E as -> E. destruct (IH m E N) as [b' [-> ->]]. exists b'. auto.
Qed.
Lemma dec_no_nl n : ~ In nl (dec n).
Proof.
  unfold dec. assert (G : forall f k acc, ~ In nl acc -> ~ In nl (dec_loop f k acc)); [|apply G; intros []].
  induction f as [|f IH]; intros k acc H; [exact H|]. cbn [dec_loop].
  assert (Dg : forall d, (d < 10)%N -> digit d <> nl). { intros d Hd Z. apply (f_equal N_of_ascii) in Z. unfold digit in Z. rewrite N_ascii_embedding in Z by lia. change (N_of_ascii nl) with 10%N in Z. lia. }
  destruct (N.ltb_spec k 10) as [Lt|Ge].
  - intros [Z|Z]; [exact (Dg k Lt Z)|contradiction].
  - apply IH. intros [Z|Z]; [exact (Dg (k mod 10)%N ltac:(apply N.mod_lt; lia) Z)|contradiction].
Qed.
(** the indexes written by the generator (C27) are of that form *)
Theorem C45_generated : forall pss, (forall ps, In ps pss -> ps <> [] /\ forall p, In p ps -> ~ In nl (gp_file p) /\ ~ In nl (gp_hash p) /\ ~ In nl (gp_sig p) /\ good_record (gp_meta p) /\ forall c, In c list_tags -> has_field c (gp_meta p)) ->
  exists out, list_cmd (map (fun ps => Some (gen_index ps)) pss) = Some out /\
    Forall2 (fun p o => let '(col, name, ver, rel) := o in field_of "c"%char (gp_meta p) col /\ field_of "N"%char (gp_meta p) name /\ field_of "V"%char (gp_meta p) ver /\ field_of "r"%char (gp_meta p) rel) (concat pss) out.
Proof.
  intros pss G. set (rec_of := fun p => ("@"%char :: gp_file p) :: gp_meta p ++ [("H"%char :: gp_hash p); ("I"%char :: gp_sig p); ("i"%char :: dec (gp_size p mod 2 ^ 32))]).
  assert (E : map (fun ps => Some (gen_index ps)) pss = map (fun recs => Some (record_text recs)) (map (map rec_of) pss)).
  { rewrite map_map. apply map_ext. intro ps. f_equal. unfold gen_index, record_text, closed. f_equal. induction ps as [|p ps IH]; [reflexivity|]. cbn [map flat_map]. rewrite IH. f_equal. unfold gen_lines, gen_tail, rec_of. rewrite <- app_comm_cons, <- app_assoc. reflexivity. }
  rewrite E. destruct (C45_listed_partial (map (map rec_of) pss)) as (out & A & B).
  - intros recs I. apply in_map_iff in I. destruct I as [ps [<- I]]. destruct (G ps I) as [N H]. split; [intro Z; apply map_eq_nil in Z; contradiction|]. intros r Ir. apply in_map_iff in Ir. destruct Ir as [p [<- Ip]]. destruct (H p Ip) as (H1 & H2 & H3 & H4 & H5). split.
    + intros l Il. destruct Il as [<-|Il]; [split; [discriminate|intros [Z|Z]; [discriminate|contradiction]]|]. apply in_app_iff in Il. destruct Il as [Il|[<-|[<-|[<-|[]]]]]; [exact (H4 l Il)| | |]; (split; [discriminate|]); intros [Z|Z]; try discriminate; try contradiction. 
      revert Z. apply dec_no_nl.
    + intros c T. destruct (H5 c T) as [v Iv]. exists v. right. apply in_app_iff. left. exact Iv.
  - exists out. split; [exact A|]. rewrite <- concat_map in B. clear -B. assert (Tr : forall c p v, In c list_tags -> field_of c (rec_of p) v -> field_of c (gp_meta p) v).
    { intros c p v T (a & b & Eq & Nb). unfold rec_of in Eq. destruct a as [|a0 a]; [exfalso; clear -T Eq; unfold list_tags in T; cbn [In] in T; destruct T as [<-|[<-|[<-|[<-|[]]]]]; discriminate Eq|]. cbn [List.app] in Eq. injection Eq as _ Eq. destruct (in_split_tail a b (c :: v) (gp_meta p) _ Eq) as [b' [Em Eb]].
      - unfold list_tags in T. cbn [In] in *. clear -T. destruct T as [<-|[<-|[<-|[<-|[]]]]]; intros [Z|[Z|[Z|[]]]]; discriminate Z.
      - exists a, b'. split; [exact Em|]. intros w I. apply (Nb w). rewrite Eb. apply in_app_iff. left. exact I. }
    remember (map rec_of (concat pss)) as rs eqn:Er. revert Er. generalize (concat pss) as ps. induction B as [|r o rs out H _ IH]; intros [|p ps] Er; try discriminate; constructor.
    + cbn [map] in Er. injection Er as -> _. destruct o as [[[col name] ver] rel]. destruct H as (H1 & H2 & H3 & H4). split; [apply Tr; [cbn; auto 10|exact H1]|]. split; [apply Tr; [cbn; auto 10|exact H2]|]. split; apply Tr; cbn; auto 10.
    + apply IH. cbn [map] in Er. injection Er as _ Er. exact Er.
Qed.

(** without the newline of the last line the scan reads outside *)
Theorem C45_unterminated_refuted : list_cmd [Some (L "Nx")] = None.
Proof. reflexivity. Qed.
(** one empty (or unreadable) index and nothing is listed at all *)
Theorem C45_empty_refuted : forall recss files, (forall recs, In recs recss -> recs <> [] /\ forall r, In r recs -> good_record r) ->
  list_cmd (map (fun recs => Some (record_text recs)) recss ++ Some [] :: files) = Some [] /\ list_cmd (map (fun recs => Some (record_text recs)) recss ++ None :: files) = Some [].
Proof.
  intros recss files G. unfold list_cmd.
  assert (H : forall x acc, x = None \/ x = Some [] -> exists l, scan_all list_tags [] (map (fun recs => Some (record_text recs)) recss ++ x :: files) acc = Quit l).
  { intros x acc Hx. revert acc. induction recss as [|recs recss IH]; intro acc; [exists acc; destruct Hx as [->| ->]; reflexivity|]. destruct (G recs (or_introl eq_refl)) as [N Gr]. destruct (scan_records list_tags [] recs Gr) as (es & A & _). destruct (record_nonempty recs N) as (c & d & E).
    cbn [map List.app scan_all]. rewrite E in *. rewrite A. apply IH. intros y I. apply G. right. exact I. }
  destruct (H (Some []) [] (or_intror eq_refl)) as [l1 ->]. destruct (H None [] (or_introl eq_refl)) as [l2 ->]. auto.
Qed.
(** a record without a release line is listed with the release of the record before it *)
Theorem C45_stale_refuted : forall n1 v1 c1 n2 v2 c2 rel, (forall s, In s [n1; v1; c1; n2; v2; c2; rel] -> ~ In nl s) ->
  list_cmd [Some (record_text [["N"%char :: n1; "V"%char :: v1; "r"%char :: rel; "c"%char :: c1]; ["N"%char :: n2; "V"%char :: v2; "c"%char :: c2]])] = Some [(c1, n1, v1, rel); (c2, n2, v2, rel)].
Proof.
  intros n1 v1 c1 n2 v2 c2 rel H. set (recs := [["N"%char :: n1; "V"%char :: v1; "r"%char :: rel; "c"%char :: c1]; ["N"%char :: n2; "V"%char :: v2; "c"%char :: c2]]).
  assert (G : forall r, In r recs -> good_record r). { intros r [<-|[<-|[]]] l I; cbn in I; repeat (destruct I as [<-|I]; [split; [discriminate|]; intros [Z|Z]; [discriminate|]; revert Z; apply H; cbn; tauto|]); contradiction. }
  destruct (record_nonempty recs ltac:(discriminate)) as (c & d & E). unfold list_cmd. cbn [scan_all]. pose proof (scan_file_text list_tags [] (closed recs) [] (good_plain recs G) ltac:(intros [])) as S. rewrite app_nil_r in S. fold (record_text recs) in S. rewrite E in *. rewrite S. reflexivity.
Qed.
(** ** the sets *)
Lemma sets_text : forall ls rest fuel acc, plain ls -> ~ In nl rest -> length ls + length rest <= fuel ->
  sets_loop fuel (text_of ls ++ rest) acc = match rest with [] => Some (fold_left (fun a l => set_line l a) ls acc) | _ => None end.
Proof.
  induction ls as [|l ls IH]; intros rest fuel acc P N F.
  - cbn [text_of map concat List.app fold_left]. destruct rest as [|c r]; [destruct fuel; reflexivity|]. destruct fuel as [|fuel]; [cbn in F; lia|]. cbn [sets_loop]. apply cfind_None in N. rewrite N. reflexivity.
  - destruct fuel as [|fuel]; [cbn in F; lia|]. rewrite text_cons, <- app_assoc. cbn [List.app]. assert (Nl : ~ In nl l) by (apply P; left; reflexivity). assert (C := cfind_app nl l (text_of ls ++ rest) Nl).
    assert (U : sets_loop (S fuel) (l ++ nl :: text_of ls ++ rest) acc = match cfind nl (l ++ nl :: text_of ls ++ rest) with None => None | Some n => sets_loop fuel (skipn (S n) (l ++ nl :: text_of ls ++ rest)) (set_line (firstn n (l ++ nl :: text_of ls ++ rest)) acc) end) by (destruct l; reflexivity).
    rewrite U, C. replace (firstn (length l) (l ++ nl :: text_of ls ++ rest)) with l by (rewrite firstn_app, Nat.sub_diag, firstn_all, firstn_O, app_nil_r; reflexivity). replace (skipn (S (length l)) (l ++ nl :: text_of ls ++ rest)) with (text_of ls ++ rest) by (rewrite skipn_app, skipn_all2 by lia; replace (S (length l) - length l) with 1 by lia; reflexivity).
    rewrite IH; [reflexivity|intros x I; apply P; right; exact I|exact N|cbn in F; lia].
Qed.
Lemma set_fold_In ls : forall acc x, In x (fold_left (fun a l => set_line l a) ls acc) <-> In x acc \/ In ("s"%char :: x) ls.
Proof.
  induction ls as [|l ls IH]; intros acc x; cbn [fold_left]; [cbn; tauto|]. rewrite IH. destruct l as [|c v]; cbn [set_line]; [cbn [In]; intuition discriminate|]. destruct (ceqb_spec c "s"%char) as [->|Nc].
  - rewrite sins_In. cbn [In]. split; [intros [[->|H]|H]; auto|]. intros [H|[H|H]]; auto. injection H as ->. auto.
  - cbn [In]. split; [intros [H|H]; auto|]. intros [H|[H|H]]; auto. injection H as -> _. contradiction.
Qed.
Lemma sets_bad lss bad rest : (forall ls, In ls lss -> ls <> [] /\ plain ls) -> bad = None \/ bad = Some [] -> forall acc, sets_all (map (fun ls => Some (text_of ls)) lss ++ bad :: rest) acc = Some [].
Proof.
  intros G B. induction lss as [|ls lss IH]; intro acc; [destruct B as [->| ->]; reflexivity|]. destruct (G ls (or_introl eq_refl)) as [N P].
  assert (T : sets_loop (length (text_of ls)) (text_of ls) acc = Some (fold_left (fun a l => set_line l a) ls acc)). { pose proof (sets_text ls [] (length (text_of ls)) acc P ltac:(intros [])) as T. rewrite app_nil_r in T. apply T. pose proof (text_len ls). cbn [List.length]. lia. }
  assert (Ne : exists c d, text_of ls = c :: d). { destruct ls as [|l ls]; [contradiction|]. rewrite text_cons. destruct l; cbn; eauto. } destruct Ne as (c & d & E).
  cbn [map List.app sets_all]. rewrite E in *. rewrite T. apply IH. intros y I. apply G. right. exact I.
Qed.
(** the listing of the sets shows exactly the names on the set lines of the indexes, each once; an index that is empty or missing makes it empty *)
Theorem C45_sets : forall lss, (forall ls, In ls lss -> ls <> [] /\ plain ls) ->
  (exists out, sets_cmd (map (fun ls => Some (text_of ls)) lss) = Some out /\ ssorted out /\ NoDup out /\ forall x, In x out <-> exists ls, In ls lss /\ In ("s"%char :: x) ls) /\
  forall bad rest, bad = None \/ bad = Some [] -> sets_cmd (map (fun ls => Some (text_of ls)) lss ++ bad :: rest) = Some [].
Proof.
  intros lss G. split; [|intros bad rest B; apply sets_bad; assumption]. unfold sets_cmd. assert (H : forall acc, ssorted acc -> exists out, sets_all (map (fun ls => Some (text_of ls)) lss) acc = Some out /\ ssorted out /\ forall x, In x out <-> In x acc \/ exists ls, In ls lss /\ In ("s"%char :: x) ls).
  { induction lss as [|ls lss IH]; intros acc So; [exists acc; split; [reflexivity|]; split; [exact So|]; intro x; split; [auto|]; intros [I|[ls [[] _]]]; exact I|]. destruct (G ls (or_introl eq_refl)) as [N P].
    assert (T : sets_loop (length (text_of ls)) (text_of ls) acc = Some (fold_left (fun a l => set_line l a) ls acc)). { pose proof (sets_text ls [] (length (text_of ls)) acc P ltac:(intros [])) as T. rewrite app_nil_r in T. apply T. pose proof (text_len ls). cbn [List.length]. lia. }
    assert (Ne : exists c d, text_of ls = c :: d). { destruct ls as [|l ls]; [contradiction|]. rewrite text_cons. destruct l; cbn; eauto. } destruct Ne as (c & d & E).
    assert (So2 : ssorted (fold_left (fun a l => set_line l a) ls acc)). { clear -So. revert acc So. induction ls as [|l ls IH]; intros acc So; [exact So|]. cbn [fold_left]. apply IH. destruct l as [|c v]; [exact So|]. cbn [set_line]. destruct (ceqb c "s"%char); [apply sins_sorted|]; exact So. }
    destruct (IH ltac:(intros y I; apply G; right; exact I) _ So2) as (out & A & B & C). exists out. cbn [map sets_all]. rewrite E in *. rewrite T. split; [exact A|]. split; [exact B|]. intro x. rewrite C, set_fold_In. split.
    - intros [[I|I]|[l2 [I1 I2]]]; [auto|right; exists ls; split; [left; reflexivity|exact I]|right; exists l2; split; [right; exact I1|exact I2]].
    - intros [I|[l2 [[<-|I1] I2]]]; [auto|auto|]. right. exists l2. auto. }
  destruct (H [] ltac:(constructor)) as (out & A & B & C). exists out. split; [exact A|]. split; [exact B|]. split; [exact (ssorted_NoDup _ B)|]. intro x. rewrite C. split; [intros [[]|I]; exact I|auto].
Qed.
(** ** C54 *)
Lemma hit_occurs p s : hit p s = true <-> occurs p s.
Proof.
  unfold hit. pose proof (sfind_None p s) as N. destruct (sfind p s) as [n|] eqn:E; [|split; [discriminate|]; intro O; exfalso; apply (proj1 N eq_refl O)]. split; [|reflexivity]. intros _. destruct (sfind_Some p s n E) as (H & _). eexists _, _. exact H.
Qed.
(** the specification: the expression occurs in one of the six fields, whatever the case of the letters; language packages are left out *)
Definition occurs_ci (p s : str) : Prop := occurs (lower_case p) (lower_case s).
Definition matches (arg : str) (r : list str) : Prop :=
  (exists c v, In c ["c"; "N"; "D"; "U"; "P"; "V"]%char /\ field_of c r v /\ occurs_ci arg v) /\ forall v, field_of "n"%char r v -> v = [].
Definition select {A} (keep : list bool) (l : list A) : list A := map snd (filter fst (combine keep l)).
Definition lower_field (c : ascii) (r : list str) : Prop := forall v, field_of c r v -> lower_case v = v.
Lemma field_unique c r v w : field_of c r v -> field_of c r w -> v = w.
Proof.
  intros (a & b & -> & N) (a' & b' & E & N'). revert a' E. induction a as [|x a IH]; intros [|x' a'] E; cbn in E.
  - injection E as -> _. reflexivity.
  - injection E as _ ->. exfalso. apply (N w). apply in_app_iff. right. left. reflexivity.
  - injection E as _ <-. exfalso. apply (N' v). apply in_app_iff. right. left. reflexivity.
  - injection E as _ E. exact (IH a' E).
Qed.
Lemma occurs_nil s : occurs [] s.
Proof. exists [], s. reflexivity. Qed.
Lemma search_entry arg r e : (forall c v, In c search_tags -> field_of c r v -> e c = v) -> (forall c, In c search_resets -> ~ has_field c r -> e c = []) ->
  (forall c, In c ["N"; "V"; "c"; "U"; "P"]%char -> has_field c r) -> lower_field "N"%char r -> lower_field "c"%char r -> search_shows false arg e = true <-> matches arg r.
Proof.
  intros A B P LN Lc. assert (X : forall c, In c ["N"; "V"; "c"; "U"; "P"]%char -> field_of c r (e c)). { intros c I. destruct (has_field_of c r (P c I)) as [v F]. rewrite (A c v); [exact F| |exact F]. cbn in *. intuition. }
  assert (XN := X "N"%char ltac:(cbn; auto 10)). assert (XV := X "V"%char ltac:(cbn; auto 10)). assert (Xc := X "c"%char ltac:(cbn; auto 10)). assert (XU := X "U"%char ltac:(cbn; auto 10)). assert (XP := X "P"%char ltac:(cbn; auto 10)). clear X.
  assert (D : forall c, In c search_resets -> field_of c r (e c) \/ (~ has_field c r /\ e c = [])).
  { intros c I. assert (Dec : has_field c r \/ ~ has_field c r). { destruct (existsb (has_tag c) r) eqn:E; [left; apply existsb_exists in E; destruct E as [[|x v] [Ix T]]; [discriminate|]; cbn in T; apply ceqb_eq in T; subst x; exists v; exact Ix|right; intros [v Iv]; assert (existsb (has_tag c) r = true) by (apply existsb_exists; exists (c :: v); split; [exact Iv|cbn; apply ceqb_refl]); congruence]. }
    destruct Dec as [H|H]; [|right; split; [exact H|exact (B c I H)]]. left. destruct (has_field_of c r H) as [v F]. rewrite (A c v); [exact F|unfold search_resets in I; cbn in *; intuition|exact F]. }
  unfold search_shows. cbv zeta. rewrite Bool.andb_true_iff, !Bool.orb_true_iff, !hit_occurs, Nat.eqb_eq. unfold matches, occurs_ci. split.
  - intros [H Z]. split.
    + destruct H as [[[[[H|H]|H]|H]|H]|H].
      * exists "c"%char, (e "c"%char). split; [cbn; auto 10|]. split; [exact Xc|]. rewrite (Lc _ Xc). exact H.
      * exists "N"%char, (e "N"%char). split; [cbn; auto 10|]. split; [exact XN|]. rewrite (LN _ XN). exact H.
      * destruct (D "D"%char ltac:(cbn; auto 10)) as [F|[_ F]]; [exists "D"%char, (e "D"%char); split; [cbn; auto 10|]; split; [exact F|exact H]|]. rewrite F in H. destruct H as (a & b & E). cbn in E. symmetry in E. apply app_eq_nil in E. destruct E as [_ E]. apply app_eq_nil in E. destruct E as [E _]. exists "N"%char, (e "N"%char). split; [cbn; auto 10|]. split; [exact XN|]. rewrite E. apply occurs_nil.
      * exists "U"%char, (e "U"%char). split; [cbn; auto 10|]. split; [exact XU|exact H].
      * exists "P"%char, (e "P"%char). split; [cbn; auto 10|]. split; [exact XP|exact H].
      * exists "V"%char, (e "V"%char). split; [cbn; auto 10|]. split; [exact XV|exact H].
    + intros v F. destruct (D "n"%char ltac:(cbn; auto 10)) as [F2|[N _]]; [rewrite (field_unique _ _ _ _ F F2); destruct (e "n"%char); [reflexivity|discriminate]|]. exfalso. apply N. destruct F as (a & b & -> & _). exists v. apply in_app_iff. right. left. reflexivity.
  - intros [(c & v & I & F & O) Z]. split.
    + cbn in I. destruct I as [<-|[<-|[<-|[<-|[<-|[<-|[]]]]]]].
      * rewrite (field_unique _ _ _ _ F Xc), (Lc _ Xc) in O. auto 10.
      * rewrite (field_unique _ _ _ _ F XN), (LN _ XN) in O. auto 10.
      * rewrite <- (A "D"%char v ltac:(cbn; auto 10) F) in O. auto 10.
      * rewrite (field_unique _ _ _ _ F XU) in O. auto 10.
      * rewrite (field_unique _ _ _ _ F XP) in O. auto 10.
      * rewrite (field_unique _ _ _ _ F XV) in O. auto 10.
    + destruct (D "n"%char ltac:(cbn; auto 10)) as [F2|[_ F2]]; [rewrite (Z _ F2)|rewrite F2]; reflexivity.
Qed.
Lemma filter_select {A B} (f : B -> bool) (M : A -> Prop) rs : forall es, Forall2 (fun r e => f e = true <-> M r) rs es -> exists keep, Forall2 (fun r b => b = true <-> M r) rs keep /\ filter f es = select keep es.
Proof.
  induction rs as [|r rs IH]; intros es H; inversion H as [|? e ? es' H1 H2]; subst; [exists []; split; [constructor|reflexivity]|]. destruct (IH es' H2) as (keep & K & E). exists (f e :: keep). split; [constructor; assumption|]. unfold select in *. cbn [combine filter fst]. rewrite E. destruct (f e); reflexivity.
Qed.
(** searching: exactly the matching records, in order, for records with their lines and names in lower case *)
Theorem C54_search_partial : forall arg recss, (forall recs, In recs recss -> recs <> [] /\ forall r, In r recs -> good_record r /\ (forall c, In c ["N"; "V"; "c"; "U"; "P"]%char -> has_field c r) /\ lower_field "N"%char r /\ lower_field "c"%char r) ->
  exists out es keep, search_cmd false arg (map (fun recs => Some (record_text recs)) recss) = Some out /\
    Forall2 (fun r e => forall c v, In c search_tags -> field_of c r v -> e c = v) (concat recss) es /\ Forall2 (fun r b => b = true <-> matches arg r) (concat recss) keep /\ out = select keep es.
Proof.
  intros arg recss G. destruct (scan_all_records search_tags search_resets recss []) as (es & A & C & D); [intros recs I; destruct (G recs I) as [N H]; split; [exact N|intros r Ir; exact (proj1 (H r Ir))]|].
  assert (F : forall r, In r (concat recss) -> (forall c, In c ["N"; "V"; "c"; "U"; "P"]%char -> has_field c r) /\ lower_field "N"%char r /\ lower_field "c"%char r). { intros r I. apply in_concat in I. destruct I as [recs [I1 I2]]. exact (proj2 (proj2 (G recs I1) r I2)). }
  assert (Ds : forall c, In c search_resets -> Forall2 (fun r e => ~ has_field c r -> e c = []) (concat recss) es). { intros c I. apply D; unfold search_resets in I; cbn in *; [intuition|intuition|intros ->; intuition discriminate]. }
  destruct (filter_select (search_shows false arg) (matches arg) (concat recss) es) as (keep & K & E).
  - clear A G D. induction C as [|r e rs es H C IH]; [constructor|]. destruct (F r (or_introl eq_refl)) as (F1 & F2 & F3). constructor.
    + apply search_entry; [exact H| |exact F1|exact F2|exact F3]. intros c I. specialize (Ds c I). inversion Ds; subst. assumption.
    + apply IH; [intros x I; apply F; right; exact I|]. intros c I. specialize (Ds c I). inversion Ds; subst. assumption.
  - exists (filter (search_shows false arg) es), es, keep. split; [|auto]. unfold search_cmd. rewrite A. reflexivity.
Qed.
(** with --names: the packages (those of languages included) whose name holds the text *)
Theorem C54_names_partial : forall arg recss, (forall recs, In recs recss -> recs <> [] /\ forall r, In r recs -> good_record r /\ has_field "N"%char r /\ lower_field "N"%char r) ->
  exists out es keep, search_cmd true arg (map (fun recs => Some (record_text recs)) recss) = Some out /\
    Forall2 (fun r e => forall c v, In c search_tags -> field_of c r v -> e c = v) (concat recss) es /\
    Forall2 (fun r b => b = true <-> exists v, field_of "N"%char r v /\ occurs_ci arg v) (concat recss) keep /\ out = select keep es.
Proof.
  intros arg recss G. destruct (scan_all_records search_tags search_resets recss []) as (es & A & C & D); [intros recs I; destruct (G recs I) as [N H]; split; [exact N|intros r Ir; exact (proj1 (H r Ir))]|].
  assert (F : forall r, In r (concat recss) -> has_field "N"%char r /\ lower_field "N"%char r). { intros r I. apply in_concat in I. destruct I as [recs [I1 I2]]. exact (proj2 (proj2 (G recs I1) r I2)). }
  destruct (filter_select (search_shows true arg) (fun r => exists v, field_of "N"%char r v /\ occurs_ci arg v) (concat recss) es) as (keep & K & E).
  - clear A G D. induction C as [|r e rs es H C IH]; [constructor|]. destruct (F r (or_introl eq_refl)) as (F1 & F2). constructor; [|apply IH; intros x I; apply F; right; exact I].
    destruct (has_field_of _ r F1) as [v Fv]. assert (X : e "N"%char = v) by (apply H; [cbn; auto 10|exact Fv]). unfold search_shows. cbv zeta. rewrite hit_occurs, X. unfold occurs_ci. split.
    + intro O. exists v. split; [exact Fv|]. rewrite (F2 _ Fv). exact O.
    + intros [v' [Fv' O]]. assert (v' = v) by (rewrite <- X; symmetry; apply H; [cbn; auto 10|exact Fv']). subst v'. rewrite (F2 _ Fv) in O. exact O.
  - exists (filter (search_shows true arg) es), es, keep. split; [|auto]. unfold search_cmd. rewrite A. reflexivity.
Qed.
(** a package with an upper case letter in its name is not found under its own name *)
Theorem C54_case_refuted : exists recs, (forall r, In r recs -> good_record r /\ (forall c, In c ["N"; "V"; "c"; "U"; "P"]%char -> has_field c r) /\ matches (L "NetworkManager") r) /\ recs <> [] /\
  search_cmd false (L "NetworkManager") [Some (record_text recs)] = Some [] /\ search_cmd true (L "NetworkManager") [Some (record_text recs)] = Some [].
Proof.
  exists [[L "NNetworkManager"; L "V1"; L "r1"; L "cgui"; L "Uhttp"; L "Pme"]]. split; [|split; [discriminate|split; reflexivity]]. intros r [<-|[]]. split; [|split; [|split]].
  - intros l I. cbn in I. repeat (destruct I as [<-|I]; [split; [discriminate|]; apply cfind_None; reflexivity|]). contradiction.
  - intros c I. cbn in I. destruct I as [<-|[<-|[<-|[<-|[<-|[]]]]]]; eexists; cbn; eauto 10.
  - exists "N"%char, (L "NetworkManager"). split; [cbn; auto 10|]. split; [exists [], [L "V1"; L "r1"; L "cgui"; L "Uhttp"; L "Pme"]; split; [reflexivity|]; intros w I; cbn in I; intuition discriminate|]. exists [], []. vm_compute. reflexivity.
  - intros v (a & b & E & _). exfalso. repeat (destruct a as [|? a]; [discriminate E|injection E as _ E]). destruct a; discriminate E.
Qed.
(** a record without URL line is found under the URL of the record before it *)
Theorem C54_stale_refuted : exists r1 r2, good_record r1 /\ good_record r2 /\ ~ matches (L "kde.org") r2 /\ exists e1 e2, search_cmd false (L "kde.org") [Some (record_text [r1; r2])] = Some [e1; e2] /\ e2 "N"%char = L "b".
Proof.
  exists [L "Na"; L "V1"; L "r1"; L "cx"; L "Ukde.org"; L "Pme"], [L "Nb"; L "V1"; L "r1"; L "cx"; L "Pme"].
  assert (G : forall r, In r [[L "Na"; L "V1"; L "r1"; L "cx"; L "Ukde.org"; L "Pme"]; [L "Nb"; L "V1"; L "r1"; L "cx"; L "Pme"]] -> good_record r). { intros r I l J. cbn in I, J. destruct I as [<-|[<-|[]]]; repeat (destruct J as [<-|J]; [split; [discriminate|]; apply cfind_None; reflexivity|]); contradiction. }
  split; [apply G; cbn; auto|]. split; [apply G; cbn; auto|]. split.
  - intros [(c & v & _ & (a & b & E & _) & O) _]. apply hit_occurs in O. unfold hit in O. 
    repeat (destruct a as [|? a]; [injection E as <- <- _; vm_compute in O; discriminate O|injection E as _ E]). destruct a; discriminate E.
  - eexists _, _. split; [vm_compute; reflexivity|]. reflexivity.
Qed.
Example C45_example : list_cmd [Some (text_of [L "@a.cards-1"; L "Na"; L "V1"; L "r2"; L "cbase"; []; L "Nb"; L "V3"; L "r4"; L "cgui"; []])] = Some [(L "base", L "a", L "1", L "2"); (L "gui", L "b", L "3", L "4")].
Proof. vm_compute. reflexivity. Qed.
Example C54_example : exists e, search_cmd false (L "GTK") [Some (text_of [L "Na"; L "V1"; L "r2"; L "cbase"; L "DA gtk tool"; L "Uu"; L "Pp"; []; L "Nb"; L "V3"; L "r4"; L "cgui"; L "Uu"; L "Pp"; []])] = Some [e] /\ e "N"%char = L "a".
Proof. eexists. split; vm_compute; reflexivity. Qed.
