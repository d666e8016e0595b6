(** C61: the libraries an ELF file names. *)
From Verif Require Import Base BaseProofs StrModel FsModel FsProofs MetaModel MetaProofs ElfModel.
Open Scope N_scope.

(** ** vocabulary: the ELF layout *)
(** the bytes [b] stand at position [i] *)
Definition bytes_at (f : str) (i : N) (b : str) : Prop := exists a c, f = a ++ b ++ c /\ nlen a = i.
Fixpoint value (b : str) : N := match b with [] => 0 | c :: t => N_of_ascii c + 256 * value t end.
(** the [k]-byte number at position [i] *)
Definition num (k : nat) (f : str) (i v : N) : Prop := exists b, length b = k /\ bytes_at f i b /\ v = value b.
(** the text up to a NUL at position [i] *)
Definition text_at (f : str) (i : N) (s : str) : Prop := ~ In zero s /\ bytes_at f i (s ++ [zero]).
(** a 64-bit file with its tables of [phnum] program headers and [shnum] section headers *)
Record elf64 (f : str) (phoff phnum shoff shnum : N) : Prop := {
  e_magic : bytes_at f 0 (magic ++ ["002"%char]);
  e_phoff : num 8 f 32 phoff; e_shoff : num 8 f 40 shoff; e_phentsize : num 2 f 54 56; e_phnum : num 2 f 56 phnum;
  e_shentsize : num 2 f 58 64; e_shnum : num 2 f 60 shnum;
  e_header : 64 <= nlen f; e_phs : phoff + 56 * phnum <= nlen f; e_shs : shoff + 64 * shnum <= nlen f }.
(** the string table that the dynamic section names *)
Definition dynstr (f : str) (shoff shnum : N) (k off : N) : Prop :=
  exists i, i < shnum /\ k < shnum /\ num 4 f (shoff + 64 * i + 4) 6 /\ num 4 f (shoff + 64 * i + 40) k /\
    num 4 f (shoff + 64 * k + 4) 3 /\ num 8 f (shoff + 64 * k + 24) off.
(** the only dynamic segment *)
Definition dynamic (f : str) (phoff phnum : N) (off size : N) : Prop :=
  exists i, i < phnum /\ num 4 f (phoff + 56 * i) 2 /\ num 8 f (phoff + 56 * i + 8) off /\ num 8 f (phoff + 56 * i + 32) size /\
    forall j, j < phnum -> num 4 f (phoff + 56 * j) 2 -> j = i.
(** entry [j] of the dynamic segment at [off], before the closing entry *)
Definition dyn_entry (f : str) (off : N) (j tag v : N) : Prop :=
  num 8 f (off + 16 * j) tag /\ num 8 f (off + 16 * j + 8) v /\ forall i, i <= j -> ~ num 8 f (off + 16 * i) 0.
Definition names_library (f : str) (doff soff : N) (s : str) : Prop :=
  exists j tag v, dyn_entry f doff j tag v /\ (tag = 1 \/ tag = 14) /\ text_at f (soff + v) s.

(** ** reading bytes *)
Lemma nlen_app a b : nlen (a ++ b) = nlen a + nlen b. Proof. unfold nlen. rewrite app_length. lia. Qed.
Lemma nlen_cons c s : nlen (c :: s) = N.succ (nlen s). Proof. unfold nlen. cbn [length]. lia. Qed.
Lemma nskip_app a b : nskip (nlen a) (a ++ b) = b.
Proof.
  induction a as [|c a IH]; cbn [app]; [destruct b; reflexivity|]. cbn [nskip]. rewrite nlen_cons. replace (N.succ (nlen a) =? 0) with false by (symmetry; apply N.eqb_neq; lia). rewrite N.pred_succ. exact IH.
Qed.
Lemma nfirst_app a b : nfirst (nlen a) (a ++ b) = a.
Proof.
  induction a as [|c a IH]; cbn [app]; [destruct b; reflexivity|]. cbn [nfirst]. rewrite nlen_cons. replace (N.succ (nlen a) =? 0) with false by (symmetry; apply N.eqb_neq; lia). rewrite N.pred_succ, IH. reflexivity.
Qed.
Lemma split_at n s : n <= nlen s -> exists a b, s = a ++ b /\ nlen a = n.
Proof.
  intro H. exists (firstn (N.to_nat n) s), (skipn (N.to_nat n) s). split; [symmetry; apply firstn_skipn|]. unfold nlen in *. rewrite firstn_length. lia.
Qed.
Lemma le_head_app b c : le_head (length b) (b ++ c) = Some (value b).
Proof. induction b as [|x b IH]; [reflexivity|]. cbn [length app le_head value]. rewrite IH. reflexivity. Qed.
Lemma le_head_Some k : forall s v, le_head k s = Some v -> exists b c, s = b ++ c /\ length b = k /\ v = value b.
Proof.
  induction k as [|k IH]; intros s v E; cbn [le_head] in E.
  - exists [], s. split; [reflexivity|]. split; [reflexivity|]. injection E as <-. reflexivity.
  - destruct s as [|x s]; [discriminate E|]. destruct (le_head k s) as [w|] eqn:F; [|discriminate E]. injection E as <-. destruct (IH s w F) as [b [c [-> [Lb ->]]]].
    exists (x :: b), c. split; [reflexivity|]. split; [cbn [length]; lia|reflexivity].
Qed.
Lemma nskip_over n s : nlen s < n -> nskip n s = [].
Proof.
  revert n. induction s as [|c s IH]; intros n H; [reflexivity|]. cbn [nskip]. rewrite nlen_cons in H. replace (n =? 0) with false by (symmetry; apply N.eqb_neq; lia). apply IH. lia.
Qed.
Lemma le_num k f i v : (0 < k)%nat -> le k f i = Some v <-> num k f i v.
Proof.
  intro Pk. unfold le. split.
  - intro E. destruct (N.le_gt_cases i (nlen f)) as [H|H].
    + destruct (split_at i f H) as [a [r [-> Ha]]]. rewrite <- Ha, nskip_app in E. apply le_head_Some in E as [b [c [-> [Lb ->]]]]. exists b. split; [exact Lb|]. split; [exists a, c; split; [reflexivity|exact Ha]|reflexivity].
    + rewrite nskip_over in E by exact H. destruct k; [lia|discriminate E].
  - intros [b [<- [[a [c [-> <-]]] ->]]]. rewrite nskip_app. apply le_head_app.
Qed.
Lemma num_fun k f i v w : (0 < k)%nat -> num k f i v -> num k f i w -> v = w.
Proof. intros Pk A B. apply le_num in A; [|exact Pk]. apply le_num in B; [|exact Pk]. congruence. Qed.
Lemma num_total k f i : (0 < k)%nat -> i + N.of_nat k <= nlen f -> exists v, num k f i v.
Proof.
  intros Pk H. destruct (split_at i f) as [a [r [-> Ha]]]; [lia|]. rewrite nlen_app in H. destruct (split_at (N.of_nat k) r) as [b [c [-> Hb]]]; [lia|].
  exists (value b), b. split; [unfold nlen in Hb; lia|]. split; [exists a, c; auto|reflexivity].
Qed.
Lemma get_datas_spec f off size n : size <> 0 -> n <> 0 -> off + size * n <= nlen f -> exists a b c, f = a ++ b ++ c /\ nlen a = off /\ nlen b = size * n /\ get_datas f off size n = Some (b ++ [zero]).
Proof.
  intros Ns Nn H. destruct (split_at off f) as [a [r [-> Ha]]]; [lia|]. rewrite nlen_app in H. destruct (split_at (size * n) r) as [b [c [-> Hb]]]; [lia|].
  exists a, b, c. split; [reflexivity|]. split; [exact Ha|]. split; [exact Hb|]. unfold get_datas. replace (size =? 0) with false by (symmetry; apply N.eqb_neq; lia). replace (n =? 0) with false by (symmetry; apply N.eqb_neq; lia). cbn [orb].
  rewrite !nlen_app in *. replace (nlen a + (nlen b + nlen c) <? off + size * n) with false by (symmetry; apply N.ltb_ge; lia). rewrite <- Ha, nskip_app, <- Hb, nfirst_app. reflexivity.
Qed.
Lemma app_len_inj (a b x y : str) : length a = length b -> a ++ x = b ++ y -> a = b /\ x = y.
Proof.
  revert b. induction a as [|c a IH]; intros [|d b] Hl E; cbn [length app] in *; [split; [reflexivity|exact E]|discriminate Hl|discriminate Hl|].
  injection E as -> E. destruct (IH b) as [-> ->]; [lia|exact E|]. split; reflexivity.
Qed.
(** a number inside the part [b] *)
Lemma num_part k a b c x i v : i + N.of_nat k <= nlen b -> num k (b ++ x) i v <-> num k (a ++ b ++ c) (nlen a + i) v.
Proof.
  intro H. destruct (split_at i b) as [b1 [b2 [-> Hb]]]; [lia|]. rewrite nlen_app in H. destruct (split_at (N.of_nat k) b2) as [b3 [b4 [-> Hb3]]]; [lia|]. split.
  - intros [y [Ly [[p [q [E Hp]]] ->]]]. exists y. split; [exact Ly|]. split; [|reflexivity]. rewrite <- !app_assoc in E.
    destruct (app_len_inj b1 p (b3 ++ b4 ++ x) (y ++ q)) as [-> E2]; [unfold nlen in *; lia|exact E|]. destruct (app_len_inj b3 y (b4 ++ x) q) as [-> _]; [unfold nlen in *; lia|exact E2|].
    exists (a ++ p), (b4 ++ c). split; [rewrite <- !app_assoc; reflexivity|]. rewrite nlen_app. lia.
  - intros [y [Ly [[p [q [E Hp]]] ->]]]. exists y. split; [exact Ly|]. split; [|reflexivity]. rewrite <- !app_assoc in E.
    destruct (app_len_inj (a ++ b1) p (b3 ++ b4 ++ c) (y ++ q)) as [<- E2]; [rewrite app_length; unfold nlen in *; lia|rewrite <- !app_assoc; exact E|]. destruct (app_len_inj b3 y (b4 ++ c) q) as [-> _]; [unfold nlen in *; lia|exact E2|].
    exists b1, (b4 ++ x). split; [rewrite <- !app_assoc; reflexivity|exact Hb].
Qed.

(** ** the loops *)
Lemma find_strtab_spec B k off : num 4 B (64 * k + 4) 3 -> num 8 B (64 * k + 24) off -> (forall i, i < k -> exists t, t <> 3 /\ num 4 B (64 * i + 4) t) ->
  forall n i, i <= k -> k < i + N.of_nat n -> find_strtab B n i = Here k off.
Proof.
  intros Hk Ho Hi. induction n as [|n IH]; intros i Le Lt; [lia|]. cbn [find_strtab]. destruct (N.eq_dec i k) as [->|Ne].
  - apply le_num in Hk; [|lia]. apply le_num in Ho; [|lia]. rewrite Hk, Ho. reflexivity.
  - destruct (Hi i) as [t [Nt Ht]]; [lia|]. apply le_num in Ht; [|lia]. rewrite Ht. rewrite <- (IH (i + 1)) by lia. destruct t as [|[[p|p|]|p|]]; try reflexivity. congruence.
Qed.
Lemma find_dynamic_none B n : forall i acc, (forall j, i <= j -> j < i + N.of_nat n -> exists t, t <> 2 /\ num 4 B (56 * j) t) -> find_dynamic B n i acc = Some acc.
Proof.
  induction n as [|n IH]; intros i acc H; [reflexivity|]. cbn [find_dynamic]. destruct (H i) as [t [Nt Ht]]; [lia|lia|]. apply le_num in Ht; [|lia]. rewrite Ht.
  assert (E : find_dynamic B n (i + 1) acc = Some acc) by (apply IH; intros j H1 H2; apply H; lia). destruct t as [|[p|[p|p|]|]]; try exact E. congruence.
Qed.
Lemma find_dynamic_spec B k off size : num 4 B (56 * k) 2 -> num 8 B (56 * k + 8) off -> num 8 B (56 * k + 32) size ->
  forall n i acc, i <= k -> k < i + N.of_nat n -> (forall j, j < i + N.of_nat n -> j <> k -> exists t, t <> 2 /\ num 4 B (56 * j) t) -> find_dynamic B n i acc = Some (off, size).
Proof.
  intros Hk Ho Hs. induction n as [|n IH]; intros i acc Le Lt H; [lia|]. cbn [find_dynamic]. destruct (N.eq_dec i k) as [->|Ne].
  - apply le_num in Hk; [|lia]. apply le_num in Ho; [|lia]. apply le_num in Hs; [|lia]. rewrite Hk, Ho, Hs. apply find_dynamic_none. intros j H1 H2. apply H; lia.
  - destruct (H i) as [t [Nt Ht]]; [lia|exact Ne|]. apply le_num in Ht; [|lia]. rewrite Ht. assert (E : find_dynamic B n (i + 1) acc = Some (off, size)) by (apply IH; [lia|lia|intros j H1; apply H; lia]).
    destruct t as [|[p|[p|p|]|]]; try exact E. congruence.
Qed.
Lemma nskip_nskip n m s : nskip m (nskip n s) = nskip (n + m) s.
Proof.
  revert n. induction s as [|c s IH]; intro n; [reflexivity|]. cbn [nskip]. destruct (N.eqb_spec n 0) as [->|N0].
  - cbn [nskip]. rewrite N.add_0_l. reflexivity.
  - replace (n + m =? 0) with false by (symmetry; apply N.eqb_neq; lia). rewrite IH. f_equal. lia.
Qed.
Lemma le_nskip k n i s : le k (nskip n s) i = le k s (n + i). Proof. unfold le. rewrite nskip_nskip. reflexivity. Qed.
Lemma cstr_text s r : ~ In zero s -> cstr (s ++ zero :: r) = s.
Proof.
  induction s as [|c s IH]; intro H; cbn [app cstr]; [rewrite ceqb_refl; reflexivity|]. destruct (ceqb c zero) eqn:E; [apply ceqb_eq in E; destruct H; left; exact E|]. rewrite IH by (intro I; apply H; right; exact I). reflexivity.
Qed.
Lemma one_name_spec a R s v : s <> [] -> text_at (a ++ R) (nlen a + v) s -> one_name (R ++ [zero]) v = Ok (if ceqb (last s zero) "."%char then [] else [s]).
Proof.
  intros Ns [Nz [p [q [E Hp]]]]. assert (Hl : nlen a + v <= nlen (a ++ R)) by (rewrite E, nlen_app; lia). rewrite nlen_app in Hl. destruct (split_at v R) as [r1 [r2 [-> Hv]]]; [lia|].
  destruct (app_len_inj (a ++ r1) p r2 ((s ++ [zero]) ++ q)) as [_ E2]; [rewrite app_length; unfold nlen in *; lia|rewrite <- E, <- !app_assoc; reflexivity|]. subst r2.
  unfold one_name. rewrite <- !app_assoc in *. cbn [app] in *. replace (nlen _ <=? v) with false by (symmetry; apply N.leb_gt; rewrite nlen_app, Hv, nlen_app, nlen_cons; lia).
  rewrite <- Hv, nskip_app, cstr_text by exact Nz. destruct s as [|c s]; [contradiction|]. destruct (ceqb (last (c :: s) zero) "."); reflexivity.
Qed.
Section Dyn.
  Variables (f a R : str) (doff soff size J : N) (a' b c' : str).
  Hypotheses (Ef : f = a ++ R) (Ha : nlen a = soff) (Ed : f = a' ++ b ++ c') (Ha' : nlen a' = doff) (Hb : nlen b = size).
  Hypotheses (HJ : 16 * J + 8 <= size) (Hz : num 8 f (doff + 16 * J) 0) (Hn : forall j, j < J -> ~ num 8 f (doff + 16 * j) 0).
  Hypothesis Nm : forall j tag v, j < J -> num 8 f (doff + 16 * j) tag -> num 8 f (doff + 16 * j + 8) v -> tag = 1 \/ tag = 14 -> exists s, s <> [] /\ text_at f (soff + v) s.
  Notation d := (b ++ [zero]).
  Lemma d_num j k v : (0 < k)%nat -> j + N.of_nat k <= size -> le k d j = Some v <-> num k f (doff + j) v.
  Proof. intros Pk H. rewrite (le_num k d j v Pk). rewrite Ed, <- Ha'. apply num_part. rewrite Hb. exact H. Qed.
  Lemma text_fun i s t : text_at f i s -> text_at f i t -> s = t.
  Proof.
    intros [Ns [p [q [E H]]]] [Nt [p' [q' [E' H']]]]. destruct (app_len_inj p p' ((s ++ [zero]) ++ q) ((t ++ [zero]) ++ q')) as [_ X]; [unfold nlen in *; lia|congruence|].
    rewrite <- !app_assoc in X. apply (f_equal cstr) in X. cbn [app] in X. rewrite !cstr_text in X by assumption. exact X.
  Qed.
  Lemma dyn_names_spec fuel : forall j, j <= J -> J < j + N.of_nat fuel -> exists ls, dyn_names fuel (Some (R ++ [zero])) (nskip (16 * j) d) = Ok ls /\
    forall s, In s ls <-> (exists i tag v, j <= i /\ i < J /\ num 8 f (doff + 16 * i) tag /\ num 8 f (doff + 16 * i + 8) v /\ (tag = 1 \/ tag = 14) /\ text_at f (soff + v) s) /\ last s zero <> "."%char.
  Proof.
    induction fuel as [|fuel IH]; intros j Le Lt; [lia|]. cbn [dyn_names]. rewrite !le_nskip, N.add_0_r.
    destruct (N.eq_dec j J) as [->|Ne].
    - assert (E : le 8 d (16 * J) = Some 0) by (apply d_num; [lia|lia|exact Hz]). rewrite E. exists []. split; [reflexivity|]. intro s. split; [intros []|]. intros [[i [tag [v [H1 [H2 _]]]]] _]. lia.
    - assert (Lj : j < J) by lia. destruct (num_total 8 f (doff + 16 * j)) as [tag Ht]; [lia|rewrite Ed, !nlen_app; lia|]. destruct (num_total 8 f (doff + 16 * j + 8)) as [v Hv]; [lia|rewrite Ed, !nlen_app; lia|].
      assert (E : le 8 d (16 * j) = Some tag) by (apply d_num; [lia|lia|exact Ht]). assert (E8 : le 8 d (16 * j + 8) = Some v) by (apply d_num; [lia|lia|rewrite N.add_assoc; exact Hv]). rewrite E, E8.
      assert (N0 : tag <> 0) by (intros ->; apply (Hn j Lj), Ht).
      destruct (IH (j + 1)) as [ls [El Il]]; [lia|lia|]. rewrite nskip_nskip. replace (16 * j + 16) with (16 * (j + 1)) by lia. rewrite El. cbn [rbind].
      assert (G : exists l, (if (tag =? 1) || (tag =? 14) then one_name (R ++ [zero]) v else Ok []) = Ok l /\ forall s, In s l <-> (tag = 1 \/ tag = 14) /\ text_at f (soff + v) s /\ last s zero <> "."%char).
      { destruct ((tag =? 1) || (tag =? 14)) eqn:B.
        - assert (B' : tag = 1 \/ tag = 14) by (apply orb_true_iff in B as [B|B]; apply N.eqb_eq in B; auto). destruct (Nm j tag v Lj Ht Hv B') as [s [Ns Ts]].
          rewrite (one_name_spec a R s v Ns) by (rewrite <- Ef, Ha; exact Ts). eexists. split; [reflexivity|]. intro t. destruct (ceqb (last s zero) ".") eqn:D.
          + apply ceqb_eq in D. split; [intros []|]. intros [_ [Tt Nt]]. rewrite (text_fun _ _ _ Tt Ts) in Nt. contradiction.
          + split; [intros [<-|[]]; split; [exact B'|split; [exact Ts|intro X; rewrite X in D; discriminate D]]|]. intros [_ [Tt _]]. left. apply (text_fun _ _ _ Ts Tt).
        - exists []. split; [reflexivity|]. intro s. split; [intros []|]. intros [[-> | ->] _]; discriminate B. }
      destruct G as [l [Gl Gi]]. replace (match tag with 0 => Ok [] | N.pos _ => rbind (if (tag =? 1) || (tag =? 14) then one_name (R ++ [zero]) v else Ok []) (fun l0 => Ok (l0 ++ ls)) end)
        with (rbind (if (tag =? 1) || (tag =? 14) then one_name (R ++ [zero]) v else Ok []) (fun l0 => Ok (l0 ++ ls))) by (destruct tag; [contradiction|reflexivity]). rewrite Gl. cbn [rbind].
      exists (l ++ ls). split; [reflexivity|]. intro s. rewrite in_app_iff, Gi, Il. split.
      + intros [[T [X N1]]|[[i [tg [w [H1 [H2 X]]]]] N1]]; (split; [|exact N1]).
        * exists j, tag, v. split; [lia|]. split; [exact Lj|]. split; [exact Ht|]. split; [exact Hv|]. split; assumption.
        * exists i, tg, w. split; [lia|]. split; [exact H2|exact X].
      + intros [[i [tg [w [H1 [H2 [X1 [X2 [X3 X4]]]]]]]] N1]. destruct (N.eq_dec i j) as [->|Nij].
        * left. rewrite (num_fun 8 f _ _ _ ltac:(lia) X1 Ht) in X3. rewrite (num_fun 8 f _ _ _ ltac:(lia) X2 Hv) in X4. auto.
        * right. split; [|exact N1]. exists i, tg, w. split; [lia|]. split; [exact H2|]. auto.
  Qed.
End Dyn.

(** *** C61 *)
Section Exact.
  Variables (f : str) (phoff phnum shoff shnum k soff doff size J : N).
  Hypothesis El : elf64 f phoff phnum shoff shnum.
  Lemma elf_libs_tables : 0 < shnum -> 0 < phnum -> dynstr f shoff shnum k soff -> dynamic f phoff phnum doff size -> (forall i, i < k -> ~ num 4 f (shoff + 64 * i + 4) 3) ->
    k + 1 < shnum -> soff <> shnum - 1 -> nlen f < 2 ^ 63 ->
    elf_libs f = match get_datas f doff 1 size with
                 | None => Ok []
                 | Some dyn => if nlen f <=? soff then Ok []
                               else dyn_names (N.to_nat size) (if soff <? nlen f - soff then get_datas f soff 1 (nlen f - soff) else None) dyn
                 end \/ nlen f <= soff.
  Proof.
    intros Ps Pp [i0 [_ [Lk [_ [_ [Tk Ok]]]]]] [i1 [Li [Ty [Of [Sz Un]]]]] Fst Nl Ns Big.
    destruct (N.le_gt_cases (nlen f) soff) as [Out|In_]; [right; exact Out|left].
    destruct El as [[a0 [c0 [E0 H0]]] Ph Sh Phe Phn She Shn Hd Phs Shs]. assert (a0 = []) by (destruct a0; [reflexivity|rewrite nlen_cons in H0; lia]). subst a0. cbn [app] in E0.
    unfold elf_libs. replace (nlen f <? 24) with false by (symmetry; apply N.ltb_ge; lia).
    replace (prefixb magic f) with true by (symmetry; apply prefixb_spec; exists ("002"%char :: c0); rewrite E0, <- app_assoc; reflexivity). cbn [negb].
    replace (le 1 f 4) with (Some 2) by (rewrite E0; reflexivity). cbv zeta. cbv iota.
    replace (nlen f <? 48) with false by (symmetry; apply N.ltb_ge; lia). replace (nlen f <? 48 + 16) with false by (symmetry; apply N.ltb_ge; lia).
    change (48 + 6) with 54. change (48 + 8) with 56. change (48 + 10) with 58. change (48 + 12) with 60.
    apply le_num in Ph; [|lia]. apply le_num in Sh; [|lia]. apply le_num in Phe; [|lia]. apply le_num in Phn; [|lia]. apply le_num in She; [|lia]. apply le_num in Shn; [|lia]. rewrite Ph, Sh, Phe, Phn, She, Shn.
    replace (shnum =? 0) with false by (symmetry; apply N.eqb_neq; lia).
    destruct (get_datas_spec f shoff 64 shnum) as [a [b [c [E [Ha [Hb ->]]]]]]; [lia|lia|lia|].
    rewrite (find_strtab_spec (b ++ [zero]) k soff).
    - cbv iota. replace (k =? shnum - 1) with false by (symmetry; apply N.eqb_neq; lia). replace (soff =? shnum - 1) with false by (symmetry; apply N.eqb_neq; lia). cbn [negb andb orb].
      destruct (get_datas_spec f phoff 56 phnum) as [a2 [b2 [c2 [E2 [Ha2 [Hb2 ->]]]]]]; [lia|lia|lia|].
      rewrite (find_dynamic_spec (b2 ++ [zero]) i1 doff size).
      + replace (2 ^ 63 <=? soff) with false by (symmetry; apply N.leb_gt; lia). reflexivity.
      + apply (num_part 4 a2 b2 c2); [lia|]. rewrite <- E2, Ha2. exact Ty.
      + apply (num_part 8 a2 b2 c2); [lia|]. rewrite <- E2, Ha2, N.add_assoc. exact Of.
      + apply (num_part 8 a2 b2 c2); [lia|]. rewrite <- E2, Ha2, N.add_assoc. exact Sz.
      + lia.
      + lia.
      + intros j Lj Nj. destruct (num_total 4 f (phoff + 56 * j)) as [t Ht]; [lia|lia|]. exists t. split; [intros ->; apply Nj, Un; [lia|exact Ht]|]. apply (num_part 4 a2 b2 c2); [lia|]. rewrite <- E2, Ha2. exact Ht.
    - apply (num_part 4 a b c); [lia|]. rewrite <- E, Ha, N.add_assoc. exact Tk.
    - apply (num_part 8 a b c); [lia|]. rewrite <- E, Ha, N.add_assoc. exact Ok.
    - intros i Lik. destruct (num_total 4 f (shoff + 64 * i + 4)) as [t Ht]; [lia|lia|]. exists t. split; [intros ->; apply (Fst i Lik), Ht|]. apply (num_part 4 a b c); [lia|]. rewrite <- E, Ha, N.add_assoc. exact Ht.
    - lia.
    - lia.
  Qed.
  Theorem C61_exact_partial :
    dynstr f shoff shnum k soff -> dynamic f phoff phnum doff size -> doff + size <= nlen f -> nlen f < 2 ^ 63 ->
    (* the closing entry *)
    16 * J + 8 <= size -> num 8 f (doff + 16 * J) 0 -> (forall j, j < J -> ~ num 8 f (doff + 16 * j) 0) ->
    (* names are there *)
    (forall j tag v, dyn_entry f doff j tag v -> tag = 1 \/ tag = 14 -> exists s, s <> [] /\ text_at f (soff + v) s) ->
    (* what the code relies on: the table is the first string table, is not described by the last section header, and begins in the first half of the file *)
    (forall i, i < k -> ~ num 4 f (shoff + 64 * i + 4) 3) -> k + 1 < shnum -> soff <> shnum - 1 -> 2 * soff < nlen f ->
    exists ls, elf_libs f = Ok ls /\ forall s, In s ls <-> names_library f doff soff s /\ last s zero <> "."%char.
  Proof.
    intros Ds Dy Fits Big HJ Hz Hn Nm Fst Nl Ns Half.
    assert (Pp : 0 < phnum) by (destruct Dy as [i1 [Li _]]; lia). destruct (elf_libs_tables ltac:(lia) Pp Ds Dy Fst Nl Ns Big) as [E|Out]; [|lia]. rewrite E. clear E.
    destruct (get_datas_spec f doff 1 size) as [a' [b [c' [Ed [Ha' [Hb ->]]]]]]; [lia|lia|lia|]. replace (nlen f <=? soff) with false by (symmetry; apply N.leb_gt; lia). replace (soff <? nlen f - soff) with true by (symmetry; apply N.ltb_lt; lia).
    destruct (get_datas_spec f soff 1 (nlen f - soff)) as [a [R [c [Ef [Ha [HR ->]]]]]]; [lia|lia|lia|].
    assert (c = []) by (assert (Z : nlen f = nlen a + (nlen R + nlen c)) by (rewrite Ef at 1; rewrite !nlen_app; reflexivity); destruct c; [reflexivity|rewrite nlen_cons in Z; lia]). subst c. rewrite app_nil_r in Ef.
    assert (Live : forall i, (forall m, m <= i -> ~ num 8 f (doff + 16 * m) 0) <-> i < J).
    { intro i. split; [intro H; destruct (N.lt_ge_cases i J) as [X|X]; [exact X|destruct (H J X Hz)]|]. intros X m Hm. apply Hn. lia. }
    destruct (dyn_names_spec f a R doff soff size J a' b c' Ef Ha Ed Ha' ltac:(lia) HJ Hz Hn) with (fuel := N.to_nat size) (j := 0) as [ls [E Il]].
    - intros j tag v Lj Ht Hv. apply (Nm j tag v). split; [exact Ht|]. split; [exact Hv|]. apply Live, Lj.
    - lia.
    - lia.
    - exists ls. split; [rewrite <- E; f_equal; rewrite N.mul_0_r; destruct (b ++ [zero]); reflexivity|]. intro s. rewrite Il. split; intros [[i [tag [v H]]] N1]; (split; [|exact N1]); exists i, tag, v.
      + destruct H as [_ [Li [H1 [H2 [H3 H4]]]]]. split; [split; [exact H1|split; [exact H2|apply Live, Li]]|]. split; assumption.
      + destruct H as [[H1 [H2 H3]] [H4 H5]]. split; [lia|]. split; [apply Live, H3|]. split; [exact H1|]. split; [exact H2|]. split; assumption.
  Qed.
  (** a string table in the second half of the file: nothing is reported, whatever the entries *)
  Theorem C61_second_half : dynstr f shoff shnum k soff -> dynamic f phoff phnum doff size -> nlen f < 2 ^ 63 ->
    16 * J + 8 <= size -> num 8 f (doff + 16 * J) 0 -> (forall j, j < J -> ~ num 8 f (doff + 16 * j) 0) ->
    (forall i, i < k -> ~ num 4 f (shoff + 64 * i + 4) 3) -> k + 1 < shnum -> soff <> shnum - 1 -> soff < nlen f -> doff + size <= nlen f ->
    nlen f <= 2 * soff -> elf_libs f = Ok [].
  Proof.
    intros Ds Dy Big HJ Hz Hn Fst Nl Ns In_ Fits Half.
    assert (Pp : 0 < phnum) by (destruct Dy as [i1 [Li _]]; lia). destruct (elf_libs_tables ltac:(lia) Pp Ds Dy Fst Nl Ns Big) as [E|Out]; [|lia]. rewrite E. clear E.
    destruct (get_datas_spec f doff 1 size) as [a' [b [c' [Ed [Ha' [Hb ->]]]]]]; [lia|lia|lia|]. replace (nlen f <=? soff) with false by (symmetry; apply N.leb_gt; lia). replace (soff <? nlen f - soff) with false by (symmetry; apply N.ltb_ge; lia).
    assert (G : forall fuel j, j <= J -> J < j + N.of_nat fuel -> dyn_names fuel None (nskip (16 * j) (b ++ [zero])) = Ok []).
    { induction fuel as [|fuel IH]; intros j Le Lt; [lia|]. cbn [dyn_names]. rewrite !le_nskip, N.add_0_r. destruct (num_total 8 f (doff + 16 * j)) as [tag Ht]; [lia|lia|].
      assert (E : le 8 (b ++ [zero]) (16 * j) = Some tag) by (apply (d_num f doff size a' b c' Ed Ha' ltac:(lia)); [lia|lia|exact Ht]). rewrite E.
      destruct (N.eq_dec j J) as [->|Ne]; [rewrite (num_fun 8 f _ _ _ ltac:(lia) Ht Hz); reflexivity|]. rewrite nskip_nskip. replace (16 * j + 16) with (16 * (j + 1)) by lia.
      rewrite IH by lia. destruct tag as [|p]; [reflexivity|]. destruct ((N.pos p =? 1) || (N.pos p =? 14)); reflexivity. }
    rewrite <- (G (N.to_nat size) 0) by lia. f_equal. rewrite N.mul_0_r. destruct (b ++ [zero]); reflexivity.
  Qed.
End Exact.
(** a file that is not ELF names nothing and nothing is read outside *)
(** An ELF file that ends inside its header: the tool reads from a file it has closed. *)
Theorem C61_cut_refuted class r f : f = magic ++ class :: r -> 24 <= nlen f -> (nlen f < 36 \/ (class <> "001"%char /\ nlen f < 48)) -> elf_libs f = UB.
Proof.
  intros E A B. unfold elf_libs. replace (nlen f <? 24) with false by (symmetry; apply N.ltb_ge; exact A).
  replace (prefixb magic f) with true by (symmetry; apply prefixb_spec; exists (class :: r); exact E). cbn [negb].
  assert (L4 : le 1 f 4 = Some (N_of_ascii class)) by (rewrite E; cbn [magic app]; unfold le; cbn [nskip N.eqb N.pred Pos.pred_N Pos.pred_double le_head option_map]; f_equal; lia). rewrite L4. cbv zeta.
  destruct B as [B|[Nc B]].
  - destruct (match N_of_ascii class with 1 => true | _ => false end); match goal with |- (if nlen f <? ?k then _ else _) = _ => replace (nlen f <? k) with true by (symmetry; apply N.ltb_lt; lia) end; reflexivity.
  - replace (match N_of_ascii class with 1 => true | _ => false end) with false; [replace (nlen f <? 48) with true by (symmetry; apply N.ltb_lt; exact B); reflexivity|].
    destruct (N_of_ascii class) as [|[p|p|]] eqn:Ec; try reflexivity. exfalso. apply Nc. rewrite <- (ascii_N_embedding class), Ec. reflexivity.
Qed.
Theorem C61_not_elf f : (forall r, f <> magic ++ r) -> elf_libs f = Ok [].
Proof.
  intro H. unfold elf_libs. destruct (nlen f <? 24); [reflexivity|]. replace (prefixb magic f) with false; [reflexivity|]. symmetry. destruct (prefixb magic f) eqn:E; [|reflexivity]. apply prefixb_spec in E as [r E]. destruct (H r E).
Qed.
