(** C82: the footprint of an archive. *)
From Verif Require Import Base BaseProofs StrModel StrSpec StrProofs FsProofs MetaProofs FootModel.
From Coq Require Import Lia.

(** ** specification *)
Inductive kind := Regular | Directory | Symlink | Chr | Blk | Socket | Fifo.
(** stat(2) *)
Definition kind_bits (k : kind) : N :=
  match k with Regular => 32768 | Directory => 16384 | Symlink => 40960 | Chr => 8192 | Blk => 24576 | Socket => 49152 | Fifo => 4096 end.
Definition has_kind (mode : N) (k : kind) : Prop := N.land mode 61440 = kind_bits k.
(** [m]: the mode of the last entry of that name which is not itself a hard link *)
Definition mode_of (es : list entry) (x : str) (m : N) : Prop :=
  exists a e b, es = a ++ e :: b /\ e_name e = x /\ e_hard e = None /\ e_mode e = m /\ forall e', In e' b -> e_name e' = x -> e_hard e' <> None.
Inductive extra := Target (t : str) | Device (major minor : N) | EmptyFile | Nothing.
(** what a reader of the footprint is to learn of an entry *)
Record seen := Seen { v_kind : kind; v_perm : N; v_user : str; v_group : str; v_name : str; v_extra : extra }.
Section Spec.
  Variables user group : N -> option str.
  Definition shows (f : N -> option str) (n : N) (s : str) : Prop := f n = Some s \/ (f n = None /\ Forall is_digit s /\ read_dec s = n /\ s <> [] /\ forall t, s = "0"%char :: t -> t = []).
  Inductive sees (es : list entry) (e : entry) : seen -> Prop :=
  | see_link u g : e_hard e = None -> has_kind (e_mode e) Symlink -> shows user (e_uid e) u -> shows group (e_gid e) g ->
      sees es e (Seen Symlink 511 u g (e_name e) (Target (e_link e)))
  | see_hard h m u g : e_hard e = Some h -> mode_of es h m -> has_kind m Regular -> shows user (e_uid e) u -> shows group (e_gid e) g ->
      sees es e (Seen Regular (N.land m 4095) u g (e_name e) Nothing)
  | see_device k u g : e_hard e = None -> has_kind (e_mode e) k -> k = Chr \/ k = Blk -> shows user (e_uid e) u -> shows group (e_gid e) g ->
      sees es e (Seen k (N.land (e_mode e) 4095) u g (e_name e) (Device (e_major e) (e_minor e)))
  | see_empty u g : e_hard e = None -> has_kind (e_mode e) Regular -> e_size e = 0%N -> shows user (e_uid e) u -> shows group (e_gid e) g ->
      sees es e (Seen Regular (N.land (e_mode e) 4095) u g (e_name e) EmptyFile)
  | see_other k u g : e_hard e = None -> has_kind (e_mode e) k -> k = Directory \/ k = Socket \/ k = Fifo \/ (k = Regular /\ e_size e <> 0%N) ->
      shows user (e_uid e) u -> shows group (e_gid e) g ->
      sees es e (Seen k (N.land (e_mode e) 4095) u g (e_name e) Nothing).
  (** names that leave the line readable, and a file type; hard links lead to a regular file of the archive (libarchive gives them no
      type, or that of a regular file when they carry data) *)
  Definition readable (es : list entry) (e : entry) : Prop :=
    ~ In nl (e_name e) /\ ~ In nl (e_link e) /\ (forall a b, e_name e <> a ++ L " ->" ++ b) /\ (forall a, e_name e <> a ++ L " (EMPTY)") /\
    (e_uid e < 2 ^ 64)%N /\ (e_gid e < 2 ^ 64)%N /\ (e_major e < 2 ^ 64)%N /\ (e_minor e < 2 ^ 64)%N /\
    match e_hard e with
    | Some h => (N.land (e_mode e) 61440 = 0%N \/ (has_kind (e_mode e) Regular /\ e_size e <> 0%N)) /\ exists m, mode_of es h m /\ has_kind m Regular
    | None => exists k, has_kind (e_mode e) k
    end.
  (** names of users and groups, as in /etc/passwd *)
  Definition names_ok (f : N -> option str) : Prop := forall n s, f n = Some s -> ~ In nl s /\ ~ In tab s /\ ~ In "/"%char s.

  (** ** proofs *)
  Lemma mode_of_modes es : forall x m, mode_of es x m <-> mget x (modes es) = Some m.
  Proof.
    induction es as [|e es IH] using rev_ind; intros x m.
    - split; [intros (a & e & b & E & _); destruct a; discriminate E|discriminate].
    - unfold modes. rewrite fold_left_app. cbn [fold_left]. fold (modes es). destruct (e_hard e) as [h|] eqn:H.
      + rewrite <- IH. split; intros (a & e0 & b & E & N & Hd & M & B).
        * destruct (exists_last (l := b)) as [b' [z Eb]].
          { intros ->. apply app_inj_tail in E as [_ ->]. congruence. }
          subst b. change (e0 :: b' ++ [z]) with ((e0 :: b') ++ [z]) in E. rewrite app_assoc in E. apply app_inj_tail in E as [E ->].
          exists a, e0, b'. split; [exact E|]. split; [exact N|]. split; [exact Hd|]. split; [exact M|]. intros e' I. apply B. apply in_app_iff. left. exact I.
        * exists a, e0, (b ++ [e]). split; [rewrite E, <- app_assoc; reflexivity|]. split; [exact N|]. split; [exact Hd|]. split; [exact M|].
          intros e' I. apply in_app_iff in I as [I|[<-|[]]]; [apply B, I|]. intros _. congruence.
      + rewrite mget_mset. destruct (seqb x (e_name e)) eqn:X.
        * apply seqb_eq in X. subst x. split.
          -- intros (a & e0 & b & E & N & Hd & M & B). destruct b as [|z b] using rev_ind.
             ++ apply app_inj_tail in E as [_ ->]. congruence.
             ++ clear IHb. change (e0 :: b ++ [z]) with ((e0 :: b) ++ [z]) in E. rewrite app_assoc in E. apply app_inj_tail in E as [_ <-].
                exfalso. apply (B e); [apply in_app_iff; right; left; reflexivity|reflexivity|exact H].
          -- intro E. injection E as <-. exists es, e, []. split; [reflexivity|]. split; [reflexivity|]. split; [exact H|]. split; [reflexivity|]. intros e' [].
        * rewrite <- IH. assert (Nx : e_name e <> x) by (intros <-; rewrite seqb_refl in X; discriminate X). split; intros (a & e0 & b & E & N & Hd & M & B).
          -- destruct b as [|z b] using rev_ind; [apply app_inj_tail in E as [_ ->]; congruence|]. clear IHb.
             change (e0 :: b ++ [z]) with ((e0 :: b) ++ [z]) in E. rewrite app_assoc in E. apply app_inj_tail in E as [E ->].
             exists a, e0, b. split; [exact E|]. split; [exact N|]. split; [exact Hd|]. split; [exact M|]. intros e' I. apply B. apply in_app_iff. left. exact I.
          -- exists a, e0, (b ++ [e]). split; [rewrite E, <- app_assoc; reflexivity|]. split; [exact N|]. split; [exact Hd|]. split; [exact M|].
             intros e' I. apply in_app_iff in I as [I|[<-|[]]]; [apply B, I|]. intro Z. contradiction.
  Qed.
  Lemma dec_no c n : (n < 2 ^ 64)%N -> ~ is_digit c -> ~ In c (dec n).
  Proof. intros H D I. destruct (dec_spec n H) as (_ & F & _). rewrite Forall_forall in F. exact (D (F c I)). Qed.
  Lemma dec_inj n k : (n < 2 ^ 64)%N -> (k < 2 ^ 64)%N -> dec n = dec k -> n = k.
  Proof. intros H K E. destruct (dec_spec n H) as (_ & _ & A & _). destruct (dec_spec k K) as (_ & _ & B & _). congruence. Qed.
  Lemma who_shows f n : (n < 2 ^ 64)%N -> shows f n (who f n).
  Proof. intro H. unfold shows, who. destruct (f n); [left; reflexivity|right]. destruct (dec_spec n H) as (A & B & C & D). auto. Qed.
  Lemma who_no f n c : names_ok f -> (n < 2 ^ 64)%N -> c = nl \/ c = tab \/ c = "/"%char -> ~ In c (who f n).
  Proof.
    intros F H C. unfold who. destruct (f n) as [s|] eqn:E.
    - destruct (F n s E) as (A & B & D). destruct C as [->|[->| ->]]; assumption.
    - apply dec_no; [exact H|]. unfold is_digit. destruct C as [->|[->| ->]]; cbn; lia.
  Qed.
  Lemma left_split c (a b x y : str) : ~ In c a -> ~ In c b -> a ++ c :: x = b ++ c :: y -> a = b /\ x = y.
  Proof.
    revert b. induction a as [|z a IH]; intros [|w b] A B E; cbn in E.
    - injection E as ->. auto.
    - injection E as -> ->. exfalso. apply B. left. reflexivity.
    - injection E as -> <-. exfalso. apply A. left. reflexivity.
    - injection E as -> E. destruct (IH b) as [-> ->]; [intro I; apply A; right; exact I|intro I; apply B; right; exact I|exact E|]. auto.
  Qed.
  Lemma right_split c (a b x y : str) : ~ In c x -> ~ In c y -> a ++ c :: x = b ++ c :: y -> a = b /\ x = y.
  Proof.
    intros X Y E. apply (f_equal (@rev ascii)) in E. rewrite !rev_app_distr in E. cbn [rev] in E. rewrite <- !app_assoc in E. cbn [app] in E.
    apply left_split in E as [A B]; [|rewrite <- in_rev; exact X|rewrite <- in_rev; exact Y].
    apply (f_equal (@rev ascii)) in A, B. rewrite !rev_involutive in *. auto.
  Qed.
  Lemma len_split {A} (a b x y : list A) : length a = length b -> a ++ x = b ++ y -> a = b /\ x = y.
  Proof.
    revert b. induction a as [|z a IH]; intros [|w b] Ln E; cbn in *; try discriminate; [auto|]. injection E as -> E.
    destruct (IH b) as [-> ->]; [congruence|exact E|auto].
  Qed.
  (** " ->" cannot overlap itself *)
  Lemma arrow_split (a b x y : str) : (forall p q, a <> p ++ L " ->" ++ q) -> (forall p q, b <> p ++ L " ->" ++ q) ->
    a ++ L " -> " ++ x = b ++ L " -> " ++ y -> a = b /\ x = y.
  Proof.
    revert b. induction a as [|z a IH]; intros b A B E.
    - destruct b as [|w1 [|w2 [|w3 b]]]; cbn in E.
      + injection E as ->. auto.
      + discriminate E.
      + discriminate E.
      + exfalso. injection E as E1 E2 E3 _. subst w1 w2 w3. apply (B [] b). reflexivity.
    - destruct b as [|w b].
      + exfalso. destruct a as [|z2 [|z3 a]]; cbn in E; [discriminate E|discriminate E|]. injection E as E1 E2 E3 _. subst z z2 z3. apply (A [] a). reflexivity.
      + cbn [app] in E. injection E as -> E. destruct (IH b) as [-> ->]; [intros p q ->; apply (A (w :: p) q); reflexivity|intros p q ->; apply (B (w :: p) q); reflexivity|exact E|auto].
  Qed.
  Definition kind_char (k : kind) : ascii :=
    match k with Regular => "-" | Directory => "d" | Symlink => "l" | Chr => "c" | Blk => "b" | Socket => "s" | Fifo => "p" end%char.
  Definition extra_text (x : extra) : str :=
    match x with Target t => L " -> " ++ t | Device a b => L " (" ++ dec a ++ L ", " ++ dec b ++ L ")" | EmptyFile => L " (EMPTY)" | Nothing => [] end.
  Definition render (v : seen) : str :=
    (kind_char (v_kind v) :: mtos_perm (v_perm v)) ++ tab :: v_user v ++ "/"%char :: v_group v ++ tab :: v_name v ++ extra_text (v_extra v).
  Lemma has_kind_char m k : has_kind m k -> mtos_type m = kind_char k.
  Proof. unfold has_kind, mtos_type, S_IFMT. intros ->. destruct k; reflexivity. Qed.
  Lemma has_kind_type m k t : has_kind m k -> is_type t m = (kind_bits k =? t)%N.
  Proof. unfold has_kind, is_type, S_IFMT. intros ->. reflexivity. Qed.
  Lemma mode_render m k : has_kind m k -> mtos m = kind_char k :: mtos_perm (N.land m 4095).
  Proof. intro H. rewrite mtos_unfold, (has_kind_char m k H), mtos_perm_low. reflexivity. Qed.
  (** what is seen of a readable entry fits the rendering *)
  Definition fits (v : seen) : Prop :=
    N.land (v_perm v) 4095 = v_perm v /\ ~ In tab (v_user v) /\ ~ In "/"%char (v_user v) /\ ~ In tab (v_group v) /\
    ~ In nl (v_user v) /\ ~ In nl (v_group v) /\ ~ In nl (v_name v) /\
    (forall a b, v_name v <> a ++ L " ->" ++ b) /\ (forall a, v_name v <> a ++ L " (EMPTY)") /\
    match v_extra v with
    | Target t => v_kind v = Symlink /\ ~ In nl t
    | Device a b => (v_kind v = Chr \/ v_kind v = Blk) /\ (a < 2 ^ 64)%N /\ (b < 2 ^ 64)%N
    | EmptyFile => v_kind v = Regular
    | Nothing => v_kind v <> Symlink /\ v_kind v <> Chr /\ v_kind v <> Blk
    end.
  Lemma land_4095 m : N.land (N.land m 4095) 4095 = N.land m 4095.
  Proof. rewrite <- N.land_assoc. reflexivity. Qed.
  Hypothesis user_ok : names_ok user.
  Hypothesis group_ok : names_ok group.
  Lemma line_render es e : readable es e -> exists v, sees es e v /\ line user group (modes es) e = render v /\ fits v.
  Proof.
    intros (Nn & Nt & Na & Ne & Hu & Hg & Hma & Hmi & K).
    pose proof (who_shows user _ Hu) as Su. pose proof (who_shows group _ Hg) as Sg.
    assert (F : forall k p x, N.land p 4095 = p -> match x with
      | Target t => k = Symlink /\ ~ In nl t | Device a b => (k = Chr \/ k = Blk) /\ (a < 2 ^ 64)%N /\ (b < 2 ^ 64)%N | EmptyFile => k = Regular | Nothing => k <> Symlink /\ k <> Chr /\ k <> Blk end ->
      fits (Seen k p (who user (e_uid e)) (who group (e_gid e)) (e_name e) x)).
    { intros k p x P X. unfold fits. cbn [v_perm v_user v_group v_name v_extra v_kind].
      split; [exact P|]. split; [apply who_no; auto|]. split; [apply who_no; auto|]. split; [apply who_no; auto|]. split; [apply who_no; auto|]. split; [apply who_no; auto|]. auto. }
    destruct (e_hard e) as [h|] eqn:H.
    - destruct K as [T [m [M R]]]. exists (Seen Regular (N.land m 4095) (who user (e_uid e)) (who group (e_gid e)) (e_name e) Nothing).
      split; [exact (see_hard es e h m _ _ H M R Su Sg)|]. split.
      + unfold line, render, mode_text, special. cbn [v_kind v_perm v_user v_group v_name v_extra extra_text]. rewrite H. apply (proj1 (mode_of_modes es h m)) in M. rewrite M, (mode_render m Regular R).
        unfold s_islnk, s_ischr, s_isblk, s_isreg. destruct T as [T|[T Z]].
        * unfold is_type, S_IFMT. rewrite T. reflexivity.
        * rewrite !(has_kind_type _ _ _ T). cbn [kind_bits]. change (32768 =? 40960)%N with false. change (32768 =? 8192)%N with false. change (32768 =? 24576)%N with false. change (32768 =? 32768)%N with true.
          apply N.eqb_neq in Z. rewrite Z. reflexivity.
      + apply F; [apply land_4095|]. split; [discriminate|]. split; discriminate.
    - destruct K as [k K].
      assert (Ln : forall x, k <> Symlink -> special e = extra_text x -> line user group (modes es) e = render (Seen k (N.land (e_mode e) 4095) (who user (e_uid e)) (who group (e_gid e)) (e_name e) x)).
      { intros x Nk E. unfold line, render, mode_text. cbn [v_kind v_perm v_user v_group v_name v_extra]. rewrite H, E, (mode_render _ k K).
        unfold s_islnk. rewrite (has_kind_type _ _ _ K). assert (Z : (kind_bits k =? 40960)%N = false) by (destruct k; first [reflexivity|congruence]). rewrite Z. reflexivity. }
      assert (Oth : k = Directory \/ k = Socket \/ k = Fifo \/ (k = Regular /\ e_size e <> 0%N) -> exists v, sees es e v /\ line user group (modes es) e = render v /\ fits v).
      { intro O. exists (Seen k (N.land (e_mode e) 4095) (who user (e_uid e)) (who group (e_gid e)) (e_name e) Nothing). split; [exact (see_other es e k _ _ H K O Su Sg)|].
        assert (Nk : k <> Symlink /\ k <> Chr /\ k <> Blk) by (destruct O as [->|[->|[->|[-> _]]]]; split; [discriminate|split; discriminate|discriminate|split; discriminate|discriminate|split; discriminate|discriminate|split; discriminate]).
        split; [|apply F; [apply land_4095|exact Nk]]. apply Ln; [exact (proj1 Nk)|]. unfold special, s_islnk, s_ischr, s_isblk, s_isreg. rewrite !(has_kind_type _ _ _ K).
        destruct O as [->|[->|[->|[-> Z]]]]; try reflexivity. apply N.eqb_neq in Z. rewrite Z. reflexivity. }
      assert (Dev : k = Chr \/ k = Blk -> exists v, sees es e v /\ line user group (modes es) e = render v /\ fits v).
      { intro O. exists (Seen k (N.land (e_mode e) 4095) (who user (e_uid e)) (who group (e_gid e)) (e_name e) (Device (e_major e) (e_minor e))).
        split; [exact (see_device es e k _ _ H K O Su Sg)|]. split; [|apply F; [apply land_4095|auto]]. apply Ln; [destruct O as [->| ->]; discriminate|].
        unfold special, s_islnk, s_ischr, s_isblk, s_isreg. rewrite !(has_kind_type _ _ _ K). destruct O as [->| ->]; reflexivity. }
      destruct k; try (apply Oth; tauto); try (apply Dev; tauto).
      + destruct (N.eq_dec (e_size e) 0) as [Z|Z]; [|apply Oth; tauto].
        exists (Seen Regular (N.land (e_mode e) 4095) (who user (e_uid e)) (who group (e_gid e)) (e_name e) EmptyFile).
        split; [exact (see_empty es e _ _ H K Z Su Sg)|]. split; [|apply F; [apply land_4095|reflexivity]]. apply Ln; [discriminate|].
        unfold special, s_islnk, s_ischr, s_isblk, s_isreg. rewrite !(has_kind_type _ _ _ K), Z. reflexivity.
      + exists (Seen Symlink 511 (who user (e_uid e)) (who group (e_gid e)) (e_name e) (Target (e_link e))). split; [exact (see_link es e _ _ H K Su Sg)|].
        split; [|apply F; [reflexivity|auto]]. unfold line, render, mode_text, special, s_islnk. cbn [v_kind v_perm v_user v_group v_name v_extra]. rewrite !(has_kind_type _ _ _ K). reflexivity.
  Qed.
  Lemma perm_inj p q : N.land p 4095 = p -> N.land q 4095 = q -> mtos_perm p = mtos_perm q -> p = q.
  Proof.
    intros P Q E. rewrite <- P, <- Q, <- !parse_mode_perm, !mtos_unfold, E. reflexivity.
  Qed.
  Lemma render_inj v w : fits v -> fits w -> render v = render w -> v = w.
  Proof.
    intros (P & Vt & Vs & Vg & _ & _ & _ & Va & Ve & Vx) (Q & Wt & Ws & Wg & _ & _ & _ & Wa & We & Wx) E. destruct v as [k p u g n x], w as [k' p' u' g' n' x']. unfold render in E.
    cbn [v_kind v_perm v_user v_group v_name v_extra] in *.
    apply len_split in E as [Em E]; [|reflexivity]. injection E as E.
    assert (Ek : k = k') by (injection Em as Em _; destruct k, k'; first [reflexivity|discriminate Em]). assert (Ep : p = p') by (apply perm_inj; [exact P|exact Q|congruence]). clear Em. subst k' p'.
    apply left_split in E as [-> E]; [|exact Vs|exact Ws]. apply left_split in E as [-> E]; [|exact Vg|exact Wg].
    destruct x as [t|a b| |], x' as [t'|a' b'| |]; cbn [extra_text] in E;
      try (exfalso; intuition congruence).
    - apply arrow_split in E as [-> ->]; [reflexivity|exact Va|exact Wa].
    - destruct Vx as (_ & Ha & Hb), Wx as (_ & Ha' & Hb').
      change (L " (" ++ dec a ++ L ", " ++ dec b ++ L ")") with (" "%char :: "("%char :: dec a ++ ","%char :: " "%char :: dec b ++ [")"%char]) in E.
      change (L " (" ++ dec a' ++ L ", " ++ dec b' ++ L ")") with (" "%char :: "("%char :: dec a' ++ ","%char :: " "%char :: dec b' ++ [")"%char]) in E.
      assert (X : forall n a b, n ++ " "%char :: "("%char :: dec a ++ ","%char :: " "%char :: dec b ++ [")"%char] = (((n ++ [" "%char]) ++ "("%char :: dec a ++ [","%char]) ++ " "%char :: dec b) ++ [")"%char]).
      { intros. repeat (rewrite <- ?app_assoc; cbn [app]). reflexivity. }
      rewrite !X in E. apply app_inj_tail in E as [E _]. apply right_split in E as [E Eb]; [|apply dec_no; [assumption|unfold is_digit; cbn; lia]|apply dec_no; [assumption|unfold is_digit; cbn; lia]].
      apply dec_inj in Eb; [|assumption|assumption]. subst b'.
      assert (Y : forall n a, (n ++ [" "%char]) ++ "("%char :: dec a ++ [","%char] = ((n ++ [" "%char]) ++ "("%char :: dec a) ++ [","%char]) by (intros; rewrite <- !app_assoc; reflexivity).
      rewrite !Y in E. apply app_inj_tail in E as [E _]. apply right_split in E as [E Ea]; [|apply dec_no; [assumption|unfold is_digit; cbn; lia]|apply dec_no; [assumption|unfold is_digit; cbn; lia]].
      apply dec_inj in Ea; [|assumption|assumption]. subst a'. apply app_inj_tail in E as [-> _]. reflexivity.
    - apply app_inv_tail in E as ->. reflexivity.
    - exfalso. rewrite app_nil_r in E. exact (We n (eq_sym E)).
    - exfalso. rewrite app_nil_r in E. exact (Ve n' E).
    - rewrite !app_nil_r in E. subst n'. reflexivity.
  Qed.
  (** decimal numbers without leading zeros *)
  Lemma read_same_length a : forall b, length a = length b -> Forall is_digit a -> Forall is_digit b -> read_dec a = read_dec b -> a = b.
  Proof.
    induction a as [|c a IH] using rev_ind; intros b Ln A B E.
    - destruct b; [reflexivity|discriminate Ln].
    - destruct b as [|d b] using rev_ind; [rewrite app_length in Ln; cbn in Ln; lia|]. clear IHb. rewrite !app_length in Ln. cbn in Ln.
      apply Forall_app in A as [A Ac]. apply Forall_app in B as [B Bd]. inversion Ac as [|? ? Hc _]; subst. inversion Bd as [|? ? Hd _]; subst.
      rewrite !read_dec_app in E. cbn [fold_left] in E. unfold is_digit, digit_value in *.
      assert (read_dec a = read_dec b /\ N_of_ascii c = N_of_ascii d) as [E1 E2] by lia.
      rewrite (IH b) by (first [lia|assumption]). apply N_of_ascii_inj in E2. subst d. reflexivity.
  Qed.
  Definition canon (s : str) : Prop := Forall is_digit s /\ s <> [] /\ forall t, s = "0"%char :: t -> t = [].
  Lemma canon_len a b : canon a -> canon b -> read_dec a = read_dec b -> length a <= length b.
  Proof.
    intros (A & An & Az) (B & Bn & Bz) E. destruct a as [|c a]; [contradiction|]. destruct (ascii_dec c "0"%char) as [->|Nc].
    - rewrite (Az a eq_refl). destruct b; [contradiction|cbn; lia].
    - pose proof (read_dec_lower c a A Nc) as Lo. pose proof (read_dec_bound b B) as Hi. rewrite E in Lo. assert (X : (10 ^ N.of_nat (length a) < 10 ^ N.of_nat (length b))%N) by lia.
      apply N.pow_lt_mono_r_iff in X; [|lia]. cbn [length]. lia.
  Qed.
  Lemma canon_inj a b : canon a -> canon b -> read_dec a = read_dec b -> a = b.
  Proof.
    intros A B E. apply read_same_length; [|exact (proj1 A)|exact (proj1 B)|exact E].
    pose proof (canon_len a b A B E). pose proof (canon_len b a B A (eq_sym E)). lia.
  Qed.
  Lemma shows_fun f n s t : shows f n s -> shows f n t -> s = t.
  Proof.
    intros [A|(A & A1 & A2 & A3 & A4)] [B|(B & B1 & B2 & B3 & B4)]; try congruence. apply canon_inj; [split; [assumption|split; assumption]|split; [assumption|split; assumption]|congruence].
  Qed.
  Lemma kind_fun m k k' : has_kind m k -> has_kind m k' -> k = k'.
  Proof. unfold has_kind. intros A B. rewrite A in B. destruct k, k'; first [reflexivity|discriminate B]. Qed.
  Lemma sees_fun es e v w : sees es e v -> sees es e w -> v = w.
  Proof.
    intros A B. inversion A; subst; inversion B; subst;
      repeat match goal with
      | H : shows ?f ?n ?s, K : shows ?f ?n ?t |- _ => first [constr_eq s t; fail 1|rewrite (shows_fun f n s t H K) in *; clear H]
      | H : has_kind ?m ?k, K : has_kind ?m ?k' |- _ => pose proof (kind_fun m k k' H K); clear H; try subst
      end; try reflexivity; try congruence;
      try (exfalso; intuition congruence).
    match goal with H : mode_of es ?h ?m, K : mode_of es ?h' ?m' |- _ => assert (h = h') by congruence; subst; apply (proj1 (mode_of_modes es _ _)) in H; apply (proj1 (mode_of_modes es _ _)) in K; assert (m = m') by congruence; subst end. reflexivity.
  Qed.
  Lemma perm_no_nl m : ~ In nl (mtos_perm m).
  Proof.
    unfold mtos_perm. cbn [In]. unfold mtos_bit, mtos_x. intro H.
    repeat (destruct H as [H|H]; [repeat match type of H with context [if ?b then _ else _] => destruct b end; discriminate H|]). exact H.
  Qed.
  Lemma render_no_nl v : fits v -> ~ In nl (render v).
  Proof.
    intros (_ & _ & _ & _ & Nu & Ng & Nn & _ & _ & X) H. unfold render in H. apply in_app_iff in H as [H|H].
    - destruct H as [H|H]; [destruct (v_kind v); discriminate H|exact (perm_no_nl _ H)].
    - destruct H as [H|H]; [discriminate H|]. apply in_app_iff in H as [H|H]; [contradiction|]. destruct H as [H|H]; [discriminate H|].
      apply in_app_iff in H as [H|H]; [contradiction|]. destruct H as [H|H]; [discriminate H|]. apply in_app_iff in H as [H|H]; [contradiction|].
      destruct (v_extra v) as [t|a b| |]; cbn [extra_text] in H.
      + apply in_app_iff in H as [H|H]; [|destruct X; contradiction]. cbn in H. repeat (destruct H as [H|H]; [discriminate H|]). exact H.
      + destruct X as (_ & A & B). assert (D : ~ is_digit nl) by (unfold is_digit; cbn; lia).
        apply in_app_iff in H as [H|H]; [cbn in H; repeat (destruct H as [H|H]; [discriminate H|]); exact H|]. apply in_app_iff in H as [H|H]; [exact (dec_no nl a A D H)|].
        apply in_app_iff in H as [H|H]; [cbn in H; repeat (destruct H as [H|H]; [discriminate H|]); exact H|]. apply in_app_iff in H as [H|H]; [exact (dec_no nl b B D H)|].
        destruct H as [H|[]]. discriminate H.
      + cbn in H. repeat (destruct H as [H|H]; [discriminate H|]). exact H.
      + destruct H.
  Qed.
  Lemma join2 (P Q : entry -> seen -> Prop) es fs vs : Forall2 P es vs -> Forall2 Q fs vs -> Forall2 (fun e f => exists v, P e v /\ Q f v) es fs.
  Proof.
    intro S. revert fs. induction S as [|e v es vs H S IH]; intros fs T; inversion T; subst; constructor; [exists v; auto|apply IH; assumption].
  Qed.
  Lemma join_fun (P Q : entry -> seen -> Prop) : (forall e v w, P e v -> P e w -> v = w) -> (forall e v w, Q e v -> Q e w -> v = w) ->
    forall es fs vs ws, Forall2 P es vs -> Forall2 Q fs ws -> Forall2 (fun e f => exists v, P e v /\ Q f v) es fs -> vs = ws.
  Proof.
    intros FP FQ es fs vs ws S. revert fs ws. induction S as [|e v es vs H S IH]; intros fs ws T A; inversion A; subst; inversion T; subst; [reflexivity|].
    match goal with E : exists v, _ |- _ => destruct E as [u [U1 U2]] end. f_equal; [|eapply IH; eassumption].
    transitivity u; [eapply FP; eassumption|eapply FQ; eassumption].
  Qed.
  Notation footprint := (footprint user group).
  (** the whole archive could be read *)
  Definition whole (l : list header) (es : list entry) : Prop := l = map Good es.
  Lemma whole_entries l es : whole l es -> entries l = es.
  Proof. intros ->. induction es as [|e es IH]; [reflexivity|]. cbn [map entries]. rewrite IH. reflexivity. Qed.
  Lemma footprint_text es out : footprint (map Good es) = Some out -> es <> [] /\ out = text_of (map (line user group (modes es)) es).
  Proof.
    unfold FootModel.footprint. rewrite (whole_entries (map Good es) es eq_refl). destruct (existsb _ es); [discriminate|]. destruct es; [discriminate|]. intro E. injection E as <-. split; [discriminate|reflexivity].
  Qed.
  Lemma lines_render es0 es : Forall (readable es0) es ->
    exists vs, Forall2 (sees es0) es vs /\ map (line user group (modes es0)) es = map render vs /\ Forall fits vs.
  Proof.
    intro F. induction F as [|e es R F IH]; [exists []; split; [constructor|split; [reflexivity|constructor]]|].
    destruct (line_render es0 e R) as [v (S & Lv & Fv)]. destruct IH as [vs (S2 & L2 & F2)]. exists (v :: vs).
    split; [constructor; assumption|]. split; [cbn [map]; rewrite Lv, L2; reflexivity|constructor; assumption].
  Qed.
  (** one line per entry, in their order *)
  Theorem C82_lines : forall es out, footprint (map Good es) = Some out -> Forall (readable es) es ->
    exists rows, getlines out = rows ++ [[]] /\ length rows = length es /\
      forall i e, nth_error es i = Some e -> exists row a b, nth_error rows i = Some row /\ row = a ++ e_name e ++ b.
  Proof.
    intros es out E F. apply footprint_text in E as [_ ->]. exists (map (line user group (modes es)) es). split; [|split; [apply map_length|]].
    - apply getlines_text. destruct (lines_render es es F) as [vs (_ & -> & Fv)]. apply Forall_forall. intros r I. apply in_map_iff in I as [v [<- I]]. rewrite Forall_forall in Fv. apply render_no_nl, Fv, I.
    - intros i e N. exists (line user group (modes es) e).
      exists (mode_text (modes es) e ++ tab :: who user (e_uid e) ++ "/"%char :: who group (e_gid e) ++ [tab]), (special e).
      split; [exact (map_nth_error (line user group (modes es)) i es N)|]. unfold line. rewrite <- app_assoc. f_equal. cbn [app]. f_equal. rewrite <- app_assoc. f_equal. cbn [app]. f_equal. rewrite <- app_assoc. reflexivity.
  Qed.
  (** two archives have the same footprint exactly when their entries look the same, one after the other *)
  Theorem C82_exact : forall es fs out out', footprint (map Good es) = Some out -> footprint (map Good fs) = Some out' ->
    Forall (readable es) es -> Forall (readable fs) fs ->
    (out = out' <-> Forall2 (fun e f => exists v, sees es e v /\ sees fs f v) es fs).
  Proof.
    intros es fs out out' E E' F F'. apply footprint_text in E as [_ ->]. apply footprint_text in E' as [_ ->].
    destruct (lines_render es es F) as [vs (S & -> & Fv)]. destruct (lines_render fs fs F') as [ws (T & -> & Fw)].
    assert (NL : forall us, Forall fits us -> Forall (fun l => ~ In nl l) (map render us)).
    { intros us Fu. apply Forall_forall. intros r I. apply in_map_iff in I as [v [<- I]]. rewrite Forall_forall in Fu. apply render_no_nl, Fu, I. }
    split.
    - intro Eq. apply (f_equal getlines) in Eq. rewrite !getlines_text in Eq by (apply NL; assumption). apply app_inv_tail in Eq. clear F F' NL.
      assert (V : vs = ws).
      { clear S T. revert ws Fw Eq. induction Fv as [|v vs Hv _ IH]; intros [|w ws] Fw Eq; try discriminate Eq; [reflexivity|].
        inversion Fw as [|? ? Hw Fw']; subst. cbn [map] in Eq. assert (E1 : render v = render w) by congruence. assert (E2 : map render vs = map render ws) by congruence.
        rewrite (render_inj v w Hv Hw E1), (IH ws Fw' E2). reflexivity. }
      subst ws. clear Fv Fw Eq. exact (join2 (sees es) (sees fs) es fs vs S T).
    - intro A. rewrite (join_fun (sees es) (sees fs) (sees_fun es) (sees_fun fs) es fs vs ws S T A). reflexivity.
  Qed.
  (** an error is reported for an archive without entries, and when the data of a regular file cannot be read *)
  Theorem C82_fails : forall es, footprint (map Good es) = None <-> es = [] \/ exists e, In e es /\ has_kind (e_mode e) Regular /\ e_data e = false.
  Proof.
    intro es. unfold FootModel.footprint. rewrite (whole_entries (map Good es) es eq_refl). destruct (existsb _ es) eqn:X.
    - apply existsb_exists in X as [e [I H]]. apply andb_true_iff in H as [R D]. apply negb_true_iff in D. split; [intros _|reflexivity]. right. exists e. split; [exact I|]. split; [|exact D].
      unfold s_isreg, is_type, S_IFMT in R. apply N.eqb_eq in R. exact R.
    - destruct es as [|e0 es]; [split; [left; reflexivity|reflexivity]|]. split; [discriminate|]. intros [H|[e (I & R & D)]]; [discriminate H|]. exfalso.
      assert (Z : existsb (fun e => s_isreg (e_mode e) && negb (e_data e)) (e0 :: es) = true); [|congruence].
      apply existsb_exists. exists e. split; [exact I|]. rewrite D. unfold s_isreg. rewrite (has_kind_type _ _ _ R). reflexivity.
  Qed.
  (** but an archive that breaks, or gives a warning, at the header of an entry looks like one that ends there *)
  Theorem C82_cut_refuted : forall es h rest, h = Unreadable \/ (exists e, h = Warned e) -> footprint (map Good es ++ h :: rest) = footprint (map Good es).
  Proof.
    intros es h rest H. unfold FootModel.footprint. assert (E : entries (map Good es ++ h :: rest) = es).
    { induction es as [|e es IH]; cbn [map app entries]; [destruct H as [->|[e ->]]; reflexivity|]. rewrite IH. reflexivity. }
    rewrite E, (whole_entries (map Good es) es eq_refl). reflexivity.
  Qed.
End Spec.
Definition nobody : N -> option str := fun n => if (n =? 0)%N then Some (L "root") else None.
Definition ent (x : str) (mode : N) : entry := Entry x mode None [] 0 1000 5 0 0 true.
Definition ex_arch : list entry :=
  [ent (L "usr/") 16877; Entry (L "usr/h") 0 (Some (L "usr/f")) [] 0 0 0 0 0 true; ent (L "usr/f") 35309; Entry (L "usr/l") 41471 None (L "f") 0 0 0 0 0 true;
   Entry (L "dev/sda") 25008 None [] 0 6 0 8 0 true; Entry (L "usr/e") 33188 None [] 0 0 0 0 0 true].
Definition textb (e : entry) : bool :=
  negb (existsb (ceqb nl) (e_name e)) && negb (existsb (ceqb nl) (e_link e)) && match sfind (L " ->") (e_name e) with None => true | Some _ => false end &&
  negb (prefixb (rev (L " (EMPTY)")) (rev (e_name e))) && (e_uid e <? 2 ^ 64)%N && (e_gid e <? 2 ^ 64)%N && (e_major e <? 2 ^ 64)%N && (e_minor e <? 2 ^ 64)%N.
Lemma textb_readable es e : textb e = true ->
  match e_hard e with
  | Some h => (N.land (e_mode e) 61440 = 0%N \/ (has_kind (e_mode e) Regular /\ e_size e <> 0%N)) /\ exists m, mode_of es h m /\ has_kind m Regular
  | None => exists k, has_kind (e_mode e) k
  end -> readable es e.
Proof.
  unfold textb. rewrite !andb_true_iff, !negb_true_iff. intros (((((((A & B) & C) & D) & E) & F) & G) & H) K.
  assert (X : forall x, existsb (ceqb nl) x = false -> ~ In nl x).
  { intros x Z I. assert (existsb (ceqb nl) x = true); [|congruence]. apply existsb_exists. exists nl. split; [exact I|reflexivity]. }
  split; [apply X, A|]. split; [apply X, B|]. split.
  { destruct (sfind (L " ->") (e_name e)) eqn:S; [discriminate C|]. apply sfind_None in S. intros a b Z. apply S. exists a, b. exact Z. }
  split.
  { intros a Z. rewrite Z, rev_app_distr in D. assert (P : prefixb (rev (L " (EMPTY)")) (rev (L " (EMPTY)") ++ rev a) = true) by (apply prefixb_spec; exists (rev a); reflexivity). congruence. }
  apply N.ltb_lt in E, F, G, H. auto.
Qed.
Lemma nobody_ok : names_ok nobody.
Proof.
  intros n x E. unfold nobody in E. destruct (n =? 0)%N; [|discriminate E]. assert (x = L "root") as -> by congruence.
  split; [|split]; cbn; intro H; repeat (destruct H as [H|H]; [discriminate H|]); exact H.
Qed.
(** the hypotheses of the theorems hold of a small archive with all kinds of entries *)
Example C82_run : Forall (readable ex_arch) ex_arch /\ names_ok nobody /\
  footprint nobody nobody (map Good ex_arch) = Some (text_of
    [L "drwxr-xr-x	root/1000	usr/"; L "-rwsr-xr-x	root/root	usr/h"; L "-rwsr-xr-x	root/1000	usr/f"; L "lrwxrwxrwx	root/root	usr/l -> f";
     L "brw-rw----	root/6	dev/sda (8, 0)"; L "-rw-r--r--	root/root	usr/e (EMPTY)"]).
Proof.
  split; [|split; [exact nobody_ok|vm_compute; reflexivity]].
  constructor; [apply textb_readable; [vm_compute; reflexivity|exists Directory; reflexivity]|].
  constructor.
  { apply textb_readable; [vm_compute; reflexivity|]. cbn [e_hard]. split; [left; reflexivity|]. exists 35309%N. split; [|reflexivity]. apply mode_of_modes. vm_compute. reflexivity. }
  constructor; [apply textb_readable; [vm_compute; reflexivity|exists Regular; reflexivity]|].
  constructor; [apply textb_readable; [vm_compute; reflexivity|exists Symlink; reflexivity]|].
  constructor; [apply textb_readable; [vm_compute; reflexivity|exists Blk; reflexivity]|].
  constructor; [apply textb_readable; [vm_compute; reflexivity|exists Regular; reflexivity]|]. constructor.
Qed.
(** a hard link to a file outside the archive shows no mode at all *)
Theorem C82_hard_outside_refuted : exists e, e_hard e = Some (L "usr/f") /\ footprint nobody nobody [Good e] = Some (text_of [L "?---------	root/root	usr/h"]).
Proof. exists (Entry (L "usr/h") 0 (Some (L "usr/f")) [] 0 0 0 0 0 true). split; [reflexivity|vm_compute; reflexivity]. Qed.
(** names that make lines ambiguous: a full file and an empty one, one entry and two *)
Theorem C82_names_refuted :
  (exists e f, has_kind (e_mode e) Regular /\ has_kind (e_mode f) Regular /\ e_size e = 0%N /\ e_size f <> 0%N /\ e_hard e = None /\ e_hard f = None /\
    footprint nobody nobody [Good e] = footprint nobody nobody [Good f]) /\
  (exists e f g, footprint nobody nobody [Good e; Good f] = footprint nobody nobody [Good g] /\ footprint nobody nobody [Good g] <> None).
Proof.
  split.
  - exists (Entry (L "a") 33188 None [] 0 0 0 0 0 true), (Entry (L "a (EMPTY)") 33188 None [] 0 0 7 0 0 true).
    split; [reflexivity|]. split; [reflexivity|]. split; [reflexivity|]. split; [discriminate|]. split; [reflexivity|]. split; [reflexivity|vm_compute; reflexivity].
  - exists (Entry (L "a") 33188 None [] 0 0 7 0 0 true), (Entry (L "b") 33188 None [] 0 0 7 0 0 true), (Entry (L "a" ++ nl :: L "-rw-r--r--	root/root	b") 33188 None [] 0 0 7 0 0 true).
    split; [vm_compute; reflexivity|]. intro H. vm_compute in H. discriminate H.
Qed.
Print Assumptions C82_lines.
Print Assumptions C82_exact.
Print Assumptions C82_fails.
Print Assumptions C82_cut_refuted.
Print Assumptions C82_hard_outside_refuted.
Print Assumptions C82_names_refuted.
