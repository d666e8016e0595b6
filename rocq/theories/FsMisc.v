(** Lemmas behind the file utility properties. *)
From Verif Require Import Base BaseProofs StrModel StrSpec StrProofs FsModel FsSpec FsProofs FsOps.

Lemma lstat_noslash f p n : fget f (comps p) = Some n -> ends_slash p = false -> lstat f p = Some n.
Proof. intros G E. unfold lstat. rewrite G, E. reflexivity. Qed.
Lemma files_equal_reg f p1 p2 n1 n2 : lstat f p1 = Some n1 -> lstat f p2 = Some n2 -> n_kind n1 = KReg -> n_kind n2 = KReg ->
  (files_equal f p1 p2 = true <-> n_data n1 = n_data n2).
Proof. intros A B K1 K2. unfold files_equal. rewrite A, B, K1, K2, same_content_spec. apply seqb_eq. Qed.
Lemma firstn_short (s : str) k : length s < k -> firstn (k - 1) s = s.
Proof. intro H. apply firstn_all2. lia. Qed.
Lemma files_equal_lnk f p1 p2 n1 n2 : lstat f p1 = Some n1 -> lstat f p2 = Some n2 -> n_kind n1 = KLnk -> n_kind n2 = KLnk ->
  length (n_data n1) < MAXPATHLEN -> length (n_data n2) < MAXPATHLEN -> ~ In zero (n_data n1) -> ~ In zero (n_data n2) ->
  (files_equal f p1 p2 = true <-> n_data n1 = n_data n2).
Proof.
  intros A B K1 K2 L1 L2 Z1 Z2. unfold files_equal. rewrite A, B, K1, K2, !firstn_short by auto. rewrite !cstr_nozero by auto. apply seqb_eq.
Qed.
Lemma perms_equal_spec f p1 p2 : perms_equal f p1 p2 = true <->
  exists n1 n2, lstat f p1 = Some n1 /\ lstat f p2 = Some n2 /\
    n_kind n1 = n_kind n2 /\ n_perm n1 = n_perm n2 /\ n_uid n1 = n_uid n2 /\ n_gid n1 = n_gid n2.
Proof.
  unfold perms_equal. destruct (lstat f p1) as [n1|]; [|split; [discriminate|intros [? [? [? _]]]; discriminate]].
  destruct (lstat f p2) as [n2|]; [|split; [discriminate|intros [? [? [_ [? _]]]]; discriminate]].
  rewrite !andb_true_iff, kind_eqb_eq, !N.eqb_eq. split.
  - intros [[[A B] C] D]. exists n1, n2. auto 10.
  - intros [m1 [m2 [A [B [C [D [E F]]]]]]]. inversion A; inversion B; subst. auto.
Qed.
Lemma files_equal_mixed f p1 p2 n1 n2 : lstat f p1 = Some n1 -> lstat f p2 = Some n2 -> n_kind n1 <> n_kind n2 -> files_equal f p1 p2 = false.
Proof. intros A B N. unfold files_equal. rewrite A, B. destruct (n_kind n1), (n_kind n2); congruence. Qed.

(** counterexamples *)
Definition root_dir : node := Node KDir [] 493 0 0 1 0.
Definition dev_fs : fs := [([], root_dir); ([L "null"], Node KChr [] 438 0 0 1 259); ([L "sda"], Node KChr [] 438 0 0 1 2048)].
Lemma devices_differ : exists f p1 p2 n1 n2, tree f /\ lstat f p1 = Some n1 /\ lstat f p2 = Some n2 /\
  n_kind n1 = KChr /\ n_kind n2 = KChr /\ n_rdev n1 <> n_rdev n2 /\ files_equal f p1 p2 = true.
Proof.
  exists dev_fs, (L "/null"), (L "/sda"), (Node KChr [] 438 0 0 1 259), (Node KChr [] 438 0 0 1 2048).
  split; [|split; [reflexivity|split; [reflexivity|split; [reflexivity|split; [reflexivity|split; [discriminate|reflexivity]]]]]].
  split; [exists root_dir; auto|]. intros p c H. apply fget_In in H as [n H].
  cbn in H. destruct H as [H|[H|[H|[]]]]; inversion H as [[E _]].
  - destruct p; discriminate E.
  - destruct p as [|x [|y p]]; [|discriminate E..]. exists root_dir; auto.
  - destruct p as [|x [|y p]]; [|discriminate E..]. exists root_dir; auto.
Qed.

Definition two_fs : fs := [([], root_dir); ([L "mnt"], root_dir); ([L "mnt"; L "a"], Node KReg [] 420 0 0 1 0)].
Lemma two_fs_tree : tree two_fs.
Proof.
  split; [exists root_dir; auto|]. intros p c H. apply fget_In in H as [n H].
  cbn in H. destruct H as [H|[H|[H|[]]]]; inversion H as [[E _]].
  - destruct p; discriminate E.
  - destruct p as [|x [|y p]]; [|discriminate E..]. exists root_dir; auto.
  - destruct p as [|x [|y [|z p]]]; inversion E; subst. exists root_dir; auto.
Qed.
Lemma base_deleted : exists f base file, tree f /\ ends_slash base = true /\ prefixb base file = true /\
  fget f (comps base) <> None /\ fget (removeFile f base file) (comps base) = None.
Proof.
  exists two_fs, (L "/mnt/"), (L "/mnt/a"). split; [exact two_fs_tree|]. split; [reflexivity|]. split; [reflexivity|].
  split; [discriminate|reflexivity].
Qed.

Lemma unterminated_line l : l <> [] -> ~ In nl l -> ~ In zero l -> length l < BUFSIZ - 1 -> parse_lines l = Some [removelast l].
Proof.
  intros N Hn Z H. unfold parse_lines. 
  assert (G : forall s cur k n, ~ In nl s -> length s < k -> (s <> [] \/ cur <> []) -> chunks n k cur s = [rev cur ++ s]).
  { induction s as [|c s IH]; intros cur k n A B C; cbn [chunks].
    - destruct C as [C|C]; [congruence|]. destruct cur; [congruence|]. rewrite app_nil_r. reflexivity.
    - assert (ceqb c nl = false) as -> by (apply ceqb_neq; intros ->; apply A; cbn; auto).
      cbn [List.length] in B. destruct k as [|[|k]]; [lia|lia|]. rewrite IH.
      + cbn [rev]. rewrite <- app_assoc. reflexivity.
      + intro I. apply A. cbn. auto.
      + lia.
      + right. congruence. }
  rewrite G by auto. cbn [rev app map_opt]. unfold store_line. rewrite cstr_nozero by auto. destruct l; [congruence|reflexivity].
Qed.
Lemma chunks_long n l : forall cur k t, ~ In nl l -> length l = k -> 0 < k ->
  chunks n k cur (l ++ t) = (rev cur ++ l) :: chunks n n [] t.
Proof.
  induction l as [|c l IH]; intros cur k t A B C; [cbn in B; lia|]. cbn [app chunks].
  assert (ceqb c nl = false) as -> by (apply ceqb_neq; intros ->; apply A; cbn; auto).
  cbn [List.length] in B. destruct k as [|[|k]]; [lia| |].
  - destruct l; [|cbn in B; lia]. reflexivity.
  - rewrite IH; [|intro I; apply A; cbn; auto|lia|lia]. cbn [rev]. rewrite <- app_assoc. reflexivity.
Qed.
(** a line of at least BUFSIZ-1 characters is cut and loses the character at the cut *)
Lemma long_line : exists lines, Forall (fun l => ~ In nl l /\ ~ In zero l) lines /\ parse_lines (text_of lines) <> Some lines.
Proof.
  exists [repeat "a"%char (BUFSIZ - 1)]. split.
  - constructor; [|constructor]. split; intro I; apply repeat_spec in I; discriminate I.
  - unfold text_of, parse_lines. cbn [map concat]. rewrite app_nil_r.
    pose proof BUFSIZ_pos as BP. remember (BUFSIZ - 1) as n eqn:En. rewrite chunks_long.
    + cbn [rev app]. assert (chunks n n [] [nl] = [[nl]]) as -> by (destruct n; reflexivity).
      cbn [map_opt]. destruct (store_line (repeat "a"%char n)); [|congruence].
      assert (store_line [nl] = Some []) as -> by reflexivity. intro E. inversion E.
    + intro I. apply repeat_spec in I. discriminate I.
    + apply repeat_length.
    + lia.
Qed.
