(** C56-C60: what the queries answer, against the database on disk. *)
From Verif Require Import Base BaseProofs StrModel StrSpec StrProofs RulesModel FsModel FsSpec FsProofs FsOps FsExtract MetaModel MetaSpec MetaProofs MetaProps
  DbModel DbLoad DbOps DbRun DbInv DbSpec DbFacts DbProps DbExamples EngineFs AddRun RemoveProps RemoveCmdProofs RemoveCmdExamples QueryModel.

(** ** vocabulary *)
(** the META lines of an installed package *)
Definition meta_text (d : disk) (n : str) (ls : list str) : Prop :=
  exists dir, mget n d = Some dir /\ match mget (L "META") dir with None => ls = [] | Some t => parse_lines t = Some ls end.
(** the text field [c] of package [n] *)
Definition stored (d : disk) (n : str) (c : ascii) (v : str) : Prop := exists ls, meta_text d n ls /\ field c ls (fun v => v) [] v.
Definition release (d : disk) (n : str) (k : N) : Prop := exists ls, meta_text d n ls /\ field "r" ls atoi_u16 1%N k.
Definition build_date (d : disk) (n : str) (z : Z) : Prop := exists ls, meta_text d n ls /\ field "B" ls (fun v => Some (epoch v)) None (Some z).
(** [a] is a name of the package [n] *)
Definition answers (d : disk) (n a : str) : Prop := installed d n /\ (a = n \/ meta_has d n ("A"%char :: a)).
(** rows in the order of packages, then files *)
Definition row_before (a b : row) : Prop := slt (row_name a) (row_name b) \/ row_name a = row_name b /\ slt (row_file a) (row_file b).

(** ** the loaded records *)
Lemma load_installed junk (d : disk) m n : load junk d = Ok m -> ((exists r, mget n (m_pkgs m) = Some r) <-> installed d n).
Proof.
  intro E. split.
  - intros [r G]. apply load_spec in E as [_ [P _]]. apply P in G as [N [dir [G _]]]. split; [exact (proj1 (nondot_spec n) N)|congruence].
  - intros [N G]. apply (load_record junk d m n E); [exact (proj2 (nondot_spec n) N)|exact G].
Qed.
Lemma load_In junk (d : disk) m n r : load junk d = Ok m -> (In (n, r) (m_pkgs m) <-> mget n (m_pkgs m) = Some r).
Proof. intro E. split; [intro I; apply In_mget; [apply ssorted_NoDup, (load_keys _ _ _ E)|exact I]|apply mget_In]. Qed.
Lemma load_meta junk (d : disk) m n r : load junk d = Ok m -> mget n (m_pkgs m) = Some r -> exists ls, meta_text d n ls /\
  field "V" ls (fun v => v) [] (r_version r) /\ field "c" ls (fun v => v) [] (r_coll r) /\ field "D" ls (fun v => v) [] (r_descr r) /\
  field "r" ls (fun v => Some (atoi_u16 v)) (Some 1%N) (r_release r) /\ field "B" ls (fun v => Some (epoch v)) None (r_build r).
Proof.
  intros E G. apply load_spec in E as [_ [P _]]. apply P in G as [_ [dir [G Lp]]]. apply load_pkg_ok in Lp as [ls [c [r0 [M [_ [Em ->]]]]]].
  cbn [r_version r_coll r_release r_build r_descr with_files].
  rewrite (meta_fold _ _ n (step_version n) _ _ _ Em), (meta_fold _ _ n (step_coll n) _ _ _ Em), (meta_fold _ _ n (step_descr n) _ _ _ Em), (meta_fold _ _ n (step_release n) _ _ _ Em), (meta_fold _ _ n (step_build n) _ _ _ Em).
  assert (Q : exists ls0, match mget (L "META") dir with None => ls0 = [] | Some t => parse_lines t = Some ls0 end /\ ls = set_of ls0).
  { destruct (mget (L "META") dir) as [t|]; [|exists []; split; [reflexivity|subst ls; reflexivity]]. unfold parse_set in M. destruct (parse_lines t) as [l|]; [|discriminate]. exists l. split; [reflexivity|]. inversion M. reflexivity. }
  destruct Q as [ls0 [Q ->]]. exists ls0. split; [exists dir; split; assumption|].
  assert (S : ssorted (set_of ls0)) by apply set_of_sorted.
  assert (X : forall c' A (read : str -> A) d x, field c' (set_of ls0) read d x -> field c' ls0 read d x).
  { intros c' A read d' x Y. destruct Y as [v Y1 Y2|Y]; [apply field_line|apply field_none].
    - apply set_of_In, Y1.
    - intros w W. apply Y2, set_of_In, W.
    - intros w W. apply (Y w), set_of_In, W. }
  split; [apply X, set_field_fold, S|]. split; [apply X, set_field_fold, S|]. split; [apply X, set_field_fold, S|]. split; apply X, set_field_fold, S.
Qed.
Lemma load_stored junk (d : disk) m n r : load junk d = Ok m -> mget n (m_pkgs m) = Some r ->
  stored d n "V" (r_version r) /\ stored d n "c" (r_coll r) /\ stored d n "D" (r_descr r) /\ exists k, r_release r = Some k /\ release d n k.
Proof.
  intros E G. destruct (load_meta junk d m n r E G) as [ls [M [V [C [D [R _]]]]]]. split; [exists ls; auto|]. split; [exists ls; auto|]. split; [exists ls; auto|].
  inversion R as [v I Mx Eq|No Eq].
  - exists (atoi_u16 v). split; [reflexivity|]. exists ls. split; [exact M|]. apply field_line; assumption.
  - exists 1%N. split; [reflexivity|]. exists ls. split; [exact M|]. apply field_none; assumption.
Qed.
Lemma load_files_sorted junk (d : disk) m n r : load junk d = Ok m -> mget n (m_pkgs m) = Some r -> ssorted (r_files r).
Proof.
  intros E G. apply load_spec in E as [_ [P _]]. apply P in G as [_ [dir [G Lp]]]. apply load_pkg_ok in Lp as [ls [c [r0 [_ [_ [_ ->]]]]]]. apply set_of_sorted.
Qed.
Lemma field_unique {A} c ls (read : str -> A) dflt x y : field c ls read dflt x -> field c ls read dflt y -> x = y.
Proof.
  intros [v I M|N] [v' I' M'|N']; [|destruct (N' _ I)|destruct (N _ I')|reflexivity]. destruct (M v' I') as [->|X]; [reflexivity|]. destruct (M' v I) as [->|Y]; [reflexivity|]. destruct (slt_irrefl v). eapply slt_trans; eassumption.
Qed.
Lemma meta_text_unique d n ls ls' : meta_text d n ls -> meta_text d n ls' -> ls = ls'.
Proof.
  intros [dir [G M]] [dir' [G' M']]. rewrite G in G'. injection G' as <-. destruct (mget (L "META") dir); congruence.
Qed.
Lemma stored_unique d n c v v' : stored d n c v -> stored d n c v' -> v = v'.
Proof. intros [ls [M F]] [ls' [M' F']]. rewrite (meta_text_unique _ _ _ _ M' M) in F'. eapply field_unique; eassumption. Qed.

Section Queries.
  Variables (junk : bool) (re : str -> str -> option bool) (compiles : str -> bool) (libs : str -> list str) (root : str).
  Notation ask := (pkginfo_run junk re compiles libs root).
  Lemma ask_load q w x w' : ask q w = (x, w') -> x <> Refused -> x <> Crash -> exists m, load junk (w_db w) = Ok m /\ x = answer_to junk re compiles libs m q.
  Proof.
    unfold pkginfo_run. destruct (load junk (w_db w)) as [m| |]; intros E N1 N2; injection E as <- <-; [exists m; split; reflexivity|contradiction|contradiction].
  Qed.

  (** *** C56 *)
  Lemma rows_files (c n : str) pat l : forall r, In r (flat_map (fun x => match re pat (slash :: x) with Some true => [(c, n, x)] | _ => [] end) l) <->
    exists x, r = (c, n, x) /\ In x l /\ re pat (slash :: x) = Some true.
  Proof.
    intro r. rewrite in_flat_map. split.
    - intros [x [I H]]. exists x. destruct (re pat (slash :: x)) as [[|]|]; [|destruct H|destruct H]. destruct H as [<-|[]]. auto.
    - intros [x [-> [I H]]]. exists x. split; [exact I|]. rewrite H. left. reflexivity.
  Qed.
  Lemma rows_sorted_files (c n : str) pat l : ssorted l -> StronglySorted row_before (flat_map (fun x => match re pat (slash :: x) with Some true => [(c, n, x)] | _ => [] end) l).
  Proof.
    induction 1 as [|x l S IH F]; cbn [flat_map]; [constructor|]. destruct (re pat (slash :: x)) as [[|]|]; cbn [app]; [|exact IH|exact IH]. constructor; [exact IH|].
    apply Forall_forall. intros r I. apply rows_files in I as [y [-> [I _]]]. right. split; [reflexivity|]. cbn [row_file snd]. rewrite Forall_forall in F. apply F, I.
  Qed.
  Lemma sorted_app {A} (R : A -> A -> Prop) a b : StronglySorted R a -> StronglySorted R b -> (forall x y, In x a -> In y b -> R x y) -> StronglySorted R (a ++ b).
  Proof.
    intros Sa Sb H. induction Sa as [|x a Sa IH F]; cbn [app]; [exact Sb|]. constructor; [apply IH; intros; apply H; [right|]; assumption|].
    apply Forall_app. split; [exact F|]. apply Forall_forall. intros y I. apply H; [left; reflexivity|exact I].
  Qed.
  Lemma rows_sorted pat (ps : list (str * rec)) : ssorted (keys ps) -> (forall n r, In (n, r) ps -> ssorted (r_files r)) ->
    StronglySorted row_before (q_owner re (Mem ps [] false) pat).
  Proof.
    unfold q_owner. cbn [m_pkgs]. induction ps as [|[n r] ps IH]; intros S F; cbn [flat_map]; [constructor|]. cbn [keys map fst] in S. inversion S as [|? ? S' Fa]; subst.
    apply sorted_app.
    - apply rows_sorted_files, (F n r). left. reflexivity.
    - apply IH; [exact S'|]. intros n' r' I. apply (F n' r'). right. exact I.
    - intros a b Ia Ib. apply rows_files in Ia as [x [-> _]]. apply in_flat_map in Ib as [[n' r'] [Ip Ib]]. apply rows_files in Ib as [y [-> _]]. left. cbn [row_name fst snd].
      rewrite Forall_forall in Fa. apply Fa. apply (in_map fst) in Ip. exact Ip.
  Qed.
  Theorem C56_owner w pat rows w' : ask (Owner pat) w = (Rows rows, w') ->
    compiles pat = true /\
    (forall c n x, In (c, n, x) rows <-> installed (w_db w) n /\ lists (w_db w) n x /\ stored (w_db w) n "c" c /\ re pat (slash :: x) = Some true) /\
    StronglySorted row_before rows.
  Proof.
    intro E. destruct (ask_load _ _ _ _ E) as [m [Lo A]]; [discriminate|discriminate|]. cbn [answer_to] in A. destruct (compiles pat); [|discriminate A]. injection A as ->. split; [reflexivity|]. split.
    - intros c n x. unfold q_owner. rewrite in_flat_map. split.
      + intros [[n' r] [Ip Ir]]. cbn [fst snd] in Ir. apply rows_files in Ir as [y [Eq [Iy H]]]. injection Eq as -> -> ->. apply (load_In junk _ _ _ _ Lo) in Ip.
        split; [apply (load_installed junk _ m _ Lo); exists r; exact Ip|]. split; [apply (load_lists junk _ m n' r y Lo Ip), Iy|]. split; [apply (load_stored junk _ m n' r Lo Ip)|exact H].
      + intros [In_ [Li [St H]]]. destruct (proj2 (load_installed junk _ m n Lo) In_) as [r G]. exists (n, r). split; [apply (load_In junk _ _ _ _ Lo), G|]. cbn [fst snd].
        apply rows_files. exists x. destruct (load_stored junk _ m n r Lo G) as [_ [St' _]]. rewrite (stored_unique _ _ _ _ _ St St'). split; [reflexivity|]. split; [apply (load_lists junk _ m n r x Lo G), Li|exact H].
    - apply (rows_sorted pat (m_pkgs m)); [apply (load_keys _ _ _ Lo)|]. intros n r I. apply (load_files_sorted junk (w_db w) m n r Lo). apply (load_In junk _ _ _ _ Lo), I.
  Qed.
  (** a pattern that does not compile is refused *)
  Theorem C56_bad_pattern w pat rows : compiles pat = false -> fst (ask (Owner pat) w) <> Rows rows.
  Proof. unfold pkginfo_run. cbn [fst]. intros C E. destruct (load junk (w_db w)); cbn [answer_to] in E; [rewrite C in E|..]; discriminate E. Qed.
  (** the table: one line per row below the header, the columns at the same place in all lines and apart by two blanks at least *)
  Lemma width_le (f : row -> str) rows : forall w r, (In r rows -> length (f r) <= fold_left (fun w r => if w <? length (f r) then length (f r) else w) rows w) /\
    w <= fold_left (fun w r => if w <? length (f r) then length (f r) else w) rows w.
  Proof.
    induction rows as [|x rows IH]; intros w r; cbn [fold_left In]; [split; [intros []|lia]|]. set (w1 := if w <? length (f x) then length (f x) else w).
    assert (H : w <= w1 /\ length (f x) <= w1) by (unfold w1; destruct (Nat.ltb_spec w (length (f x))); lia). destruct (IH w1 r) as [A B]. split; [|lia]. intros [<-|I]; [lia|apply A, I].
  Qed.
  Lemma setw_length n s : length s <= n -> length (setw n s) = n.
  Proof. intro H. unfold setw, blanks. rewrite app_length, repeat_length. lia. Qed.
  Lemma setw_room n s : length s + 2 <= n -> exists b, setw n s = s ++ " "%char :: " "%char :: b /\ Forall (eq " "%char) b.
  Proof.
    intro H. unfold setw. assert (E : exists k, n - length s = S (S k)) by (exists (n - length s - 2); lia). destruct E as [k ->]. exists (repeat " "%char k). split; [reflexivity|]. apply Forall_forall. intros c I. symmetry. apply (repeat_spec _ _ _ I).
  Qed.
  Theorem C56_table util rows : rows <> [] -> exists w1 w2 : nat, Forall2 (fun r line =>
      exists b1 b2, Forall (eq " "%char) b1 /\ Forall (eq " "%char) b2 /\ length (row_coll r ++ b1) = w1 /\ length (row_name r ++ b2) = w2 /\ 2 <= length b1 /\ 2 <= length b2 /\
        line = row_coll r ++ b1 ++ row_name r ++ b2 ++ row_file r) (header :: rows) (show_owner util rows).
  Proof.
    intro N. assert (E : show_owner util rows = map (show_row (width row_coll rows) (width row_name rows)) (header :: rows)) by (destruct rows; [contradiction|reflexivity]). rewrite E. clear E N.
    exists (width row_coll rows + 2), (width row_name rows + 2).
    assert (H : forall r, In r (header :: rows) -> length (row_coll r) <= width row_coll rows /\ length (row_name r) <= width row_name rows).
    { intros r [<-|I]; (split; unfold width; [destruct (width_le row_coll rows (length (row_coll header)) header)|destruct (width_le row_name rows (length (row_name header)) header)]); try assumption;
      [destruct (width_le row_coll rows (length (row_coll header)) r) as [A _]|destruct (width_le row_name rows (length (row_name header)) r) as [A _]]; apply A, I. }
    generalize dependent (width row_coll rows). generalize dependent (width row_name rows). intros w2 w1 H. induction (header :: rows) as [|r l IH]; [constructor|]. cbn [map]. constructor.
    - destruct (H r (or_introl eq_refl)) as [H1 H2]. destruct r as [[c n] x]. unfold row_coll, row_name, row_file, show_row in *. cbn [fst snd] in *.
      exists (blanks (w1 + 2 - length c)), (blanks (w2 + 2 - length n)).
      assert (B : forall k, Forall (eq " "%char) (blanks k)) by (intro k; apply Forall_forall; intros a I; symmetry; apply (repeat_spec _ _ _ I)).
      split; [apply B|]. split; [apply B|]. unfold blanks. rewrite !app_length, !repeat_length. split; [lia|]. split; [lia|]. split; [lia|]. split; [lia|]. unfold setw, blanks. rewrite <- !app_assoc. reflexivity.
    - apply IH. intros r' I. apply H. right. exact I.
  Qed.
  Theorem C56_no_owner util : show_owner util [] = [util ++ L ": no owner(s) found"].
  Proof. reflexivity. Qed.

  (** *** C57 *)
  Lemma real_name_spec (d : disk) m a : load junk d = Ok m -> name_exists m a = true ->
    exists r, mget (real_name m a) (m_pkgs m) = Some r /\ answers d (real_name m a) a.
  Proof.
    intros Lo. unfold name_exists, real_name. destruct (mget a (m_alias m)) as [i|] eqn:G; [|discriminate]. intros _. pose proof (load_spec _ _ _ Lo) as [_ [P [A1 _]]].
    destruct (A1 _ _ G) as [r [Gr Hr]]. exists r. split; [exact Gr|]. split; [apply (load_installed junk d m i Lo); exists r; exact Gr|].
    destruct Hr as [Hr|Hr]; [left; exact Hr|right; apply (load_alias junk d m i r a Lo Gr), Hr].
  Qed.
  Lemma exists_answers (d : disk) m a : load junk d = Ok m -> (name_exists m a = true <-> exists n, answers d n a).
  Proof.
    intro Lo. rewrite (name_exists_known junk d m a Lo). unfold known, answers, installed, nodot. split.
    - intros [n [A [B C]]]. exists n. auto.
    - intros [n [[A B] C]]. exists n. auto.
  Qed.
  Theorem C57_list w a ls w' : ask (ListOf a) w = (Lines ls, w') ->
    ssorted ls /\ exists n, answers (w_db w) n a /\ forall x, In x ls <-> lists (w_db w) n x.
  Proof.
    intro E. destruct (ask_load _ _ _ _ E) as [m [Lo A]]; [discriminate|discriminate|]. cbn [answer_to] in A. unfold q_list in A. destruct (name_exists m a) eqn:N; [|discriminate A]. injection A as ->.
    destruct (real_name_spec _ m a Lo N) as [r [G An]]. unfold at_name. rewrite G. split; [apply (load_files_sorted junk (w_db w) m _ r Lo G)|].
    exists (real_name m a). split; [exact An|]. intro x. apply (load_lists junk (w_db w) m _ r x Lo G).
  Qed.
  (** refused exactly when nothing of that name is installed *)
  Theorem C57_list_refused w a : (exists m, load junk (w_db w) = Ok m) -> (fst (ask (ListOf a) w) = Refused <-> ~ exists n, answers (w_db w) n a).
  Proof.
    intros [m Lo]. unfold pkginfo_run. cbn [fst]. rewrite Lo. cbn [answer_to]. unfold q_list. rewrite <- (exists_answers _ m a Lo). destruct (name_exists m a); split; [discriminate|intro H; destruct H; reflexivity|discriminate|reflexivity].
  Qed.
  Theorem C57_details_partial w n de w' : ask (Details n) w = (Detail (Some de), w') -> installed (w_db w) n -> (forall k, answers (w_db w) k n -> k = n) ->
    d_name de = n /\ stored (w_db w) n "V" (r_version (d_rec de)) /\ stored (w_db w) n "c" (r_coll (d_rec de)) /\ stored (w_db w) n "D" (r_descr (d_rec de)) /\
    (exists k, r_release (d_rec de) = Some k /\ release (w_db w) n k) /\
    (d_man de = true <-> ~ automatic (w_db w) n) /\ (forall x, In x (r_files (d_rec de)) <-> lists (w_db w) n x) /\
    (forall x, In x (d_deps de) <-> needs (w_db w) n x).
  Proof.
    intros E In_ U. destruct (ask_load _ _ _ _ E) as [m [Lo A]]; [discriminate|discriminate|]. cbn [answer_to] in A. unfold q_details in A. destruct (name_exists m n) eqn:N; [|discriminate A]. injection A as ->.
    destruct (real_name_spec _ m n Lo N) as [r [G An]]. pose proof (U _ An) as Eq. rewrite Eq in *. cbn [d_name d_rec d_man d_deps]. unfold at_name. rewrite G.
    destruct (load_stored junk _ m n r Lo G) as [V [C [D R]]]. split; [reflexivity|]. split; [exact V|]. split; [exact C|]. split; [exact D|]. split; [exact R|]. split.
    - rewrite negb_true_iff, <- (load_auto junk (w_db w) m n r Lo G). destruct (r_auto r); split; congruence.
    - split; [intro x; apply (load_lists junk (w_db w) m n r x Lo G)|]. intro x. rewrite <- (load_deps junk (w_db w) m n r x Lo G).
      replace (match r_deps r with [] => [] | _ :: _ => map fst (r_deps r) end) with (map fst (r_deps r)) by (destruct (r_deps r); reflexivity). rewrite in_map_iff. split.
      + intros [[y t] [<- I]]. exists t. exact I.
      + intros [t I]. exists (x, t). split; [reflexivity|exact I].
  Qed.
  Theorem C57_build_partial w n z w' : ask (Build n) w = (Date (Some z), w') -> (forall k, answers (w_db w) k n -> k = n) ->
    (installed (w_db w) n -> build_date (w_db w) n z) /\ (~ installed (w_db w) n -> z = 0%Z).
  Proof.
    intros E U. destruct (ask_load _ _ _ _ E) as [m [Lo A]]; [discriminate|discriminate|]. cbn [answer_to] in A. unfold q_build in A. split; intro I.
    - assert (N : name_exists m n = true) by (apply (exists_answers _ m n Lo); exists n; split; [exact I|left; reflexivity]). rewrite N in A. destruct (proj2 (load_installed junk _ m n Lo) I) as [r G]. unfold at_name in A. rewrite G in A.
      destruct (load_meta junk _ m n r Lo G) as [ls [M [_ [_ [_ [_ B]]]]]]. exists ls. split; [exact M|]. injection A as Ez. rewrite Ez. exact B.
    - destruct (name_exists m n) eqn:N; [|injection A as ->; reflexivity]. destruct (real_name_spec _ m n Lo N) as [r [G An]]. pose proof (U _ An) as Eq. destruct An as [I' _]. rewrite Eq in I'. contradiction.
  Qed.

  (** *** C58 *)
  Theorem C58_number w k w' : ask Number w = (Count k, w') -> exists ns, NoDup ns /\ (forall n, In n ns <-> installed (w_db w) n) /\ k = length ns.
  Proof.
    intro E. destruct (ask_load _ _ _ _ E) as [m [Lo A]]; [discriminate|discriminate|]. cbn [answer_to] in A. injection A as ->. exists (keys (m_pkgs m)). split; [apply ssorted_NoDup, (load_keys _ _ _ Lo)|]. split.
    - intro n. rewrite <- (load_installed junk _ m n Lo). split.
      + intro I. apply in_map_iff in I as [[n' r] [<- I]]. exists r. apply (load_In junk _ _ _ _ Lo), I.
      + intros [r G]. apply mget_In in G. apply (in_map fst) in G. exact G.
    - unfold q_number, keys. rewrite map_length. reflexivity.
  Qed.
  (** how one package is shown *)
  Definition shown (d : disk) (full : bool) (n line : str) : Prop :=
    exists c v k tag, stored d n "c" c /\ stored d n "V" v /\ release d n k /\
      line = tag ++ L "(" ++ c ++ L ") " ++ n ++ L " " ++ v ++ L "-" ++ dec k /\
      (full = false -> tag = []) /\ (full = true -> automatic d n -> tag = L "AUTO: ") /\ (full = true -> ~ automatic d n -> tag = L " MAN: ").
  Theorem C58_installed w full ls w' : ask (Installed full) w = (Lines ls, w') ->
    exists ns, ssorted ns /\ (forall n, In n ns <-> installed (w_db w) n /\ (full = true \/ ~ automatic (w_db w) n)) /\ Forall2 (shown (w_db w) full) ns ls.
  Proof.
    intro E. destruct (ask_load _ _ _ _ E) as [m [Lo A]]; [discriminate|discriminate|]. cbn [answer_to] in A. injection A as ->.
    exists (keys (filter (fun p => full || negb (r_auto (snd p))) (m_pkgs m))).
    pose proof (load_keys _ _ _ Lo) as Sk.
    assert (Pr : forall n r, In (n, r) (m_pkgs m) -> mget n (m_pkgs m) = Some r) by (intros n r I; apply (load_In junk _ _ _ _ Lo), I). split; [|split].
    - clear - Sk. revert Sk. induction (m_pkgs m) as [|[n r] l IH]; intro S; [constructor|]. cbn [keys map fst] in S. inversion S as [|? ? S' F]; subst. cbn [filter]. destruct (full || negb (r_auto (snd (n, r)))); [|apply IH, S'].
      cbn [keys map fst]. constructor; [apply IH, S'|]. apply Forall_forall. intros x I. apply in_map_iff in I as [[n' r'] [<- I]]. apply filter_In in I as [I _]. rewrite Forall_forall in F. apply F. apply (in_map fst) in I. exact I.
    - intro n. split.
      + intro I. apply in_map_iff in I as [[n' r] [<- I]]. apply filter_In in I as [I B]. cbn [fst snd] in *. apply Pr in I. split; [apply (load_installed junk _ m n' Lo); exists r; exact I|].
        apply orb_true_iff in B as [B|B]; [left; exact B|right]. rewrite <- (load_auto junk (w_db w) m n' r Lo I). destruct (r_auto r); [discriminate B|discriminate].
      + intros [I B]. destruct (proj2 (load_installed junk _ m n Lo) I) as [r G]. apply in_map_iff. exists (n, r). split; [reflexivity|]. apply filter_In. split; [apply mget_In, G|]. cbn [snd]. apply orb_true_iff. destruct B as [B|B]; [left; exact B|right].
        rewrite <- (load_auto junk (w_db w) m n r Lo G) in B. destruct (r_auto r); [contradiction B; reflexivity|reflexivity].
    - unfold q_installed. assert (H : forall n r, In (n, r) (m_pkgs m) -> (stored (w_db w) n "c" (r_coll r) /\ stored (w_db w) n "V" (r_version r) /\ exists k, r_release r = Some k /\ release (w_db w) n k) /\ (r_auto r = true <-> automatic (w_db w) n)).
      { intros n r I. apply Pr in I. destruct (load_stored junk _ m n r Lo I) as [V [C [_ R]]]. split; [split; [exact C|split; [exact V|exact R]]|]. apply (load_auto junk (w_db w) m n r Lo I). }
      revert H. clear. induction (m_pkgs m) as [|[n r] l IH]; intro H; [constructor|]. cbn [filter flat_map fst snd]. assert (IH' := IH (fun n r I => H n r (or_intror I))). clear IH.
      destruct (H n r (or_introl eq_refl)) as [[C [V [k [Rk R]]]] Au]. unfold installed_line, version_of. rewrite Rk. destruct full; cbn [orb].
      + cbn [keys map fst app]. constructor; [|exact IH']. exists (r_coll r), (r_version r), k, (if r_auto r then L "AUTO: " else L " MAN: "). split; [exact C|]. split; [exact V|]. split; [exact R|].
        split; [reflexivity|]. split; [discriminate|]. destruct (r_auto r); split; intros _ X; try reflexivity; [destruct X; apply Au; reflexivity|apply Au in X; discriminate X].
      + destruct (r_auto r); cbn [negb app keys map fst]; [exact IH'|]. constructor; [|exact IH']. exists (r_coll r), (r_version r), k, []. split; [exact C|]. split; [exact V|]. split; [exact R|].
        split; [reflexivity|]. split; [reflexivity|]. split; discriminate.
  Qed.

  (** *** C59 *)
  Theorem C59_read_only q w : tree (w_fs w) -> w_db (snd (ask q w)) = w_db w /\ forall p, ~ In p meta_comps -> fget (w_fs (snd (ask q w))) p = fget (w_fs w) p.
  Proof. intro T. unfold pkginfo_run. cbn [snd w_db w_fs]. split; [reflexivity|]. apply cleanup_spec, T. Qed.
  (** asking again gives the same answer *)
  Theorem C59_same_answer q q' w : fst (ask q (snd (ask q' w))) = fst (ask q w).
  Proof. reflexivity. Qed.

  (** *** C60 *)
  Lemma provides_spec lib r : provides lib r = true <-> exists x, In x (r_files r) /\ occurs (slash :: lib) x.
  Proof.
    unfold provides. rewrite existsb_exists. split; intros [x [I H]]; exists x; (split; [exact I|]).
    - destruct (sfind (slash :: lib) x) as [k|] eqn:F; [|discriminate H]. apply sfind_Some in F as [F _]. exists (firstn k x), (skipn (k + length (slash :: lib)) x). exact F.
    - destruct (sfind (slash :: lib) x) as [k|] eqn:F; [reflexivity|]. apply sfind_None in F. contradiction.
  Qed.
  Theorem C60_libraries w n ls w' : ask (Libraries n) w = (Lines ls, w') -> installed (w_db w) n ->
    ssorted ls /\ forall lib, In lib ls <-> exists x, lists (w_db w) n x /\ In lib (libs (slash :: x)).
  Proof.
    intros E I. destruct (ask_load _ _ _ _ E) as [m [Lo A]]; [discriminate|discriminate|]. cbn [answer_to] in A. unfold q_libraries in A.
    assert (N : name_exists m n = true) by (apply (exists_answers _ m n Lo); exists n; split; [exact I|left; reflexivity]). rewrite N in A. injection A as ->.
    destruct (proj2 (load_installed junk _ m n Lo) I) as [r G]. unfold at_name. rewrite G. split; [apply set_of_sorted|]. intro lib. rewrite set_of_In, in_flat_map.
    split; intros [x [H1 H2]]; exists x; (split; [apply (load_lists junk (w_db w) m n r x Lo G), H1|exact H2]).
  Qed.
  (** the packages reported: those that record a file in whose name a slash and the library name occur *)
  Theorem C60_runtime w n ps w' : ask (Runtime n) w = (Lines ps, w') -> installed (w_db w) n ->
    ssorted ps /\ forall p, In p ps <-> installed (w_db w) p /\ exists x lib y, lists (w_db w) n x /\ In lib (libs (slash :: x)) /\ lists (w_db w) p y /\ occurs (slash :: lib) y.
  Proof.
    intros E I. destruct (ask_load _ _ _ _ E) as [m [Lo A]]; [discriminate|discriminate|]. cbn [answer_to] in A. injection A as ->. unfold q_runtime. split; [apply set_of_sorted|].
    assert (N : name_exists m n = true) by (apply (exists_answers _ m n Lo); exists n; split; [exact I|left; reflexivity]).
    destruct (proj2 (load_installed junk _ m n Lo) I) as [r G].
    intro p. rewrite set_of_In, in_flat_map. unfold q_libraries. rewrite N. unfold at_name. rewrite G. split.
    - intros [lib [Il Ip]]. apply set_of_In, in_flat_map in Il as [x [Ix Il]]. apply in_map_iff in Ip as [[p' rp] [<- Ip]]. apply filter_In in Ip as [Ip Pv]. cbn [fst snd] in *. apply (load_In junk _ _ _ _ Lo) in Ip.
      split; [apply (load_installed junk _ m p' Lo); exists rp; exact Ip|]. apply provides_spec in Pv as [y [Iy Oc]]. exists x, lib, y.
      split; [apply (load_lists junk (w_db w) m n r x Lo G), Ix|]. split; [exact Il|]. split; [apply (load_lists junk (w_db w) m p' rp y Lo Ip), Iy|exact Oc].
    - intros [Ip [x [lib [y [Lx [Il [Ly Oc]]]]]]]. destruct (proj2 (load_installed junk _ m p Lo) Ip) as [rp Gp]. exists lib. split; [apply set_of_In, in_flat_map; exists x; split; [apply (load_lists junk (w_db w) m n r x Lo G), Lx|exact Il]|].
      apply in_map_iff. exists (p, rp). split; [reflexivity|]. apply filter_In. split; [apply mget_In, Gp|]. cbn [snd]. apply provides_spec. exists y. split; [apply (load_lists junk (w_db w) m p rp y Lo Gp), Ly|exact Oc].
  Qed.
  (** exact when a library name occurs behind a slash only as the last component of a recorded file *)
  Theorem C60_exact_partial w n ps w' : ask (Runtime n) w = (Lines ps, w') -> installed (w_db w) n ->
    (forall x lib p y, lists (w_db w) n x -> In lib (libs (slash :: x)) -> lists (w_db w) p y -> occurs (slash :: lib) y -> exists dir, y = dir ++ slash :: lib) ->
    forall p, In p ps <-> installed (w_db w) p /\ exists x lib dir, lists (w_db w) n x /\ In lib (libs (slash :: x)) /\ lists (w_db w) p (dir ++ slash :: lib).
  Proof.
    intros E I H p. destruct (C60_runtime w n ps w' E I) as [_ R]. rewrite R. split; intros [Ip [x [lib [y [A [B C]]]]]]; (split; [exact Ip|]); exists x, lib.
    - destruct C as [C Oc]. destruct (H x lib p y A B C Oc) as [dir ->]. exists dir. auto.
    - exists (y ++ slash :: lib). split; [exact A|]. split; [exact B|]. split; [exact C|]. exists y, []. rewrite app_nil_r. reflexivity.
  Qed.
End Queries.

(** ** a database of three packages *)
Definition q_db : disk :=
  [(L "app", [(L "META", text_of [L "Napp"; L "V2.1"; L "r4"; L "ccli"; L "B1700000000"; L "Dan application"; L "Aprog"; L "Rlib1700000000"; L "d1"]); (L "files", text_of [L "usr/"; L "usr/bin/"; L "usr/bin/app"])]);
   (L "lib", [(L "META", text_of [L "Nlib"; L "V1"; L "cbase"]); (L "files", text_of [L "usr/"; L "usr/lib/"; L "usr/lib/libz.so.1"])]);
   (L "lib10", [(L "META", text_of [L "Nlib10"; L "V10"; L "cbase-extra"; L "Aapp"]); (L "files", text_of [L "usr/"; L "usr/lib/"; L "usr/lib/libz.so.10"])])].
Definition q_world : world := World f_empty q_db.
Definition q_libs (p : str) : list str := if seqb p (L "/usr/bin/app") then [L "libz.so.1"] else [].
Definition sub (p s : str) : option bool := Some (match sfind p s with Some _ => true | None => false end).
Notation asked := (pkginfo_run false sub (fun _ => true) q_libs rt).
Lemma q_installed_b n : installedb q_db n = true -> installed q_db n.
Proof. unfold installedb, installed. intro H. apply andb_true_iff in H as [A B]. split; [exact (proj1 (nondot_spec n) A)|]. destruct (mget n q_db); congruence. Qed.
Example C56_witness : fst (asked (Owner (L "/usr/lib/")) q_world) =
  Rows [(L "base", L "lib", L "usr/lib/"); (L "base", L "lib", L "usr/lib/libz.so.1"); (L "base-extra", L "lib10", L "usr/lib/"); (L "base-extra", L "lib10", L "usr/lib/libz.so.10")].
Proof. vm_compute. reflexivity. Qed.
Example C56_table_witness : show_owner (L "pkginfo") [(L "base", L "lib", L "usr/lib/"); (L "base-extra", L "lib10", L "usr/lib/")] =
  [L "Collection  Package  File"; L "base        lib      usr/lib/"; L "base-extra  lib10    usr/lib/"].
Proof. vm_compute. reflexivity. Qed.
Example C57_witness : fst (asked (ListOf (L "prog")) q_world) = Lines [L "usr/"; L "usr/bin/"; L "usr/bin/app"] /\ fst (asked (ListOf (L "none")) q_world) = Refused.
Proof. split; vm_compute; reflexivity. Qed.
Example C57_details_witness : exists de, fst (asked (Details (L "lib")) q_world) = Detail (Some de) /\ d_name de = L "lib" /\ d_man de = true.
Proof. eexists. split; [vm_compute; reflexivity|]. split; vm_compute; reflexivity. Qed.
Example C58_witness : fst (asked (Installed true) q_world) = Lines [L "AUTO: (cli) app 2.1-4"; L " MAN: (base) lib 1-1"; L " MAN: (base-extra) lib10 10-1"] /\
  fst (asked (Installed false) q_world) = Lines [L "(base) lib 1-1"; L "(base-extra) lib10 10-1"] /\ fst (asked Number q_world) = Count 3.
Proof. split; [|split]; vm_compute; reflexivity. Qed.
(** the hypotheses of C60_exact_partial are met by the first two of the three *)
Example C60_witness : let w := World f_empty (mdel (L "lib10") q_db) in fst (asked (Runtime (L "app")) w) = Lines [L "lib"] /\ installed (w_db w) (L "app") /\
  (forall x lib p y, lists (w_db w) (L "app") x -> In lib (q_libs (slash :: x)) -> lists (w_db w) p y -> occurs (slash :: lib) y -> exists dir, y = dir ++ slash :: lib).
Proof.
  cbv zeta. split; [vm_compute; reflexivity|]. split; [split; [apply q_installed_b; reflexivity|discriminate]|].
  intros x lib p y _ Il (dir & c & Gd & Gc & Iy & Ny) Oc. assert (El : lib = L "libz.so.1") by (unfold q_libs in Il; destruct (seqb (slash :: x) (L "/usr/bin/app")); [destruct Il as [<-|[]]; reflexivity|destruct Il]). subst lib. apply mget_In in Gd.
  assert (Iy' : In y [L "usr/"; L "usr/bin/"; L "usr/bin/app"; L "usr/lib/"; L "usr/lib/libz.so.1"]).
  { destruct Gd as [E|[E|[]]]; apply pair_equal_spec in E; destruct E as [_ <-]; vm_compute in Gc; injection Gc as <-; vm_compute in Iy; repeat (destruct Iy as [<-|Iy]; [first [destruct (Ny eq_refl)|apply smem_In; vm_compute; reflexivity]|]); destruct Iy. }
  repeat (destruct Iy' as [<-|Iy']; [first [exfalso; refine (proj1 (sfind_None _ _) _ Oc); vm_compute; reflexivity|exists (L "usr/lib"); reflexivity]|]). destruct Iy'.
Qed.
(** REFUTED: the alias of a package whose name sorts later hides an installed package: asking for the files of app lists those of lib10 *)
Theorem C57_hidden_refuted : installed q_db (L "app") /\ lists q_db (L "app") (L "usr/bin/app") /\ exists ls, fst (asked (ListOf (L "app")) q_world) = Lines ls /\ ~ In (L "usr/bin/app") ls.
Proof.
  split; [apply q_installed_b; reflexivity|]. split.
  - eexists. eexists. split; [vm_compute; reflexivity|]. split; [vm_compute; reflexivity|]. split; [vm_compute; auto|discriminate].
  - eexists. split; [vm_compute; reflexivity|]. intro I. repeat (destruct I as [I|I]; [discriminate I|]). destruct I.
Qed.
(** REFUTED: asked by alias, -d takes "Man. installed" and the dependencies from an empty record: an automatic package is shown as chosen, without
    dependencies; -b shows an uninitialised value *)
Theorem C57_alias_refuted : answers q_db (L "app") (L "prog") /\ automatic q_db (L "app") /\ needs q_db (L "app") (L "lib") /\ build_date q_db (L "app") 1700000000 /\
  (exists de, fst (asked (Details (L "prog")) q_world) = Detail (Some de) /\ d_name de = L "app" /\ d_man de = true /\ d_deps de = []) /\
  fst (asked (Build (L "prog")) q_world) = Date None /\ fst (asked (Libraries (L "prog")) q_world) = Lines [].
Proof.
  assert (M : forall l, meta_hasb q_db (L "app") l = true -> meta_has q_db (L "app") l) by (intros l H; apply has_meta, H).
  split; [split; [apply q_installed_b; reflexivity|right; apply M; vm_compute; reflexivity]|]. split; [apply M; vm_compute; reflexivity|]. split; [exists (L "Rlib1700000000"); split; [apply M; vm_compute; reflexivity|left; exists (L "1700000000"); split; reflexivity]|]. split; [|split; [|split; vm_compute; reflexivity]].
  - exists [L "Napp"; L "V2.1"; L "r4"; L "ccli"; L "B1700000000"; L "Dan application"; L "Aprog"; L "Rlib1700000000"; L "d1"]. split.
    + eexists. split; [vm_compute; reflexivity|]. vm_compute. reflexivity.
    + replace (Some 1700000000%Z) with (Some (epoch (L "1700000000"))) by (vm_compute; reflexivity). apply (field_line "B" _ (fun v => Some (epoch v))); [cbn; tauto|]. intros w I. left. repeat (destruct I as [I|I]; [try discriminate I|]); [injection I as <-; reflexivity|destruct I].
  - eexists. split; [vm_compute; reflexivity|]. split; [|split]; vm_compute; reflexivity.
Qed.
(** REFUTED: libz.so.10 is taken for libz.so.1 *)
Theorem C60_prefix_refuted : fst (asked (Libraries (L "app")) (World f_empty (mdel (L "lib10") q_db))) = Lines [L "libz.so.1"] /\
  exists db, (forall y, lists db (L "lib10") y -> ~ exists dir, y = dir ++ slash :: L "libz.so.1") /\
    fst (asked (Runtime (L "app")) (World f_empty db)) = Lines [L "lib"; L "lib10"].
Proof.
  split; [vm_compute; reflexivity|]. exists q_db. split; [|vm_compute; reflexivity].
  intros y [dir [c [G [F [I _]]]]] [u E]. vm_compute in G. injection G as <-. vm_compute in F. injection F as <-. apply (f_equal (@rev ascii)) in E. rewrite rev_app_distr in E.
  vm_compute in I. repeat (destruct I as [<-|I]; [cbn in E; discriminate E|]). destruct I.
Qed.
