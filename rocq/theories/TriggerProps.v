(** C81: the maintenance programs (ldconfig, install-info, ...) run when a tool ends. *)
From Verif Require Import Base BaseProofs StrModel StrSpec StrProofs RulesModel RulesSpec RulesProofs FsModel FsSpec MetaModel DbModel DbSpec DbFacts DbRun DbInv DbProps TriggerModel ManyRun DbExamples.
From Coq Require Import Lia.

(** ** specification *)
(** an event, the program that serves it, the file that shows that program is usable, and its arguments for the file [x] *)
Inductive serves (root x : str) : event -> str -> str -> str -> Prop :=
| s_ldconfig : serves root x LDCONF (L "usr/bin/ldconfig") (L "etc/ld.so.conf") (L "-r " ++ root)
| s_info : serves root x INFO (L "usr/bin/install-info") (L "usr/bin/install-info") (L "--info-dir=usr/share/info " ++ x)
| s_icons : serves root x ICONS (L "usr/bin/gtk-update-icon-cache") (L "usr/bin/gtk-update-icon-cache") (L "-f -t " ++ x)
| s_scale : serves root x FONTS (L "usr/bin/mkfontscale") (L "usr/bin/mkfontscale") x
| s_fontdir : serves root x FONTS (L "usr/bin/mkfontdir") (L "usr/bin/mkfontdir") x
| s_fccache : serves root x FONTS (L "usr/bin/fc-cache") (L "usr/bin/fc-cache") x
| s_schemas : serves root x SCHEMAS (L "usr/bin/glib-compile-schemas") (L "usr/bin/glib-compile-schemas") x
| s_desktop : serves root x DESKTOP_DB (L "usr/bin/update-desktop-database") (L "usr/bin/update-desktop-database") (L "-q " ++ x)
| s_mime : serves root x MIME_DB (L "usr/bin/update-mime-database") (L "usr/bin/update-mime-database") (L "-n " ++ x)
| s_pixbuf : serves root x QUERY_PIXBUF (L "usr/bin/gdk-pixbuf-query-loaders") (L "usr/bin/gdk-pixbuf-query-loaders") (L "--update-cache")
| s_gio : serves root x GIO_QUERY (L "usr/bin/gio-querymodules") (L "usr/bin/gio-querymodules") (L "usr/lib/gio/modules")
| s_imod3 : serves root x QUERY_IMOD3 (L "usr/bin/gtk-query-immodules-3.0") (L "usr/bin/gtk-query-immodules-3.0") (L "--update-cache")
| s_imod2 : serves root x QUERY_IMOD2 (L "usr/bin/gtk-query-immodules-2.0") (L "usr/bin/gtk-query-immodules-2.0") (L "--update-cache").
(** the rules ask for [e] because of the file [f] (see C50 for how far this is from what a user expects) *)
Definition due (re : str -> str -> option bool) (rules : list rule) (f : str) (e : event) : Prop :=
  (exists r, script_last_match re rules f r /\ r_event r = e /\ r_action r = true) \/
  (script_no_match re rules f /\ verdict re INSTALL rules f true /\ e = first_script_event rules).

(** ** proofs *)
Lemma pins_In x s y : In y (pins x s) <-> y = x \/ In y s.
Proof.
  assert (Q : forall a b, pair_ltb a b = false -> pair_ltb b a = false -> a = b).
  { intros [a e] [b k]. unfold pair_ltb. cbn [fst snd]. destruct (sltb a b) eqn:E1; [discriminate|]. destruct (sltb b a) eqn:E2; [discriminate|].
    intros H K. assert (a = b) as -> by (destruct (sltb_false_cases a b E1) as [H0|H0]; [exact H0|congruence]). apply Nat.ltb_ge in H. apply Nat.ltb_ge in K. f_equal. destruct e, k; try reflexivity; cbn in H, K; lia. }
  induction s as [|z s IH]; cbn [pins].
  - cbn. split; [intros [H|[]]; auto|intros [H|[]]; auto].
  - destruct (pair_ltb x z) eqn:E1; [cbn; split; intros [H|H]; auto|]. destruct (pair_ltb z x) eqn:E2.
    + cbn. rewrite IH. tauto.
    + rewrite (Q x z E1 E2). cbn. split; [auto|]. intros [->|[H|H]]; auto.
Qed.
Lemma pset_In l y : In y (pset l) <-> In y l.
Proof.
  unfold pset. assert (G : forall s, In y (fold_left (fun s x => pins x s) l s) <-> In y l \/ In y s).
  { induction l as [|x l IH]; intro s; cbn [fold_left]; [cbn; tauto|]. rewrite IH, pins_In. cbn. split; intros [H|H]; auto; [destruct H; auto|destruct H as [H|H]; auto]. }
  rewrite G. cbn. tauto.
Qed.
Lemma pair_trans a b c : pair_ltb a b = true -> pair_ltb b c = true -> pair_ltb a c = true.
Proof.
  destruct a as [a e], b as [b k], c as [c l]. unfold pair_ltb. cbn [fst snd].
  destruct (sltb a b) eqn:E1.
  - intros _. destruct (sltb b c) eqn:E2; [intros _; rewrite (sltb_trans a b c E1 E2); reflexivity|]. destruct (sltb c b) eqn:E3; [discriminate|].
    intros _. destruct (sltb_false_cases b c E2) as [<-|H]; [rewrite E1; reflexivity|congruence].
  - destruct (sltb b a) eqn:E2; [discriminate|]. intro H. destruct (sltb_false_cases a b E1) as [<-|H0]; [|congruence].
    destruct (sltb a c); [reflexivity|]. destruct (sltb c a); [discriminate|]. intro K. apply Nat.ltb_lt in H. apply Nat.ltb_lt in K. apply Nat.ltb_lt. lia.
Qed.
Lemma pair_irrefl a : pair_ltb a a = false.
Proof. destruct a as [a e]. unfold pair_ltb. cbn [fst snd]. rewrite sltb_irrefl. apply Nat.ltb_irrefl. Qed.
Inductive psorted : list (str * event) -> Prop :=
| ps_nil : psorted []
| ps_cons x s : psorted s -> (forall y, In y s -> pair_ltb x y = true) -> psorted (x :: s).
Lemma pins_sorted x s : psorted s -> psorted (pins x s).
Proof.
  intro H. induction H as [|y s H IH B]; cbn [pins]; [constructor; [constructor|intros y []]|].
  destruct (pair_ltb x y) eqn:E1.
  - constructor; [constructor; assumption|]. intros z [<-|Z]; [exact E1|]. exact (pair_trans x y z E1 (B z Z)).
  - destruct (pair_ltb y x) eqn:E2; [|constructor; assumption]. constructor; [exact IH|]. intros z Z. apply (proj1 (pins_In x s z)) in Z. destruct Z as [->|Z]; [exact E2|exact (B z Z)].
Qed.
Lemma pset_sorted l : psorted (pset l).
Proof.
  unfold pset. assert (G : forall s, psorted s -> psorted (fold_left (fun s x => pins x s) l s)).
  { induction l as [|x l IH]; intros s H; [exact H|]. cbn [fold_left]. apply IH, pins_sorted, H. }
  apply G. constructor.
Qed.
Lemma jobs_serves root e x needed prog text : In (needed, prog, text) (jobs root e x) <-> serves root x e prog needed text.
Proof.
  split.
  - destruct e; cbn [jobs]; intro H; repeat (destruct H as [H|H]; [injection H as <- <- <-; constructor|]); destruct H.
  - intro H. destruct H; cbn [jobs]; [left; reflexivity|left; reflexivity|left; reflexivity|left; reflexivity|right; left; reflexivity|right; right; left; reflexivity|left; reflexivity|left; reflexivity|left; reflexivity|left; reflexivity|left; reflexivity|left; reflexivity|left; reflexivity].
Qed.
Lemma run_jobs_In root f post p args : In (p, args) (run_jobs root f post) <->
  exists x e prog needed text, In (x, e) post /\ serves root x e prog needed text /\ lstat f (root ++ needed) <> None /\
    p = root ++ prog /\ tokens (eq " "%char) text args.
Proof.
  unfold run_jobs. rewrite in_flat_map. split.
  - intros [[x e] [I H]]. apply (proj1 (pset_In _ _)) in I. apply in_flat_map in H as [[[needed prog] text] [J H]]. cbn [fst snd] in J.
    apply (proj1 (jobs_serves root e x needed prog text)) in J.
    unfold exists_file in H. destruct (lstat f (root ++ needed)) eqn:Ex; [|destruct H]. destruct H as [H|[]].
    injection H as <- <-. exists x, e, prog, needed, text. split; [exact I|]. split; [exact J|]. split; [congruence|]. split; [reflexivity|]. exact (split_char_tokens text " "%char).
  - intros (x & e & prog & needed & text & I & S & Ex & -> & T). exists (x, e). split; [apply (proj2 (pset_In _ _)), I|]. apply in_flat_map. exists (needed, prog, text).
    split; [cbn [fst snd]; apply (proj2 (jobs_serves root e x needed prog text)), S|].
    unfold exists_file. destruct (lstat f (root ++ needed)); [|contradiction]. left. f_equal. apply (tokens_det (eq " "%char) text); [exact (split_char_tokens text " "%char)|exact T].
Qed.
Section Props.
  Variable junk : bool.
  Variable machine : str.
  Variable re : str -> str -> option bool.
  Variable sh : str -> fs -> fs * bool.
  Variable root : str.
  Notation session := (session junk machine re sh root).
  Notation programs := (programs junk machine re sh root).
  Lemma posts_all fr sr : forall files ins non post, install_loop re fr sr files = Some (ins, non, post) -> posts re fr sr files = post.
  Proof.
    induction files as [|f fs IH]; intros ins non post H; cbn [install_loop posts] in *; [congruence|].
    destruct (match first_match re fr f with BadPattern => None | NoRule => Some true | Decided r => Some (r_action r) end) as [inst|]; [|discriminate].
    destruct (script_visit re sr f LDCONF inst) as [[ev trig]|]; [|discriminate]. destruct (install_loop re fr sr fs) as [[[i n] q]|]; [|discriminate].
    rewrite (IH i n q eq_refl). destruct trig; cbn [app]; congruence.
  Qed.
  (** what a package that was added has scheduled *)
  Lemma scheduled_ok o conf a w m name w' m' : add_run junk machine re sh root o conf a w m = Ret name w' m' ->
    exists rules, read_rules_file conf = inl rules /\
      forall x e, In (x, e) (scheduled junk machine re root (o_upgrade o) conf a m) <-> exists f, ships a f /\ due re rules f e /\ x = (if event_eqb e LDCONF then [] else f).
  Proof.
    intro E. apply add_run_ret in E as (info & rules & ins & non & post & w1 & w2 & m2 & kl & w3 & m3 & w5 & m5 & E1 & E2 & E3 & E4 & _).
    exists rules. split; [exact E2|]. intros x e. unfold scheduled. rewrite E1, E2, E3, Bool.eqb_reflx. rewrite (posts_all _ _ _ _ _ _ E4).
    pose proof (post_install_spec re rules (r_files info) ins non post E4 x e) as P. rewrite P. apply open_name in E1 as [_ Sh]. split.
    - intros [f [If [Ex D]]]. exists f. split; [apply Sh, If|]. split; [exact D|exact Ex].
    - intros [f [If [D Ex]]]. exists f. split; [apply Sh, If|]. split; [exact Ex|exact D].
  Qed.
  (** [p] with [args] is to be run because of the archives [as_] *)
  Definition called (rules : list rule) (as_ : list archive) (f : fs) (p : str) (args : list str) : Prop :=
    exists a y e prog needed text, In a as_ /\ ships a y /\ due re rules y e /\ serves root y e prog needed text /\
      lstat f (root ++ needed) <> None /\ p = root ++ prog /\ tokens (eq " "%char) text args.
  Lemma serves_ld y e prog needed text : serves root (if event_eqb e LDCONF then [] else y) e prog needed text <-> serves root y e prog needed text.
  Proof. split; intro H; inversion H; subst; cbn [event_eqb event_id Nat.eqb] in *; try constructor; exact H. Qed.
  (** pkgadd: after a successful add or upgrade, exactly the programs due for the files of the archive *)
  Theorem C81_add : forall o sd conf a w w', session (Add o sd conf a) w = (None, w') ->
    exists rules, read_rules_file conf = inl rules /\ forall p args, In (p, args) (programs (Add o sd conf a) w) <-> called rules [a] (w_fs w') p args.
  Proof.
    intros o sd conf a w w' E. pose proof E as E0. apply session_add_none in E as [m [name [m' [Lo E]]]]. destruct (scheduled_ok _ _ _ _ _ _ _ _ E) as [rules [R Sc]].
    exists rules. split; [exact R|]. intros p args. unfold TriggerModel.programs. rewrite E0. cbn [snd w_db]. rewrite Lo. rewrite run_jobs_In. unfold called. split.
    - intros (x & e & prog & needed & text & I & S & Ex & -> & T). apply (proj1 (Sc x e)) in I. destruct I as [f [Sf [D ->]]].
      exists a, f, e, prog, needed, text. split; [left; reflexivity|]. split; [exact Sf|]. split; [exact D|]. split; [apply (proj1 (serves_ld f e prog needed text)), S|]. auto.
    - intros (a' & f & e & prog & needed & text & [<-|[]] & Sf & D & S & Ex & -> & T). exists (if event_eqb e LDCONF then [] else f), e, prog, needed, text.
      split; [apply (proj2 (Sc _ e)); exists f; auto|]. split; [apply (proj2 (serves_ld f e prog needed text)), S|]. auto.
  Qed.
  Lemma scheduled_all_ok conf force scripts : forall l w m w' m', run_all junk machine re sh root force scripts conf l w m = Ret tt w' m' ->
    l = [] \/ exists rules, read_rules_file conf = inl rules /\
      forall x e, In (x, e) (scheduled_all junk machine re sh root force scripts conf l w m) <->
        exists a f, In a (map snd l) /\ ships a f /\ due re rules f e /\ x = (if event_eqb e LDCONF then [] else f).
  Proof.
    induction l as [|[sd a] l IH]; intros w m w' m' E; [left; reflexivity|]. right. cbn [run_all] in E.
    destruct (add_run junk machine re sh root (Opts force (upgrade_flag junk machine root a m) scripts) conf a w (set_dep sd m)) as [nm w1 m1|] eqn:A; [|discriminate E].
    destruct (scheduled_ok _ _ _ _ _ _ _ _ A) as [rules [R Sc]]. cbn [o_upgrade] in Sc. exists rules. split; [exact R|]. intros x e. cbn [scheduled_all]. rewrite A, in_app_iff, Sc. cbn [map].
    destruct (IH w1 m1 w' m' E) as [->|[rules' [R' Sc']]].
    - cbn [scheduled_all map]. split.
      + intros [[f F]|[]]. exists a, f. split; [left; reflexivity|exact F].
      + intros (b & f & [<-|[]] & F). left. exists f. exact F.
    - rewrite R in R'. injection R' as <-. rewrite Sc'. split.
      + intros [[f F]|(b & f & Ib & F)]; [exists a, f; split; [left; reflexivity|exact F]|exists b, f; split; [right; exact Ib|exact F]].
      + intros (b & f & [<-|Ib] & F); [left; exists f; exact F|right; exists b, f; split; [exact Ib|exact F]].
  Qed.
  Lemma run_jobs_nil f : run_jobs root f [] = [].
  Proof. reflexivity. Qed.
  (** cards install, cards upgrade: one pass at the end, for the files of all the archives *)
  Theorem C81_many : forall force scripts conf l obs w w', session (Many force scripts conf l obs) w = (None, w') -> l <> [] ->
    exists rules, read_rules_file conf = inl rules /\ forall p args, In (p, args) (programs (Many force scripts conf l obs) w) <-> called rules (map snd l) (w_fs w') p args.
  Proof.
    intros force scripts conf l obs w w' E Nl. pose proof E as E0. unfold DbModel.session in E. cbn [w_db w_fs] in E.
    destruct (load junk (w_db w)) as [m| |] eqn:Lo; [|discriminate E|discriminate E].
    destruct (run_all junk machine re sh root force scripts conf l (World (cleanup_meta (w_fs w) root) (w_db w)) m) as [u w1 m1|] eqn:Ra; [|discriminate E]. destruct u.
    destruct (scheduled_all_ok _ _ _ _ _ _ _ _ Ra) as [->|[rules [R Sc]]]; [contradiction|].
    exists rules. split; [exact R|]. intros p args. unfold TriggerModel.programs. rewrite E0. cbn [snd w_db]. rewrite Lo. rewrite run_jobs_In. unfold called. split.
    - intros (x & e & prog & needed & text & I & S & Ex & -> & T). apply (proj1 (Sc x e)) in I. destruct I as (a & f & Ia & Sf & D & ->).
      exists a, f, e, prog, needed, text. split; [exact Ia|]. split; [exact Sf|]. split; [exact D|]. split; [apply (proj1 (serves_ld f e prog needed text)), S|]. auto.
    - intros (a & f & e & prog & needed & text & Ia & Sf & D & S & Ex & -> & T). exists (if event_eqb e LDCONF then [] else f), e, prog, needed, text.
      split; [apply (proj2 (Sc _ e)); exists a, f; auto|]. split; [apply (proj2 (serves_ld f e prog needed text)), S|]. auto.
  Qed.
  (** every program run belongs to the root the tool works on *)
  Theorem C81_in_root : forall x w p args, In (p, args) (programs x w) -> exists q, p = root ++ L "usr/bin/" ++ q.
  Proof.
    intros x w p args H. unfold TriggerModel.programs in H. apply (proj1 (run_jobs_In _ _ _ _ _)) in H. destruct H as (y & e & prog & needed & text & _ & S & _ & -> & _).
    inversion S; subst; eexists; reflexivity.
  Qed.
  Lemma posts_ld fr sr x : forall files, In (x, LDCONF) (posts re fr sr files) -> x = [].
  Proof.
    induction files as [|f fs IH]; cbn [posts]; [intros []|].
    destruct (match first_match re fr f with BadPattern => None | NoRule => Some true | Decided r => Some (r_action r) end) as [inst|]; [|intros []].
    destruct (script_visit re sr f LDCONF inst) as [[ev trig]|]; [|intros []]. intro H. apply in_app_iff in H as [H|H]; [|exact (IH H)].
    destruct trig; [|destruct H]. destruct H as [H|[]]. injection H as H E. subst ev. cbn in H. congruence.
  Qed.
  Lemma scheduled_ld x u conf a m : In (x, LDCONF) (scheduled junk machine re root u conf a m) -> x = [].
  Proof.
    unfold scheduled. destruct (open_archive junk machine root a) as [[n i]| |]; [|intros []|intros []]. destruct (read_rules_file conf); [|intros []].
    destruct (Bool.eqb _ _); [apply posts_ld|intros []].
  Qed.
  Lemma scheduled_all_ld x force scripts conf : forall l w m, In (x, LDCONF) (scheduled_all junk machine re sh root force scripts conf l w m) -> x = [].
  Proof.
    induction l as [|[sd a] l IH]; intros w m H; [destruct H|]. cbn [scheduled_all] in H. apply in_app_iff in H as [H|H]; [exact (scheduled_ld _ _ _ _ _ H)|].
    destruct (add_run _ _ _ _ _ _ _ _ _ _) as [? w1 m1|]; [exact (IH w1 m1 H)|destruct H].
  Qed.
  Definition is_ldconfig (j : str * list str) : bool := seqb (fst j) (root ++ L "usr/bin/ldconfig").
  Definition one_job (f : fs) (q : str * event) : list (str * list str) :=
    flat_map (fun j => let '(needed, prog, text) := j in
      if exists_file f (root ++ needed) then [(root ++ prog, split_char_list text " "%char)] else []) (jobs root (snd q) (fst q)).
  Lemma run_jobs_eq f post : run_jobs root f post = flat_map (one_job f) (pset post).
  Proof. reflexivity. Qed.
  Lemma one_job_other f q : snd q <> LDCONF -> filter is_ldconfig (one_job f q) = [].
  Proof.
    intros Nq. destruct (filter is_ldconfig (one_job f q)) as [|j t] eqn:E; [reflexivity|]. exfalso. assert (I : In j (j :: t)) by (left; reflexivity). rewrite <- E in I. clear E. apply filter_In in I as [I K].
    unfold one_job in I. apply in_flat_map in I as [[[needed prog] text] [J H]]. destruct (exists_file f (root ++ needed)); [|destruct H]. destruct H as [<-|[]]. unfold is_ldconfig in K. cbn [fst] in K. apply seqb_eq in K. apply app_inv_head in K. subst prog.
    apply (proj1 (jobs_serves root (snd q) (fst q) needed _ text)) in J. inversion J; congruence.
  Qed.
  Lemma jobs_other f s : (forall q, In q s -> snd q <> LDCONF) -> filter is_ldconfig (flat_map (one_job f) s) = [].
  Proof.
    induction s as [|q s IH]; intro Z; [reflexivity|]. cbn [flat_map]. rewrite filter_app, (one_job_other f q), IH; [reflexivity|intros z I; apply Z; right; exact I|apply Z; left; reflexivity].
  Qed.
  Lemma jobs_ld f s : psorted s -> (forall y, In (y, LDCONF) s -> y = []) -> length (filter is_ldconfig (flat_map (one_job f) s)) <= 1.
  Proof.
    intro Ps. induction Ps as [|q s Ps IH B]; intro Ld; [cbn; lia|]. cbn [flat_map]. rewrite filter_app, app_length.
    assert (Ld2 : forall y, In (y, LDCONF) s -> y = []) by (intros y H; apply Ld; right; exact H). specialize (IH Ld2).
    destruct q as [y e]. destruct (event_eqb e LDCONF) eqn:Ee.
    - assert (e = LDCONF) as -> by (destruct e; first [reflexivity|discriminate Ee]). assert (y = []) as -> by (apply Ld; left; reflexivity).
      rewrite (jobs_other f s).
      + cbn [length]. unfold one_job. cbn [jobs flat_map fst snd]. destruct (exists_file f (root ++ L "etc/ld.so.conf")); cbn [app filter]; [|cbn; lia].
        destruct (is_ldconfig _); cbn; lia.
      + intros [z k] I K. cbn in K. subst k. assert (z = []) as -> by (apply Ld2, I). specialize (B _ I). rewrite pair_irrefl in B. discriminate B.
    - rewrite (one_job_other f (y, e)); [cbn [length]; lia|]. cbn. intros ->. discriminate Ee.
  Qed.
  (** ldconfig is run at most once, however many packages and files *)
  Theorem C81_ldconfig_once : forall x w, length (filter (fun j => seqb (fst j) (root ++ L "usr/bin/ldconfig")) (programs x w)) <= 1.
  Proof.
    intros x w. unfold TriggerModel.programs.
    match goal with |- context [run_jobs root ?f ?p] => set (fs_ := f); set (post := p) end.
    assert (Ld : forall y, In (y, LDCONF) post -> y = []).
    { intros y H. unfold post in H. cbn [w_db] in H. destruct (load junk (w_db w)) as [m| |]; [|destruct H|destruct H].
      destruct x; [exact (scheduled_ld _ _ _ _ _ H)|exact (scheduled_all_ld _ _ _ _ _ _ _ H)|destruct H]. }
    clearbody fs_ post. rewrite run_jobs_eq. apply (jobs_ld fs_ (pset post)); [apply pset_sorted|].
    intros y H. apply Ld, (proj1 (pset_In _ _)), H.
  Qed.
  (** a removal runs none of them, whatever it removes *)
  Theorem C81_remove : forall scripts conf name w, programs (Remove scripts conf name) w = [].
  Proof. intros. unfold TriggerModel.programs. cbn [w_db]. destruct (load junk (w_db w)); reflexivity. Qed.
End Props.
(** ** examples *)
(** the machine of w_foo, with a dynamic linker set up, and with the info tool *)
Definition w_ld : world := World (fset [L "etc"; L "ld.so.conf"] (reg (L "/usr/lib")) (fset [L "etc"] dirn (w_fs w_foo))) (w_db w_foo).
Definition w_inf : world := World (fset [L "usr"; L "bin"; L "install-info"] (reg (L "tool")) (w_fs w_foo)) (w_db w_foo).
Definition doc : archive := pkg [L "Ndoc"; L "V1"; L "ax86_64"; L "r1"] [(L "usr/", dirn); (L "usr/the manual", reg (L "how to"))].
(** a configuration file of pkgadd that asks for install-info for what is below usr/the *)
Definition info_conf : option str := Some (L "INFO usr/the YES").
Notation progs := (programs false mach pfx quiet rt).
Example C81_run :
  fst (ses (Add simple false None doc) w_ld) = None /\ progs (Add simple false None doc) w_ld = [(L "/usr/bin/ldconfig", [L "-r"; L "/"])] /\
  fst (ses (Add simple false None doc) w_foo) = None /\ progs (Add simple false None doc) w_foo = [] /\
  fst (ses (Many false false None [(false, doc); (false, foo2)] []) w_ld) = None /\
  progs (Many false false None [(false, doc); (false, foo2)] []) w_ld = [(L "/usr/bin/ldconfig", [L "-r"; L "/"])].
Proof. repeat (split; [vm_compute; reflexivity|]). vm_compute. reflexivity. Qed.
(** an install that is refused, and leaves the machine as it was, still runs them: the user asked for something that did not happen *)
Theorem C81_refused_refuted : exists a w, tree (w_fs w) /\ fst (ses (Add simple false None a) w) = Some (Conflict [L "usr/bin/tool"]) /\
  snd (ses (Add simple false None a) w) = w /\ progs (Add simple false None a) w = [(L "/usr/bin/ldconfig", [L "-r"; L "/"])].
Proof.
  exists bar, w_ld. split; [apply treeb_tree; vm_compute; reflexivity|]. split; [vm_compute; reflexivity|]. split; [vm_compute; reflexivity|]. vm_compute. reflexivity.
Qed.
(** a file name with a blank in it reaches the program as two arguments, neither of them the name of the file *)
Theorem C81_blank_refuted : exists a w conf, fst (ses (Add simple false conf a) w) = None /\ ships a (L "usr/the manual") /\
  In (L "/usr/bin/install-info", [L "--info-dir=usr/share/info"; L "usr/the"; L "manual"]) (progs (Add simple false conf a) w) /\
  forall p args, In (p, args) (progs (Add simple false conf a) w) -> ~ In (L "usr/the manual") args.
Proof.
  assert (E : progs (Add simple false info_conf doc) w_inf = [(L "/usr/bin/install-info", [L "--info-dir=usr/share/info"; L "usr/"]); (L "/usr/bin/install-info", [L "--info-dir=usr/share/info"; L "usr/the"; L "manual"])]) by (vm_compute; reflexivity).
  exists doc, w_inf, info_conf. split; [vm_compute; reflexivity|]. split.
  - assert (O : exists nm r, open_archive false mach rt doc = Ok (nm, r) /\ In (L "usr/the manual") (r_files r)).
    { eexists. eexists. split; [vm_compute; reflexivity|]. right. left. vm_compute. reflexivity. }
    destruct O as [nm [r [O I]]]. apply open_name in O as [_ Sh]. apply Sh, I.
  - rewrite E. split; [right; left; reflexivity|]. intros p args [H|[H|[]]] K; injection H as <- <-; cbn in K; intuition discriminate.
Qed.
Print Assumptions C81_add.
Print Assumptions C81_many.
Print Assumptions C81_in_root.
Print Assumptions C81_ldconfig_once.
Print Assumptions C81_remove.
Print Assumptions C81_refused_refuted.
Print Assumptions C81_blank_refuted.
