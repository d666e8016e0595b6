From Verif Require Import Base BaseProofs StrModel StrSpec StrProofs RulesModel RulesSpec.

Lemma event_eqb_eq a b : event_eqb a b = true <-> a = b.
Proof. unfold event_eqb. rewrite Nat.eqb_eq. destruct a, b; cbn; split; congruence. Qed.
Lemma event_eqb_neq a b : event_eqb a b = false <-> a <> b.
Proof. rewrite <- event_eqb_eq. destruct (event_eqb a b); split; congruence. Qed.

Section P.
  Variable re : str -> str -> option bool.

  Lemma first_match_decided rs f r : first_match re rs f = Decided r <->
    exists p q, rs = p ++ r :: q /\ re (r_pattern r) f = Some true /\
      Forall (fun r' => re (r_pattern r') f = Some false) p.
  Proof.
    induction rs as [|r0 t IH]; cbn [first_match].
    - split; [discriminate|]. intros [p [q [E _]]]. destruct p; discriminate.
    - destruct (re (r_pattern r0) f) as [[]|] eqn:E.
      + split.
        * intro H; inversion H; subst. exists [], t. auto.
        * intros [p [q [E1 [E2 E3]]]]. destruct p as [|x p]; cbn in E1; inversion E1; subst; auto.
          inversion E3; congruence.
      + rewrite IH. split.
        * intros [p [q [-> [E2 E3]]]]. exists (r0 :: p), q. repeat split; auto.
        * intros [p [q [E1 [E2 E3]]]]. destruct p as [|x p]; cbn in E1; inversion E1; subst; [congruence|].
          inversion E3; subst. eauto.
      + split; [discriminate|]. intros [p [q [E1 [E2 E3]]]].
        destruct p as [|x p]; cbn in E1; inversion E1; subst; [congruence|]. inversion E3; congruence.
  Qed.
  Lemma first_match_none rs f : first_match re rs f = NoRule <->
    Forall (fun r' => re (r_pattern r') f = Some false) rs.
  Proof.
    induction rs as [|r0 t IH]; cbn [first_match].
    - split; auto.
    - destruct (re (r_pattern r0) f) as [[]|] eqn:E.
      + split; [discriminate|]. intro H; inversion H; congruence.
      + rewrite IH. split; [constructor; auto | intro H; inversion H; auto].
      + split; [discriminate|]. intro H; inversion H; congruence.
  Qed.
  Lemma first_match_bad rs f : first_match re rs f = BadPattern -> exists r, In r rs /\ re (r_pattern r) f = None.
  Proof.
    induction rs as [|r0 t IH]; cbn [first_match]; [discriminate|].
    destruct (re (r_pattern r0) f) as [[]|] eqn:E; [discriminate| |].
    - intro H. destruct (IH H) as [r [? ?]]. exists r; cbn; auto.
    - intros _. exists r0. cbn; auto.
  Qed.

  Lemma In_rules_of_event e rs r : In r (rules_of_event e rs) <-> In r rs /\ r_event r = e.
  Proof. unfold rules_of_event. rewrite filter_In, event_eqb_eq. tauto. Qed.

  Lemma filter_split {A} (P : A -> bool) l p x q : filter P l = p ++ x :: q ->
    exists p' q', l = p' ++ x :: q' /\ filter P p' = p /\ filter P q' = q /\ P x = true.
  Proof.
    revert p. induction l as [|y l IH]; intros p; cbn.
    - destruct p; discriminate.
    - destruct (P y) eqn:E.
      + destruct p as [|z p]; cbn; intro H; inversion H; subst.
        * exists [], l. auto.
        * destruct (IH p H2) as [p' [q' [-> [E1 [E2 E3]]]]]. exists (z :: p'), q'. cbn. rewrite E, E1. auto.
      + intro H. destruct (IH p H) as [p' [q' [-> [E1 [E2 E3]]]]]. exists (y :: p'), q'. cbn. rewrite E. auto.
  Qed.

  Lemma decided_last_match e rs f r :
    first_match re (rev (rules_of_event e rs)) f = Decided r <-> last_match re e rs f r.
  Proof.
    rewrite first_match_decided. unfold last_match. split.
    - intros [p [q [E1 [E2 E3]]]]. apply (f_equal (@rev rule)) in E1. rewrite rev_involutive, rev_app_distr in E1.
      cbn in E1. rewrite <- app_assoc in E1. cbn in E1. apply filter_split in E1 as [p' [q' [E [F1 [F2 F3]]]]].
      exists p', q'. apply event_eqb_eq in F3. repeat split; auto. intros r' Hr' He.
      rewrite Forall_forall in E3. apply E3. apply in_rev. rewrite <- F2. apply filter_In. split; auto. apply event_eqb_eq; auto.
    - intros [b [a [-> [He [Hm Ha]]]]]. unfold rules_of_event.
      rewrite filter_app. cbn. rewrite (proj2 (event_eqb_eq _ _) He). rewrite rev_app_distr. cbn. rewrite <- app_assoc. cbn.
      eexists _, _. split; [reflexivity|]. split; auto. rewrite Forall_forall. intros r' Hr'. apply in_rev in Hr'.
      apply filter_In in Hr' as [Hr' He']. apply event_eqb_eq in He'. auto.
  Qed.
  Lemma norule_no_match e rs f :
    first_match re (rev (rules_of_event e rs)) f = NoRule <-> no_match re e rs f.
  Proof.
    rewrite first_match_none, Forall_forall. unfold no_match. split.
    - intros H r Hr He. apply H. apply -> in_rev. apply In_rules_of_event. auto.
    - intros H r Hr. apply in_rev, In_rules_of_event in Hr as [? ?]. auto.
  Qed.

  Lemma verdict_det e rs f b1 b2 : verdict re e rs f b1 -> verdict re e rs f b2 -> b1 = b2.
  Proof.
    intros H1 H2. inversion H1 as [r1 M1|N1]; inversion H2 as [r2 M2|N2]; subst; auto.
    - apply decided_last_match in M1, M2. congruence.
    - apply decided_last_match in M1. apply norule_no_match in N2. congruence.
    - apply decided_last_match in M2. apply norule_no_match in N1. congruence.
  Qed.

  Lemma keep_loop_spec m files k : keep_loop re m files = Some k ->
    (forall f, In f k <-> In f files /\ exists r, first_match re m f = Decided r /\ r_action r = false) /\
    (ssorted files -> ssorted k) /\ (forall f, In f files -> first_match re m f <> BadPattern).
  Proof.
    revert k. induction files as [|f fs IH]; intros k; cbn [keep_loop].
    - intro E; inversion E; subst. split; [|split].
      + intro f. cbn. tauto.
      + auto.
      + intros f [].
    - destruct (first_match re m f) as [|r|] eqn:Em; [| |discriminate].
      + intro E. destruct (IH k E) as [I1 [I2 I3]]. split; [|split].
        * intro g. rewrite I1. cbn. split; [tauto|]. intros [[<-|H] [r [Hr Ha]]]; [congruence|]. eauto.
        * intro S. inversion S; auto.
        * intros g [<-|H]; [congruence | auto].
      + destruct (keep_loop re m fs) as [k'|] eqn:Ek; [|discriminate]. intro E.
        destruct (IH k' eq_refl) as [I1 [I2 I3]]. inversion E; subst; clear E. split; [|split].
        * intro g. destruct (r_action r) eqn:Ea.
          -- rewrite I1. cbn. split; [tauto|]. intros [[<-|H] [r' [Hr Ha]]]; [congruence|]. eauto.
          -- cbn. rewrite I1. split.
             ++ intros [<-|[H1 H2]]; [split; eauto | tauto].
             ++ intros [[<-|H] H2]; auto.
        * intro S. inversion S as [|? ? S1 S2]; subst. destruct (r_action r); [exact (I2 S1)|].
          rewrite Forall_forall in S2. constructor; [exact (I2 S1)|]. apply Forall_forall. intros x Hx. apply S2. apply I1 in Hx. tauto.
        * intros g [<-|H]; [congruence | auto].
  Qed.

  Lemma keep_list_spec rs files k : get_keep_list re rs files = Some k ->
    (forall f, In f k <-> In f files /\ verdict re UPGRADE rs f false) /\ (ssorted files -> ssorted k).
  Proof.
    intro H. apply keep_loop_spec in H as [H1 [H2 H3]]. split; auto. intro f. rewrite H1. split.
    - intros [Hf [r [Hr Ha]]]. split; auto. rewrite <- Ha. apply verdict_rule. apply decided_last_match, Hr.
    - intros [Hf V]. split; auto. inversion V as [r M E|N E]. exists r. split; auto. apply decided_last_match, M.
  Qed.

  Lemma compile_first_match rs f : (forall r, In r rs -> re (r_pattern r) f <> None) -> first_match re rs f <> BadPattern.
  Proof. intros H E. apply first_match_bad in E as [r [Hr E]]. exact (H r Hr E). Qed.

  Lemma keep_list_total rs files :
    (forall r f, In r rs -> re (r_pattern r) f <> None) -> exists k, get_keep_list re rs files = Some k.
  Proof.
    intro H. unfold get_keep_list. induction files as [|f fs [k IH]]; cbn; [eauto|].
    destruct (first_match re (rev (rules_of_event UPGRADE rs)) f) eqn:E; rewrite ?IH; eauto.
    exfalso. revert E. apply compile_first_match. intros r Hr. apply in_rev, In_rules_of_event in Hr. apply H, Hr.
  Qed.

  Definition inst_of (m : list rule) (f : str) : option bool :=
    match first_match re m f with BadPattern => None | NoRule => Some true | Decided r => Some (r_action r) end.

  Lemma install_loop_spec m sc files ins non post : install_loop re m sc files = Some (ins, non, post) ->
    (forall f, In f ins <-> In f files /\ inst_of m f = Some true) /\
    (forall f, In f non <-> In f files /\ inst_of m f = Some false) /\
    (forall x e, In (x, e) post <-> exists f i, In f files /\ inst_of m f = Some i /\
        script_visit re sc f LDCONF i = Some (e, true) /\ x = (if event_eqb e LDCONF then [] else f)) /\
    (ssorted files -> ssorted ins /\ ssorted non) /\
    (forall f, In f files -> exists i, inst_of m f = Some i).
  Proof.
    revert ins non post. induction files as [|f fs IH]; intros ins non post; cbn [install_loop].
    - intro E; inversion E; subst. cbn. split; [tauto|split; [tauto|split; [|split]]].
      + intros; split; [tauto|]. intros [? [? [[] _]]].
      + split; constructor.
      + intros f [].
    - fold (inst_of m f). destruct (inst_of m f) as [i|] eqn:Ei; [|discriminate].
      destruct (script_visit re sc f LDCONF i) as [[ev tr]|] eqn:Es; [|discriminate].
      destruct (install_loop re m sc fs) as [[[ins' non'] post']|] eqn:El; [|discriminate].
      intro E. destruct (IH _ _ _ eq_refl) as [I1 [I2 [I3 [I4 I5]]]]. inversion E; subst; clear E.
      split; [|split; [|split; [|split]]].
      + intro g. destruct i; cbn; rewrite I1; cbn; split.
        * intros [<-|H]; tauto.
        * intros [[<-|H] H2]; auto.
        * tauto.
        * intros [[<-|H] H2]; [congruence | auto].
      + intro g. destruct i; cbn; rewrite I2; cbn; split.
        * tauto.
        * intros [[<-|H] H2]; [congruence | auto].
        * intros [<-|H]; tauto.
        * intros [[<-|H] H2]; auto.
      + intros x e. destruct tr; cbn; rewrite I3; cbn; split.
        * intros [H|[g [j [H1 H2]]]]; [inversion H; subst|]; [exists f, i|exists g, j]; tauto.
        * intros [g [j [[<-|Hg] [H1 [H2 H3]]]]].
          -- left. rewrite Ei in H1. inversion H1; subst j. rewrite Es in H2. inversion H2; subst. reflexivity.
          -- right. exists g, j. auto.
        * intros [g [j [H1 H2]]]. exists g, j. tauto.
        * intros [g [j [[<-|Hg] [H1 [H2 H3]]]]].
          -- rewrite Ei in H1. inversion H1; subst j. rewrite Es in H2. discriminate.
          -- exists g, j. auto.
      + intro S. inversion S as [|? ? S1 S2]; subst. destruct (I4 S1) as [J1 J2]. rewrite Forall_forall in S2.
        destruct i; (split; [|try exact J2]; try exact J1); (constructor; [assumption|]); rewrite Forall_forall; intros g Hg; apply S2.
        * apply I1 in Hg. tauto.
        * apply I2 in Hg. tauto.
      + intros g [<-|H]; eauto.
  Qed.

  Lemma inst_of_verdict rs f b : inst_of (rev (rules_of_event INSTALL rs)) f = Some b <->
    verdict re INSTALL rs f b.
  Proof.
    unfold inst_of. split.
    - destruct (first_match re _ f) eqn:E; intro H; inversion H; subst.
      + apply verdict_default, norule_no_match, E.
      + apply verdict_rule, decided_last_match, E.
    - intro V. inversion V as [r M E|N E].
      + apply decided_last_match in M. rewrite M. reflexivity.
      + apply norule_no_match in N. rewrite N. reflexivity.
  Qed.

  Lemma install_rules_spec rs files ins non post : apply_install_rules re rs files = Some (ins, non, post) ->
    (forall f, In f ins <-> In f files /\ verdict re INSTALL rs f true) /\
    (forall f, In f non <-> In f files /\ verdict re INSTALL rs f false) /\
    (ssorted files -> ssorted ins /\ ssorted non).
  Proof.
    intro H. apply install_loop_spec in H as [H1 [H2 [_ [H4 _]]]]. split; [|split]; auto; intro f.
    - rewrite H1, inst_of_verdict. tauto.
    - rewrite H2, inst_of_verdict. tauto.
  Qed.

  Lemma script_visit_total sc f cur i : (forall r, In r sc -> re (r_pattern r) f <> None) -> exists p, script_visit re sc f cur i = Some p.
  Proof.
    revert cur. induction sc as [|r t IH]; intros cur H; cbn; eauto.
    destruct (re (r_pattern r) f) as [[]|] eqn:E; eauto.
    - apply IH. intros; apply H; cbn; auto.
    - exfalso. apply (H r); cbn; auto.
  Qed.
  Lemma In_script_rules rs r : In r (script_rules rs) <-> In r rs /\ script_event (r_event r).
  Proof.
    unfold script_rules, script_event. rewrite filter_In, andb_true_iff, !negb_true_iff, !event_eqb_neq. tauto.
  Qed.
  Lemma install_rules_total rs files :
    (forall r f, In r rs -> re (r_pattern r) f <> None) -> exists x, apply_install_rules re rs files = Some x.
  Proof.
    intro H. unfold apply_install_rules. induction files as [|f fs [[[ins non] post] IH]]; cbn; [eauto|].
    destruct (first_match re (rev (rules_of_event INSTALL rs)) f) eqn:E.
    3:{ exfalso. revert E. apply compile_first_match. intros r Hr. apply in_rev, In_rules_of_event in Hr. apply H, Hr. }
    - destruct (script_visit_total (rev (script_rules rs)) f LDCONF true) as [[ev tr] E2].
      { intros r Hr. apply in_rev, In_script_rules in Hr. apply H, Hr. }
      rewrite E2, IH. eauto.
    - destruct (script_visit_total (rev (script_rules rs)) f LDCONF (r_action r)) as [[ev tr] E2].
      { intros r' Hr. apply in_rev, In_script_rules in Hr. apply H, Hr. }
      rewrite E2, IH. eauto.
  Qed.

  (** post-install scheduling *)
  Lemma first_script_event_alt rs : first_script_event rs = match script_rules rs with r :: _ => r_event r | [] => LDCONF end.
  Proof.
    unfold first_script_event, script_rules.
    rewrite (filter_ext _ (fun r => negb (event_eqb (r_event r) INSTALL) && negb (event_eqb (r_event r) UPGRADE))); [reflexivity|].
    intros [[] ? ?]; reflexivity.
  Qed.

  Lemma script_visit_spec sc f cur i e b : script_visit re sc f cur i = Some (e, b) ->
    (exists r, first_match re sc f = Decided r /\ e = r_event r /\ b = r_action r) \/
    (first_match re sc f = NoRule /\ b = i /\ e = match rev sc with r :: _ => r_event r | [] => cur end).
  Proof.
    revert cur. induction sc as [|r t IH]; intros cur; cbn [script_visit first_match].
    - intro E; inversion E; subst. right. auto.
    - destruct (re (r_pattern r) f) as [[]|] eqn:E; [| |discriminate].
      + intro H; inversion H; subst. left. exists r. auto.
      + intro H. destruct (IH _ H) as [?|[H1 [H2 H3]]]; auto. right. repeat split; auto.
        rewrite H3. cbn. destruct (rev t) as [|z l]; reflexivity.
  Qed.
  Lemma script_decided rs f r : first_match re (rev (script_rules rs)) f = Decided r <-> script_last_match re rs f r.
  Proof.
    rewrite first_match_decided. unfold script_last_match. split.
    - intros [p [q [E1 [E2 E3]]]]. apply (f_equal (@rev rule)) in E1. rewrite rev_involutive, rev_app_distr in E1.
      cbn in E1. rewrite <- app_assoc in E1. cbn in E1.
      assert (Hs : script_event (r_event r)).
      { apply (In_script_rules rs). rewrite E1. apply in_app_iff. cbn; auto. }
      apply filter_split in E1 as [p' [q' [E [F1 [F2 F3]]]]].
      exists p', q'. repeat split; try apply Hs; auto. intros r' Hr' He.
      rewrite Forall_forall in E3. apply E3. apply in_rev. rewrite <- F2. apply In_script_rules. auto.
    - intros [b [a [-> [He [Hm Ha]]]]]. unfold script_rules. rewrite filter_app. cbn.
      assert (F : negb (event_eqb (r_event r) INSTALL) && negb (event_eqb (r_event r) UPGRADE) = true).
      { rewrite andb_true_iff, !negb_true_iff, !event_eqb_neq. exact He. }
      rewrite F. rewrite rev_app_distr. cbn. rewrite <- app_assoc. cbn.
      eexists _, _. split; [reflexivity|]. split; auto. rewrite Forall_forall. intros r' Hr'. apply in_rev in Hr'.
      apply In_script_rules in Hr' as [? ?]. auto.
  Qed.
  Lemma script_norule rs f : first_match re (rev (script_rules rs)) f = NoRule <-> script_no_match re rs f.
  Proof.
    rewrite first_match_none, Forall_forall. unfold script_no_match. split.
    - intros H r Hr He. apply H. apply -> in_rev. apply In_script_rules. auto.
    - intros H r Hr. apply in_rev, In_script_rules in Hr as [? ?]. auto.
  Qed.

  Lemma script_visit_decided sc f cur i r : first_match re sc f = Decided r -> script_visit re sc f cur i = Some (r_event r, r_action r).
  Proof.
    revert cur. induction sc as [|r0 t IH]; intros cur; cbn; [discriminate|].
    destruct (re (r_pattern r0) f) as [[]|]; [|apply IH|discriminate]. intro E; inversion E; auto.
  Qed.
  Lemma script_visit_norule sc f cur i : first_match re sc f = NoRule ->
    script_visit re sc f cur i = Some (match rev sc with r :: _ => r_event r | [] => cur end, i).
  Proof.
    revert cur. induction sc as [|r0 t IH]; intros cur; cbn; auto.
    destruct (re (r_pattern r0) f) as [[]|]; [discriminate| |discriminate]. intro E. rewrite (IH _ E).
    destruct (rev t) as [|z l]; reflexivity.
  Qed.

  Lemma post_install_spec rs files ins non post : apply_install_rules re rs files = Some (ins, non, post) ->
    forall x e, In (x, e) post <->
      exists f, In f files /\ x = (if event_eqb e LDCONF then [] else f) /\
        ((exists r, script_last_match re rs f r /\ r_event r = e /\ r_action r = true) \/
         (script_no_match re rs f /\ verdict re INSTALL rs f true /\ e = first_script_event rs)).
  Proof.
    intro H. apply install_loop_spec in H as [H1 [H2 [H3 [_ H5]]]]. intros x e. rewrite H3. split.
    - intros [f [i [Hf [Hi [Hs Hx]]]]]. exists f. split; [auto|split; [auto|]].
      apply script_visit_spec in Hs as [[r [M [E1 E2]]]|[N [E1 E2]]].
      + left. exists r. split; [|split]; auto. apply script_decided, M.
      + right. split; [apply script_norule, N|]. split.
        * subst i. apply inst_of_verdict, Hi.
        * rewrite rev_involutive in E2. rewrite first_script_event_alt. exact E2.
    - intros [f [Hf [Hx D]]]. destruct (H5 f Hf) as [i Hi].
      destruct D as [[r [M [He Ha]]]|[N [V He]]].
      + exists f, i. split; [|split; [|split]]; auto. apply script_decided in M.
        rewrite (script_visit_decided _ _ _ _ _ M). subst e. rewrite Ha. reflexivity.
      + exists f, i. split; [|split; [|split]]; auto. apply script_norule in N.
        rewrite (script_visit_norule _ _ _ _ N), rev_involutive. apply inst_of_verdict in V.
        rewrite Hi in V. inversion V; subst. rewrite first_script_event_alt. reflexivity.
  Qed.
End P.

(** Reading the rules file *)
Lemma blanks_white c : In c blanks <-> white c.
Proof. reflexivity. Qed.
Lemma words_tokens l : ~ In zero l -> tokens white l (words l).
Proof.
  intro Z. unfold words. rewrite (cstr_nozero _ Z).
  destruct (strtok_loop_tokens (S (length l)) blanks l) as [ts [E T]]; [lia|]. rewrite E. exact T.
Qed.
Lemma event_of_name_table s e : event_of_name s = Some e <-> In (s, e) event_table.
Proof.
  unfold event_of_name. split.
  - repeat match goal with |- context [if seqb s ?l then _ else _] => destruct (seqb s l) eqn:?E end;
      intro H; inversion H; subst; clear H;
      repeat match goal with H : seqb _ _ = true |- _ => apply seqb_eq in H; subst end; cbn; tauto.
  - cbn [event_table In]. intro H. repeat destruct H as [H|H]; try contradiction; inversion H; subst; reflexivity.
Qed.
Lemma ignorable_read l : ignorable l <-> read_rule l = None.
Proof.
  unfold ignorable, read_rule. destruct l as [|c t]; [tauto|]. destruct (ceqb c "#"%char) eqn:E.
  - apply ceqb_eq in E. subst. split; eauto.
  - split.
    + intros [H|[t' H]]; [discriminate|]. inversion H; subst. discriminate E.
    + destruct (1024 <=? _); [discriminate|]. destruct (words _) as [|? [|? [|? [|? ?]]]]; try discriminate.
      destruct (event_of_name _); [|discriminate]. destruct (seqb _ _); [discriminate|]. destruct (seqb _ _); discriminate.
Qed.
Lemma rule_line_read l r : ~ In zero l -> ~ ignorable l -> (read_rule l = Some (inl r) <-> rule_line l r).
Proof.
  intros Z I. unfold rule_line. destruct l as [|c t]; [exfalso; apply I; left; auto|].
  assert (Ec : ceqb c "#"%char = false).
  { destruct (ceqb c "#"%char) eqn:E; auto. apply ceqb_eq in E. subst. exfalso. apply I. right. eauto. }
  unfold read_rule. rewrite Ec. pose proof (words_tokens _ Z) as T.
  destruct (1024 <=? length (c :: t)) eqn:El.
  - apply Nat.leb_le in El. split; [discriminate|]. intros [H _]. lia.
  - apply Nat.leb_gt in El. split.
    + destruct (words (c :: t)) as [|ev [|pat [|act [|? ?]]]]; try discriminate.
      destruct (event_of_name ev) as [e|] eqn:Ee; [|discriminate]. apply event_of_name_table in Ee.
      destruct (seqb act (L "YES")) eqn:E1; [|destruct (seqb act (L "NO")) eqn:E2; [|discriminate]];
        intro H; inversion H; subst; clear H; (split; [exact El|]); exists ev, act; cbn [r_pattern r_event r_action].
      * apply seqb_eq in E1. auto.
      * apply seqb_eq in E2. auto.
    + intros [_ [ev [act [T' [Ee A]]]]]. rewrite (tokens_det _ _ _ _ T T').
      apply event_of_name_table in Ee. rewrite Ee. destruct r as [re rp ra]. cbn in *.
      destruct A as [[-> ->]|[-> ->]]; reflexivity.
Qed.
Lemma read_rules_spec lines rs : Forall (fun l => ~ In zero l) lines -> (read_rules lines = inl rs <-> rules_text lines rs).
Proof.
  intro Z. revert rs. induction Z as [|l ls Z1 Z2 IH]; intros rs; cbn [read_rules].
  - split; intro H; inversion H; subst; constructor.
  - destruct (read_rule l) as [[r|e]|] eqn:E.
    + assert (NI : ~ ignorable l). { rewrite ignorable_read. congruence. }
      split.
      * destruct (read_rules ls) as [rs'|]; [|discriminate]. intro H; inversion H; subst.
        apply rt_rule; [exact NI | apply rule_line_read; auto | apply IH; auto].
      * intro H. inversion H as [|? ? ? I R|? ? r' rs' I R R']; subst; [contradiction|].
        apply rule_line_read in R; auto. apply IH in R'. rewrite R'. congruence.
    + split; [discriminate|]. intro H. inversion H as [|? ? ? I R|? ? r' rs' I R R']; subst.
      * apply ignorable_read in I. congruence.
      * apply rule_line_read in R; auto. congruence.
    + rewrite <- ignorable_read in E. rewrite IH. split.
      * apply rt_skip; auto.
      * intro H. inversion H as [|? ? ? I R|? ? r' rs' I R R']; subst; [auto|contradiction].
Qed.
Lemma rules_text_det lines rs1 rs2 : Forall (fun l => ~ In zero l) lines -> rules_text lines rs1 -> rules_text lines rs2 -> rs1 = rs2.
Proof. intros Z H1 H2. apply (read_rules_spec _ _ Z) in H1, H2. congruence. Qed.
Lemma join_In c ts t x : In t ts -> In x t -> In x (join c ts).
Proof.
  induction ts as [|a ts IH]; [intros []|]. intros [<-|H] Hx; cbn [join].
  - destruct ts; [auto|]. apply in_or_app. auto.
  - destruct ts as [|b ts]; [destruct H|]. apply in_or_app. right. right. auto.
Qed.
Lemma getlines_nozero content : ~ In zero content -> Forall (fun l => ~ In zero l) (getlines content).
Proof.
  intro Z. apply Forall_forall. intros l Hl H. apply Z. destruct (getlines_spec content) as [_ [_ E]]. rewrite <- E.
  eapply join_In; eauto.
Qed.
Lemma read_rules_file_spec content rs :
  ~ In zero content -> (read_rules_file (Some content) = inl rs <-> rules_text (getlines content) rs).
Proof. intro Z. cbn [read_rules_file]. apply read_rules_spec, getlines_nozero, Z. Qed.
Lemma rules_file_unique content rs1 rs2 :
  ~ In zero content -> rules_text (getlines content) rs1 -> rules_text (getlines content) rs2 -> rs1 = rs2.
Proof. intro Z. apply rules_text_det, getlines_nozero, Z. Qed.

Lemma install_rules_partition re rs files ins non post :
  apply_install_rules re rs files = Some (ins, non, post) ->
  forall f, In f files <-> (In f ins /\ ~ In f non) \/ (In f non /\ ~ In f ins).
Proof.
  intros H f. pose proof (install_rules_spec _ _ _ _ _ _ H) as [H1 [H2 _]].
  apply install_loop_spec in H as [_ [_ [_ [_ H5]]]]. rewrite H1, H2. split.
  - intro Hf. destruct (H5 f Hf) as [i Hi]. apply inst_of_verdict in Hi. destruct i; [left|right]; (split; [auto|]);
      intros [_ V]; pose proof (verdict_det _ _ _ _ _ _ Hi V); discriminate.
  - tauto.
Qed.

Definition lit_re (p f : str) : option bool := Some (prefixb p f).
Lemma post_install_spurious :
  exists re rs files ins non post e x,
    apply_install_rules re rs files = Some (ins, non, post) /\ In (x, e) post /\ script_event e /\
    ~ exists f r, In f ins /\ In r rs /\ r_event r = e /\ re (r_pattern r) f = Some true.
Proof.
  exists lit_re, [Rule INFO (L "usr/share/info") true], [L "bin/ls"], [L "bin/ls"], [], [(L "bin/ls", INFO)], INFO, (L "bin/ls").
  split; [reflexivity|split; [cbn; auto|split; [split; discriminate|]]].
  intros [f [r [[<-|[]] [[<-|[]] [_ H]]]]]. discriminate H.
Qed.
Lemma post_install_missed :
  exists re rs files ins non post f r,
    apply_install_rules re rs files = Some (ins, non, post) /\ In f ins /\ In r rs /\ script_event (r_event r) /\
    r_action r = true /\ re (r_pattern r) f = Some true /\ ~ exists x, In (x, r_event r) post.
Proof.
  exists lit_re, [Rule INFO (L "usr/share/info") true; Rule MIME_DB (L "usr/share") true],
    [L "usr/share/info/ls"], [L "usr/share/info/ls"], [], [(L "usr/share/info/ls", MIME_DB)],
    (L "usr/share/info/ls"), (Rule INFO (L "usr/share/info") true).
  split; [reflexivity|]. split; [cbn; auto|]. split; [cbn; auto|]. split; [split; discriminate|].
  split; [reflexivity|]. split; [reflexivity|]. intros [x [H|[]]]. discriminate H.
Qed.
Lemma post_install_uninstalled :
  exists re rs files ins non post f e,
    apply_install_rules re rs files = Some (ins, non, post) /\ In (f, e) post /\ ~ In f ins /\ In f non.
Proof.
  exists lit_re, [Rule INSTALL (L "usr") false; Rule INFO (L "usr") true],
    [L "usr/a"], [], [L "usr/a"], [(L "usr/a", INFO)], (L "usr/a"), INFO.
  split; [reflexivity|]. split; [cbn; auto|]. split; [intros [] | cbn; auto].
Qed.
