(** C106: "Go !" as pressed in the window, and cases. *)
From Verif Require Import Base BaseProofs StrModel StrSpec StrProofs RulesModel RulesSpec RulesProofs FsModel FsSpec FsProofs FsOps MetaModel MetaSpec MetaProofs
  DbModel DbSpec DbLoad DbOps DbRun DbInv EngineFs DbFacts DbProps DbExamples RemoveProps AddRun AddProps RootProps GenDeps GenDepsProofs GenDepsProps HexModel HexProps IndexModel FetchModel FetchProps FetchExamples
  ManyRun ManyMeta RemoveCmd RemoveCmdProofs RemoveCmdExamples InstallModel InstallRun InstallProps InstallClosed InstallExamples ClientModel ClientProps GuiModel GuiProps.
From Coq Require Import ZArith Lia Permutation.
Import DbInv.

Section Button.
  Variables (junk : bool) (machine : str) (re : str -> str -> option bool) (sh : str -> fs -> fs * bool) (root : str).
  Variable url : str.
  Variable repo : list (str * ent).
  Variable sha : str -> str.
  Variable key : Type.
  Variable pem : str -> option key.
  Variable verify : key -> str -> str -> bool.
  Variable unpack : str -> option archive.
  Variable jb : Z.
  Variables (fuel : nat) (conf : option str) (s : fstate).
  Notation client_go := (client_go junk machine re sh root url repo sha key pem verify unpack jb fuel true conf).
  (** the two calls of cards_wrapper.cxx:248-257 as the window sees them: the new system, and whether an exception came out *)
  Definition calm (o : option stop) : bool := match o with None => true | Some _ => false end.
  Definition gui_remove (names : list str) (w : world) : world * bool := (snd (client_remove junk root names w), calm (fst (client_remove junk root names w))).
  Definition gui_install (names : list str) (w : world) : world * bool :=
    match client_install junk machine re sh root url repo sha key pem verify unpack jb fuel true conf names s w with Some (o, w') => (w', calm o) | None => (w, false) end.
  Variable avail : world -> list (str * details).
  Variable inst : world -> list str.
  Variable sync_run : world -> world.
  Variable sort_rows : nat -> bool -> list row -> list row.
  Hypothesis unique : forall w, NoDup (map fst (avail w)).
  Hypothesis moves : forall c r l, Permutation (sort_rows c r l) l.
  Notation run := (GuiModel.run world avail inst gui_remove gui_install sync_run sort_rows).
  Notation step := (GuiModel.step world avail inst gui_remove gui_install sync_run sort_rows).
  Notation start := (GuiModel.start world avail inst).
  Notation seen_by := (GuiProps.seen_by world avail inst).

  (** Whatever the user did before, "Go !" hands over exactly the packages whose latest choice is "Remove" and "Install". *)
  Theorem C106_button es w0 os g w : run es (start w0) = Ok (os, g) ->
    let v := seen_by w0 os in v_stale v = false -> (exists n, pending v n) ->
    exists rm ins, NoDup rm /\ NoDup ins /\ (forall n, In n rm <-> to_remove v n) /\ (forall n, In n ins <-> to_install v n) /\
      forall o w', client_go rm ins s w = Some (o, w') -> exists g', step (Go true) g w = Ok (Done rm ins (calm o) w', g', w').
  Proof.
    intros E v V P. destruct (C102_go world avail inst gui_remove gui_install sync_run sort_rows unique moves es w0 os g w E V P) as (rm & ins & ok & w1 & g' & St & SR & SI & HR & HI & (wr & ok1 & A & B)).
    exists rm, ins. split; [apply ssorted_NoDup, SR|]. split; [apply ssorted_NoDup, SI|]. split; [exact HR|]. split; [exact HI|]. intros o w' G. exists g'. rewrite St.
    assert (Z : ok = calm o /\ w1 = w'); [|destruct Z as [-> ->]; reflexivity].
    unfold ClientModel.client_go in G. destruct (client_remove junk root rm w) as [o1 w2] eqn:Er.
    assert (Q : wr = w2 /\ ok1 = calm o1).
    { destruct A as [(-> & -> & ->)|(_ & A)]; [cbn in Er; injection Er as <- <-; split; reflexivity|]. unfold gui_remove in A. rewrite Er in A. cbn [fst snd] in A. injection A as -> ->. split; reflexivity. }
    destruct Q as [-> ->]. destruct o1 as [e|]; cbn [calm] in B.
    - injection G as <- <-. destruct B as [(_ & B)|[(Z & _)|(Z & _)]]; [|discriminate Z..]. injection B as -> ->. split; reflexivity.
    - destruct B as [(Z & _)|[(_ & -> & B)|(_ & Ni & B)]]; [discriminate Z| |].
      + cbn in G. injection G as <- <-. injection B as -> ->. split; reflexivity.
      + unfold gui_install in B. rewrite G in B. injection B as -> ->. split; reflexivity.
  Qed.
End Button.

(** ** cases *)
Definition t_gives (l : list str) : fstate := Fs [(L "/depot/c/.PKEY", L "key")] (map (fun c => Some (Some c)) l).
Definition t_go (s : fstate) (rm ins : list str) (w : world) : option (option stop * world) :=
  client_go false mach pfx quiet rt t_url t_repo t_sha unit t_pem t_verify t_unpack 0 20 true None rm ins s w.
Definition w_lone : world := after (t_install false false None [Package (L "bar")] [] (t_gives [L "BAR"]) w_empty).
Definition w_swap : world := after (t_go (t_gives [L "FR"]) [L "bar"] [L "foo.fr"] w_lone).
Lemma lone_inv : inv (w_db w_lone).
Proof.
  assert (E : t_install false false None [Package (L "bar")] [] (t_gives [L "BAR"]) w_empty = Some (None, w_lone)) by (vm_compute; reflexivity).
  exact (proj1 (C76_kept _ _ _ _ _ _ _ _ _ _ _ _ _ t_arch _ _ _ _ _ _ _ _ w_empty _ (t_trusted _ _) inv_empty E)).
Qed.
Definition is_ok {A} (r : res A) : bool := match r with Ok _ => true | _ => false end.
Lemma ok_ex {A} (r : res A) : is_ok r = true -> exists m, r = Ok m.
Proof. destruct r as [m| |]; [exists m; reflexivity|discriminate|discriminate]. Qed.
Example C106_case : t_go (t_gives [L "FR"]) [L "bar"] [L "foo.fr"] w_lone = Some (None, w_swap) /\ map fst (w_db w_lone) = [L "bar"] /\ map fst (w_db w_swap) = [L "foo.fr"] /\
  trusted t_url t_repo t_sha unit t_pem t_verify t_unpack t_arch (t_gives [L "FR"]) /\ inv (w_db w_lone) /\ tree (w_fs w_lone) /\ (exists m, load false (w_db w_lone) = Ok m) /\
  NoDup [L "bar"] /\ nodot (L "bar") /\ t_go (t_gives [L "FR"]) [L "nobody"] [L "foo.fr"] w_lone = Some (Some NotInstalled, w_lone).
Proof.
  split; [vm_compute; reflexivity|]. split; [vm_compute; reflexivity|]. split; [vm_compute; reflexivity|]. split; [apply t_trusted|]. split; [exact lone_inv|].
  split; [apply treeb_tree; vm_compute; reflexivity|]. split; [apply ok_ex; vm_compute; reflexivity|].
  split; [constructor; [intros []|constructor]|]. split; [refine (proj1 (nondot_spec (L "bar")) _); reflexivity|]. vm_compute. reflexivity.
Qed.

(** A package in use goes without a question, where 'cards remove' refuses. *)
Theorem C106_in_use_refuted : exists w, installed (w_db w_app) (L "app") /\ needs (w_db w_app) (L "app") (L "lib") /\ installed (w_db w_app) (L "lib") /\
  client_remove false rt [L "lib"] w_app = (None, w) /\ mget (L "lib") (w_db w) = None /\ installed (w_db w) (L "app") /\ needs (w_db w) (L "app") (L "lib") /\
  fst (rmc true [] [L "lib"] w_app) = Some (InUse (L "lib")).
Proof.
  exists (snd (client_remove false rt [L "lib"] w_app)).
  split; [apply is_installed; dec|]. split; [apply needs_line with (t := L "1700000000"); [reflexivity|dec]|]. split; [apply is_installed; dec|]. split; [dec|]. split; [dec|].
  split; [apply is_installed; dec|]. split; [apply needs_line with (t := L "1700000000"); [reflexivity|dec]|]. dec.
Qed.

(** A package chosen for removal is back after a successful "Go !" when one chosen for installation needs it. *)
Theorem C106_back_refuted : exists w, t_go (t_gives [L "FOO"; L "BAR"]) [L "bar"] [L "foo"] w_lone = Some (None, w) /\ installed (w_db w_lone) (L "bar") /\ installed (w_db w) (L "bar").
Proof. exists (after (t_go (t_gives [L "FOO"; L "BAR"]) [L "bar"] [L "foo"] w_lone)). split; [dec|]. split; apply is_installed; dec. Qed.
