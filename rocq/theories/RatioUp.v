(** C78 for 'cards upgrade' itself. *)
From Verif Require Import RatioModel RatioProps Base BaseProofs StrModel RulesModel FsModel MetaModel DbModel GenDeps HexModel IndexModel FetchModel DiffModel DiffProps InstallModel UpCmdModel InstallExamples UpCmdExamples.
From Coq Require Import ZArith Lia.
Open Scope Z_scope.

Section Stops.
  Variables (junk : bool) (machine : str) (re : str -> str -> option bool) (sh : str -> fs -> fs * bool) (root url : str) (repo : list (str * ent)) (sha : str -> str) (key : Type) (pem : str -> option key)
    (verify : key -> str -> str -> bool) (unpack : str -> option archive) (j : DiffModel.junk) (jb : Z).
  Notation upgrade := (cards_upgrade junk machine re sh root url repo sha key pem verify unpack j jb).
  Notation inst m := (Z.of_nat (length (m_pkgs m))).
  (** [c] installed packages are current; without --proceed the upgrade is left undone if these are fewer than four of five *)
  Theorem C78_upgrade fuel proceed scripts conf groups s w m c : load junk (w_db w) = Ok m -> junk_ok j -> m_pkgs m <> [] -> inst m <= 2 ^ 22 -> counts j (index repo) m UOk c ->
    exists halted, stops proceed j (index repo) m = Some halted /\ (halted = true <-> proceed = false /\ 5 * Z.of_nat c < 4 * inst m) /\
      (halted = true -> upgrade fuel halted scripts conf groups s w = Some (None, World (cleanup_meta (w_fs w) root) (w_db w))).
  Proof.
    intros El J Ne Le Co. destruct (C44_counters junk (w_db w) m j (index repo) El J) as (Ok_ & _ & _ & _ & _ & T & _).
    assert (Ec : d_ok (diff j (index repo) m) = c) by (destruct Ok_ as (l1 & N1 & L1 & H1), Co as (l2 & N2 & L2 & H2); rewrite <- L1, <- L2; apply Nat.le_antisymm; apply NoDup_incl_length; try assumption; intros x Hx; [apply H2, H1|apply H1, H2]; exact Hx).
    assert (P : 0 < inst m) by (destruct (m_pkgs m); [contradiction|cbn [length]; lia]).
    destruct (C78_asks (Z.of_nat (d_ok (diff j (index repo) m))) (inst m)) as (r & E & _ & Q); [lia|lia|]. unfold stops. rewrite E. eexists. split; [reflexivity|]. split.
    - rewrite Bool.andb_true_iff, Bool.negb_true_iff, <- Ec, <- Q. rewrite Z.gtb_lt. split; intros [A B]; split; try assumption; lia.
    - intros ->. unfold cards_upgrade. rewrite El. reflexivity.
  Qed.
End Stops.

(** the system of the examples of C77 has no current package: without --proceed nothing is done *)
Example C78_upgrade_case : exists m, load false (w_db w_up) = Ok m /\ junk_ok u_junk /\ m_pkgs m <> [] /\ counts u_junk (index u_repo) m UOk 0 /\
  stops false u_junk (index u_repo) m = Some true /\ stops true u_junk (index u_repo) m = Some false.
Proof.
  destruct (load false (w_db w_up)) as [m| |] eqn:El.
  - exists m. split; [reflexivity|]. assert (J : junk_ok u_junk) by (constructor; reflexivity). split; [exact J|].
    assert (X : match load false (w_db w_up) with Ok m => (length (m_pkgs m), d_ok (diff u_junk (index u_repo) m), stops false u_junk (index u_repo) m, stops true u_junk (index u_repo) m) | _ => (0%nat, 1%nat, None, None) end = (3%nat, 0%nat, Some true, Some false)) by (vm_compute; reflexivity).
    rewrite El in X. injection X as X1 X2 X3 X4. split; [intro H; rewrite H in X1; discriminate X1|]. split; [|split; assumption].
    rewrite <- X2. exact (proj1 (C44_counters false (w_db w_up) m u_junk (index u_repo) El J)).
  - exfalso. assert (X : match load false (w_db w_up) with Ok _ => true | _ => false end = true) by (vm_compute; reflexivity). rewrite El in X. discriminate X.
  - exfalso. assert (X : match load false (w_db w_up) with Ok _ => true | _ => false end = true) by (vm_compute; reflexivity). rewrite El in X. discriminate X.
Qed.
