(** C102, C103: sessions of flcards, and a sorting function that meets the hypotheses. *)
From Verif Require Import Base BaseProofs StrModel MetaModel IndexModel GuiModel GuiProps GuiSort.
From Coq Require Import ZArith NArith Lia Permutation Sorted.

(** a stable insertion sort *)
Fixpoint put_row (c : nat) (r : bool) (x : row) (l : list row) : list row :=
  match l with [] => [x] | y :: t => if row_less c r y x then y :: put_row c r x t else x :: l end.
Definition isort (c : nat) (r : bool) (l : list row) : list row := fold_right (put_row c r) [] l.
Lemma put_row_perm c r x l : Permutation (put_row c r x l) (x :: l).
Proof.
  induction l as [|y l IH]; cbn [put_row]; [apply Permutation_refl|]. destruct (row_less c r y x); [|apply Permutation_refl].
  etransitivity; [apply perm_skip; exact IH|apply perm_swap].
Qed.
Lemma isort_moves c r l : Permutation (isort c r l) l.
Proof. induction l as [|x l IH]; [constructor|]. cbn [isort fold_right]. etransitivity; [apply put_row_perm|]. apply perm_skip. exact IH. Qed.
Lemma put_row_sorted c r x l : StronglySorted (fun a b => row_less c r b a = false) l -> StronglySorted (fun a b => row_less c r b a = false) (put_row c r x l).
Proof.
  destruct (C103_weak_order c r) as (I & T & N). induction 1 as [|y l H IH F]; cbn [put_row]; [constructor; constructor|].
  destruct (row_less c r y x) eqn:E.
  - constructor; [exact IH|]. apply (Permutation_Forall (Permutation_sym (put_row_perm c r x l))). constructor; [|exact F].
    destruct (row_less c r x y) eqn:X; [|reflexivity]. pose proof (T _ _ _ E X) as Y. rewrite I in Y. discriminate Y.
  - constructor; [constructor; assumption|]. constructor; [exact E|]. eapply Forall_impl; [|exact F]. intros b B. cbn beta in *.
    destruct (row_less c r b x) eqn:X; [|reflexivity]. exfalso.
    destruct (row_less c r x y) eqn:XY; [rewrite (T _ _ _ X XY) in B; discriminate B|].
    destruct (row_less c r y b) eqn:YB; [rewrite (T _ _ _ YB X) in E; discriminate E|].
    destruct (N b y x B YB E XY) as (Z & _). rewrite Z in X. discriminate X.
Qed.
Lemma isort_sorts c r l : StronglySorted (fun a b => row_less c r b a = false) (isort c r l).
Proof. induction l as [|x l IH]; [constructor|]. cbn [isort fold_right]. apply put_row_sorted. exact IH. Qed.

(** a system: what the index offers and what is installed *)
Definition sys := (list (str * details) * list str)%type.
Definition t_remove (l : list str) (w : sys) : sys * bool := ((fst w, filter (fun n => negb (smem n l)) (snd w)), true).
Definition t_install (l : list str) (w : sys) : sys * bool := ((fst w, set_of (l ++ snd w)), true).
Definition t_index : list (str * details) :=
  [(L "bash", Details (L "5.2") (L "the shell") (L "cli") (L "tnut")); (L "kate", Details (L "23.10") (L "an editor") (L "kde") (L "tnut"));
   (L "vim", Details (L "9.1") (L "an editor") (L "cli") (L "tnut"))].
Definition w_gui : sys := (t_index, [L "bash"; L "vim"]).
(** (an index has one record per name: std::map) *)
Definition t_avail (w : sys) : list (str * details) := fold_right (fun e m => mset (fst e) (snd e) m) [] (fst w).
Lemma t_unique w : NoDup (map fst (t_avail w)).
Proof.
  apply ssorted_NoDup. unfold t_avail. induction (fst w) as [|(n & d) l IH]; [constructor|]. cbn [fold_right fst snd]. apply mset_keys_sorted. exact IH.
Qed.
Notation t_run := (GuiModel.run sys t_avail snd t_remove t_install (fun w => w) isort).
Notation t_step := (GuiModel.step sys t_avail snd t_remove t_install (fun w => w) isort).
Notation t_start := (GuiModel.start sys t_avail snd).
Notation t_seen := (GuiProps.seen_by sys t_avail snd).

(** search for editors, choose to install kate and to remove vim, look at bash, press "Go !" *)
Definition t_session : list (event * sys) :=
  [(Search (L "editor"), w_gui); (Click 0 true, w_gui); (Click 1 true, w_gui); (Search [], w_gui); (Look 0, w_gui); (Click 0 false, w_gui)].
Example C102_case : exists os g, t_run t_session (t_start w_gui) = Ok (os, g) /\
  to_install (t_seen w_gui os) (L "kate") /\ to_remove (t_seen w_gui os) (L "vim") /\ v_stale (t_seen w_gui os) = false /\
  map (fun r => nth 0 (r_cols r) []) (g_rows g) = [L "C"; L "A"; L "B"] /\
  exists g', t_step (Go true) g w_gui = Ok (Done [L "vim"] [L "kate"] true (t_index, [L "bash"; L "kate"]), g', (t_index, [L "bash"; L "kate"])) /\
    map (fun r => nth 0 (r_cols r) []) (g_rows g') = [L "C"; L "C"; L "D"] /\ g_active g' = false.
Proof. eexists. eexists. split; [vm_compute; reflexivity|]. split; [reflexivity|]. split; [reflexivity|]. split; [reflexivity|]. split; [reflexivity|].
  eexists. split; [vm_compute; reflexivity|]. split; reflexivity. Qed.

(** Choosing a package, then "Sync", then "Go !": the choice is lost, the button stays active and the job list still points to the deleted
    objects: undefined behaviour. *)
Theorem C102_sync_refuted : exists os g, t_run [(Click 1 true, w_gui); (Sync true, w_gui)] (t_start w_gui) = Ok (os, g) /\
  os = [Picked (L "kate") (L "Install"); Synced w_gui] /\ g_active g = true /\ map (fun r => nth 0 (r_cols r) []) (g_rows g) = [L "C"; L "D"; L "C"] /\
  t_step (Go true) g w_gui = UB.
Proof. eexists. eexists. split; [vm_compute; reflexivity|]. split; [reflexivity|]. split; [reflexivity|]. split; reflexivity. Qed.

(** the versions after one click on their header: the greater first, while names are in ascending order *)
Example C103_case : exists os g, t_run [(Header 2, w_gui)] (t_start w_gui) = Ok (os, g) /\ map (fun r => nth 2 (r_cols r) []) (g_rows g) = [L "23.10"; L "9.1"; L "5.2"] /\
  exists os' g', t_run [(Header 2, w_gui); (Header 2, w_gui)] (t_start w_gui) = Ok (os', g') /\ map (fun r => nth 2 (r_cols r) []) (g_rows g') = [L "5.2"; L "9.1"; L "23.10"].
Proof. eexists. eexists. split; [vm_compute; reflexivity|]. split; [reflexivity|]. eexists. eexists. split; [vm_compute; reflexivity|reflexivity]. Qed.

(** Versions that start with the same number are not ordered: 1.10 and 1.9 may stand in either order, whichever way the column is sorted. *)
Theorem C103_versions_refuted : forall r, let a := Row [[]; L "a"; L "1.9"] (0, 0) in let b := Row [[]; L "b"; L "1.10"] (0, 1) in
  StronglySorted (fun x y => row_less 2 r y x = false) [a; b] /\ StronglySorted (fun x y => row_less 2 r y x = false) [b; a].
Proof. intros r a b. destruct r; (split; repeat constructor). Qed.

(** The order is lost with the next choice, although the arrow still says that the column is sorted. *)
Theorem C103_lost_refuted : exists os g, t_run [(Header 2, w_gui); (Click 0 true, w_gui)] (t_start w_gui) = Ok (os, g) /\ g_lastcol g = Some 2 /\
  map (fun r => nth 2 (r_cols r) []) (g_rows g) = [L "5.2"; L "23.10"; L "9.1"] /\
  ~ StronglySorted (fun x y => row_less 2 false y x = false) (g_rows g).
Proof.
  eexists. eexists. split; [vm_compute; reflexivity|]. split; [reflexivity|]. split; [reflexivity|]. intro H. inversion H as [|? ? _ F]; subst.
  apply Forall_inv in F. vm_compute in F. discriminate F.
Qed.
