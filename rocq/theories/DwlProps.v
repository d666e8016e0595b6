(** C113: what a download leaves on disk. *)
From Verif Require Import Base BaseProofs DwlModel.
From Coq Require Import ZArith Lia.
Open Scope nat_scope.

(** ** specification *)
Definition received (ps : list piece) : str := flat_map fst ps.
Definition begins (s t : str) : Prop := exists u, t = s ++ u.

(** ** proofs *)
Lemma firstn_cap {A} : forall n (l : list A), firstn (Nat.min n (length l)) l = firstn n l.
Proof. induction n as [|n IH]; intros [|x l]; try reflexivity. cbn [length Nat.min firstn]. rewrite IH. reflexivity. Qed.
Section Get.
Variables (can_open : bool) (room : nat) (now : Z).
Notation pass := (pass room now).
Notation takes := (take_pieces can_open room now).
Notation get := (get can_open room now).
(** an open stream that has been given [r] *)
Definition streams (r : str) (s : dst) : Prop := d_open s = true /\ (exists c, d_disk s = Some (c, now) /\ c ++ d_pend s = r /\ length c <= room).
Lemma pass_streams r k s : streams r s -> streams r (fst (pass k s)) /\ (snd (pass k s) = true -> length (d_pend (fst (pass k s))) = length (d_pend s) - k).
Proof.
  intros (O & c & E & R & B). unfold DwlModel.pass, on_disk. rewrite E. cbn [fst snd d_open d_disk d_pend]. split.
  - split; [reflexivity|]. eexists. split; [reflexivity|]. split; [rewrite <- app_assoc, firstn_skipn; exact R|]. rewrite app_length, firstn_length. lia.
  - intro X. apply Nat.eqb_eq in X. rewrite skipn_length. lia.
Qed.
Lemma pass_ok r k s : streams r s -> length r <= room -> snd (pass k s) = true.
Proof.
  intros (O & c & E & R & B) Le. unfold DwlModel.pass, on_disk. rewrite E. cbn [snd]. apply Nat.eqb_eq. rewrite <- R, app_length in Le. lia.
Qed.
Lemma piece_streams r p s : streams r s -> streams (r ++ fst p) (fst (take_piece can_open room now p s)).
Proof.
  intros H. pose proof H as (O & c & E & R & B). unfold take_piece. rewrite O. cbn [orb]. apply pass_streams. split; [reflexivity|]. exists c. cbn [d_disk d_pend]. split; [exact E|]. split; [rewrite app_assoc, R; reflexivity|exact B].
Qed.
Lemma piece_ok r p s : streams r s -> length (r ++ fst p) <= room -> snd (take_piece can_open room now p s) = true.
Proof.
  intros H Le. pose proof H as (O & c & E & R & B). unfold take_piece. rewrite O. cbn [orb]. apply (pass_ok (r ++ fst p)); [|exact Le]. split; [reflexivity|]. exists c. cbn [d_disk d_pend]. split; [exact E|]. split; [rewrite app_assoc, R; reflexivity|exact B].
Qed.
(** after some pieces of [ps]: the stream has been given a beginning of what was received *)
Lemma takes_streams : forall ps r s, streams r s -> exists r', streams (r ++ r') (fst (takes ps s)) /\ begins r' (received ps) /\ (snd (takes ps s) = true -> r' = received ps).
Proof.
  induction ps as [|p ps IH]; intros r s H; cbn [take_pieces].
  - exists []. rewrite app_nil_r. split; [exact H|]. split; [exists []; reflexivity|reflexivity].
  - pose proof (piece_streams r p s H) as P. destruct (take_piece can_open room now p s) as [s1 ok]. cbn [fst] in P. destruct ok.
    + destruct (IH (r ++ fst p) s1 P) as (r' & A & (u & B) & D). exists (fst p ++ r'). rewrite app_assoc. split; [exact A|]. unfold received. cbn [flat_map]. fold (received ps). split; [exists u; rewrite B, app_assoc; reflexivity|]. intro X. rewrite (D X). reflexivity.
    + exists (fst p). cbn [fst snd]. split; [exact P|]. split; [exists (received ps); reflexivity|discriminate].
Qed.
Lemma takes_ok : forall ps r s, streams r s -> length (r ++ received ps) <= room -> snd (takes ps s) = true.
Proof.
  induction ps as [|p ps IH]; intros r s H Le; [reflexivity|]. change (received (p :: ps)) with (fst p ++ received ps) in Le. cbn [take_pieces]. assert (Lp : length (r ++ fst p) <= room) by (rewrite app_length in Le |- *; pose proof (app_length (fst p) (received ps)) as Q; change (@List.length ascii (fst p ++ received ps) = @List.length ascii (fst p) + @List.length ascii (received ps)) in Q; apply (Nat.le_trans _ (length r + length (fst p ++ received ps))); [rewrite Q; lia|exact Le]).
  pose proof (piece_streams r p s H) as P. pose proof (piece_ok r p s H Lp) as Q. destruct (take_piece can_open room now p s) as [s1 ok]. cbn [fst snd] in P, Q. subst ok. apply (IH (r ++ fst p)); [exact P|]. rewrite <- app_assoc. exact Le.
Qed.
Lemma opened_streams : streams [] (D (Some ([], now)) [] true).
Proof. split; [reflexivity|]. exists []. split; [reflexivity|]. split; [reflexivity|cbn; lia]. Qed.
(** the first piece *)
Lemma takes_start p ps old : can_open = true -> takes (p :: ps) (start old) = takes (p :: ps) (D (Some ([], now)) [] true).
Proof. intro Co. cbn [take_pieces]. unfold take_piece, start. cbn [d_open orb d_disk d_pend]. rewrite Co. reflexivity. Qed.
Lemma takes_closed p ps old : can_open = false -> takes (p :: ps) (start old) = (start old, false).
Proof. intro Co. cbn [take_pieces]. unfold take_piece. cbn [start d_open orb]. rewrite Co. reflexivity. Qed.
Lemma all_passed r s : streams r s -> exists n, d_disk (fst (pass (length (d_pend s)) s)) = Some (firstn n r, now) /\ n = min room (length r).
Proof.
  intros (O & c & E & R & B). unfold DwlModel.pass, on_disk. rewrite E. cbn [fst d_disk]. exists (min room (length r)). split; [|reflexivity]. f_equal. f_equal. rewrite <- R, firstn_app, app_length, Nat.min_id.
  rewrite (firstn_all2 c) by lia. f_equal. destruct (Nat.le_gt_cases (length (d_pend s)) (room - length c)).
  - rewrite Nat.min_l by lia. rewrite !firstn_all2 by lia. reflexivity.
  - f_equal. lia.
Qed.

(** *** a download that returns: its end *)
Theorem C113_returned ps e old new : get ps e old = (new, true) -> exists date, e = Good date /\
  ((ps = [] /\ new = old) \/ (ps <> [] /\ can_open = true /\ new = Some (firstn room (received ps), date))).
Proof.
  unfold DwlModel.get. intro E. destruct e as [date|rest]; [|destruct (takes ps (start old)); discriminate E]. exists date. split; [reflexivity|]. destruct ps as [|p ps].
  - cbn [take_pieces start d_open d_disk] in E. injection E as <-. left. auto.
  - right. split; [discriminate|]. assert (Cd : can_open = true \/ can_open = false) by (destruct can_open; auto). destruct Cd as [Co|Co].
    + split; [exact Co|]. rewrite takes_start in E by exact Co. destruct (takes_streams (p :: ps) [] _ opened_streams) as (r' & A & _ & X). destruct (takes (p :: ps) (D (Some ([], now)) [] true)) as [s ok]. cbn [fst snd app] in *.
      destruct ok; [|discriminate E]. rewrite (X eq_refl) in A. pose proof A as (O & _). rewrite O in E. destruct (all_passed _ s A) as (n & Pn & N). rewrite Pn in E. injection E as <-. f_equal. f_equal. rewrite N.
      apply firstn_cap.
    + rewrite takes_closed in E by exact Co. discriminate E.
Qed.
(** *** when it returns *)
Theorem C113_complete ps date old : can_open = true -> length (received ps) <= room -> get ps (Good date) old = (match ps with [] => old | _ => Some (received ps, date) end, true).
Proof.
  intros Co Le. assert (K : snd (get ps (Good date) old) = true).
  { unfold DwlModel.get. destruct ps as [|p ps]; [reflexivity|]. rewrite takes_start by exact Co. pose proof (takes_ok (p :: ps) [] _ opened_streams Le) as T. destruct (takes (p :: ps) _) as [s ok]. cbn [snd] in T. subst ok. destruct (d_open s); reflexivity. }
  destruct (get ps (Good date) old) as [new ok] eqn:E. cbn [snd] in K. subst ok. destruct (C113_returned ps _ old new E) as (d' & Ed & [[-> ->]|(N & _ & ->)]).
  - reflexivity.
  - injection Ed as <-. rewrite firstn_all2 by exact Le. destruct ps; [destruct (N eq_refl)|reflexivity].
Qed.
(** *** a download that fails: nothing was touched, or the file holds a beginning of what was received *)
Theorem C113_failed ps e old new : get ps e old = (new, false) -> (new = old /\ (ps = [] \/ can_open = false)) \/ (ps <> [] /\ can_open = true /\ exists c, new = Some (c, now) /\ begins c (received ps)).
Proof.
  unfold DwlModel.get. intro E. destruct ps as [|p ps].
  - cbn [take_pieces] in E. destruct e; cbn [start d_open d_disk] in E; [discriminate E|]. injection E as <-. left. auto.
  - assert (Cd : can_open = true \/ can_open = false) by (destruct can_open; auto). destruct Cd as [Co|Co].
    + right. split; [discriminate|]. split; [exact Co|]. rewrite takes_start in E by exact Co. destruct (takes_streams (p :: ps) [] _ opened_streams) as (r' & A & B & _). destruct (takes (p :: ps) (D (Some ([], now)) [] true)) as [s ok]. cbn [fst snd app] in *.
      assert (Bg : forall s', streams r' s' -> exists c, d_disk s' = Some (c, now) /\ begins c (received (p :: ps))).
      { intros s' (_ & c & Ec & R & _). exists c. split; [exact Ec|]. destruct B as [u B]. exists (d_pend s' ++ u). rewrite app_assoc, R. exact B. }
      pose proof A as (O & _). rewrite O in E. destruct e as [date|rest]; [destruct ok; [discriminate E|]|]; apply pair_equal_spec in E; destruct E as [<- _].
      * exact (Bg s A).
      * exact (Bg _ (proj1 (pass_streams r' rest s A))).
    + rewrite takes_closed in E by exact Co. left. destruct e as [date|rest]; cbn [start d_open d_disk] in E; injection E as <-; auto.
Qed.
(** *** the process killed at any moment: the same, for what had been received *)
Theorem C113_killed ps old : let s := fst (takes ps (start old)) in
  (d_disk s = old /\ (ps = [] \/ can_open = false)) \/ (can_open = true /\ exists c, d_disk s = Some (c, now) /\ begins c (received ps)).
Proof.
  intro s. unfold s. destruct ps as [|p ps]; [left; auto|]. assert (Cd : can_open = true \/ can_open = false) by (destruct can_open; auto). destruct Cd as [Co|Co].
  - right. split; [exact Co|]. rewrite takes_start by exact Co. destruct (takes_streams (p :: ps) [] _ opened_streams) as (r' & A & (u & B) & _). destruct A as (_ & c & Ec & R & _). exists c. split; [exact Ec|]. exists (d_pend (fst (takes (p :: ps) (D (Some ([], now)) [] true))) ++ u). rewrite app_assoc, R. exact B.
  - left. rewrite takes_closed by exact Co. auto.
Qed.
End Get.

(** ** a list of downloads *)
(** what the file holds afterwards, when the download of it returned *)
Definition fetched (k : course) (old new : option (str * Z)) : Prop := exists date, k_end k = Good date /\
  ((k_pieces k = [] /\ new = old) \/ (k_pieces k <> [] /\ k_open k = true /\ new = Some (firstn (k_room k) (received (k_pieces k)), date))).
Definition half_fetched (k : course) (old new : option (str * Z)) : Prop :=
  (new = old /\ (k_pieces k = [] \/ k_open k = false)) \/ (k_pieces k <> [] /\ k_open k = true /\ exists c, new = Some (c, k_now k) /\ begins c (received (k_pieces k))).
Lemma put_at_same p v fs : (v = None -> mget p fs = None) -> mget p (put_at p v fs) = v.
Proof. intro H. destruct v as [c|]; cbn [put_at]; [rewrite mget_mset, seqb_refl; reflexivity|apply H; reflexivity]. Qed.
Lemma put_at_other p q v fs : q <> p -> mget q (put_at p v fs) = mget q fs.
Proof. intro N. destruct v as [c|]; cbn [put_at]; [|reflexivity]. rewrite mget_mset. destruct (seqb_spec q p); [contradiction|reflexivity]. Qed.
Lemma none_kept k old new ok : get (k_open k) (k_room k) (k_now k) (k_pieces k) (k_end k) old = (new, ok) -> new = None -> old = None.
Proof.
  intros E ->. destruct ok.
  - destruct (C113_returned _ _ _ _ _ _ _ E) as (d & _ & [[_ X]|(_ & _ & X)]); [symmetry; exact X|discriminate X].
  - destruct (C113_failed _ _ _ _ _ _ _ E) as [[X _]|(_ & _ & c & X & _)]; [symmetry; exact X|discriminate X].
Qed.
(** one after the other; the first that fails ends it: what comes after is as it was *)
Theorem C113_list : forall l fs fs' ok, get_all l fs = (fs', ok) -> NoDup (map (fun e => stored_at (fst e)) l) ->
  (forall p, ~ In p (map (fun e => stored_at (fst e)) l) -> mget p fs' = mget p fs) /\
  exists a b, l = a ++ b /\ (forall w k, In (w, k) a -> fetched k (mget (stored_at w) fs) (mget (stored_at w) fs')) /\
    ((ok = true /\ b = []) \/ (ok = false /\ exists w k c, b = (w, k) :: c /\ half_fetched k (mget (stored_at w) fs) (mget (stored_at w) fs') /\ forall w' k', In (w', k') c -> mget (stored_at w') fs' = mget (stored_at w') fs)).
Proof.
  induction l as [|[w k] l IH]; intros fs fs' ok E Nd; cbn [get_all] in E.
  - injection E as <- <-. split; [reflexivity|]. exists [], []. split; [reflexivity|]. split; [intros w k []|left; auto].
  - destruct (get (k_open k) (k_room k) (k_now k) (k_pieces k) (k_end k) (mget (stored_at w) fs)) as [v g] eqn:G. cbn [map fst] in Nd |- *. inversion Nd as [|? ? N1 N2]; subst.
    assert (Sm : mget (stored_at w) (put_at (stored_at w) v fs) = v) by (apply put_at_same; exact (none_kept k _ v g G)).
    destruct g.
    + destruct (IH _ _ _ E N2) as (A & a & b & -> & F & B). assert (Ws : mget (stored_at w) fs' = v) by (rewrite (A _ N1); exact Sm).
      assert (Ot : forall w' k', In (w', k') (a ++ b) -> mget (stored_at w') (put_at (stored_at w) v fs) = mget (stored_at w') fs).
      { intros w' k' I. apply put_at_other. intro X. apply N1. rewrite <- X. apply (in_map (fun e : want * course => stored_at (fst e)) (a ++ b) (w', k')), I. }
      split; [intros p Np; rewrite A by (intro X; apply Np; right; exact X); apply put_at_other; intro X; apply Np; left; symmetry; exact X|].
      exists ((w, k) :: a), b. split; [reflexivity|]. split.
      * intros w' k' [X|I]; [injection X as <- <-; rewrite Ws; exact (C113_returned _ _ _ _ _ _ _ G)|]. rewrite <- (Ot w' k') by (apply in_app_iff; left; exact I). exact (F w' k' I).
      * destruct B as [B|(Eo & w1 & k1 & c & -> & H & Af)]; [left; exact B|]. right. split; [exact Eo|]. exists w1, k1, c. split; [reflexivity|]. split.
        { rewrite <- (Ot w1 k1) by (apply in_app_iff; right; left; reflexivity). exact H. }
        intros w' k' I. rewrite (Af w' k' I). apply (Ot w' k'). apply in_app_iff. right. right. exact I.
    + injection E as <- <-. split; [intros p Np; apply put_at_other; intro X; apply Np; left; symmetry; exact X|]. exists [], ((w, k) :: l). split; [reflexivity|]. split; [intros w' k' []|]. right. split; [reflexivity|]. exists w, k, l.
      split; [reflexivity|]. split; [rewrite Sm; exact (C113_failed _ _ _ _ _ _ _ G)|]. intros w' k' I. apply put_at_other. intro X. apply N1. rewrite <- X. apply (in_map (fun e : want * course => stored_at (fst e)) l (w', k')), I.
Qed.
(** *** what is asked for and where it goes: the name given, with .zst behind it, except the key *)
Theorem C113_names w : exists n, asked_url w = w_url w ++ n /\ stored_at w = w_dir w ++ n /\ (w_name w = L "/.PKEY" -> n = L "/.PKEY") /\ (w_name w <> L "/.PKEY" -> n = w_name w ++ L ".zst").
Proof.
  exists (sent_name w). split; [reflexivity|]. split; [reflexivity|]. unfold sent_name, public_key. destruct (seqb_spec (w_name w) (L "/.PKEY")) as [E|N]; (split; [intro X|intro X]); try reflexivity; [exact E|contradiction|contradiction].
Qed.

(** ** concrete cases *)
Definition t_key : want := W (L "/.PKEY") (L "http://h/") (L "/d/").
Definition t_repo : want := W (L ".REPO") (L "http://h/") (L "/d/").
Definition t_files : want := W (L ".FILES") (L "http://h/") (L "/d/").
Definition t_fine (s : str) : course := C true 100 7 [(s, 1); (L "!", 0)] (Good 5).
Definition t_broken : course := C true 100 7 [(L "abc", 2); (L "def", 0)] (Bad 2).
Example C113_witness : get_all [(t_key, t_fine (L "k")); (t_repo, t_broken); (t_files, t_fine (L "f"))] [(L "/d/.REPO.zst", (L "old", 3%Z))] =
  ([(L "/d/.REPO.zst", (L "abcd", 7%Z)); (L "/d//.PKEY", (L "k!", 5%Z))], false) /\ NoDup (map (fun e => stored_at (fst e)) [(t_key, t_fine (L "k")); (t_repo, t_broken); (t_files, t_fine (L "f"))]).
Proof. split; [vm_compute; reflexivity|]. vm_compute. repeat constructor; intros H; repeat (destruct H as [H|H]; [discriminate H|]); exact H. Qed.
(** *** the device is full when the last bytes are passed on: the download returns, the file is cut *)
Theorem C113_full_refuted : get true 3 7 [(L "abcdef", 0)] (Good 5) None = (Some (L "abc", 5%Z), true).
Proof. vm_compute. reflexivity. Qed.
(** *** a transfer without a byte leaves the file of before, and returns *)
Theorem C113_empty_refuted : get true 100 7 [] (Good 5) (Some (L "old", 3%Z)) = (Some (L "old", 3%Z), true).
Proof. vm_compute. reflexivity. Qed.
(** *** a transfer that breaks has already destroyed the file of before *)
Theorem C113_broken_refuted : get true 100 7 [(L "n", 0)] (Bad 0) (Some (L "old", 3%Z)) = (Some ([], 7%Z), false).
Proof. vm_compute. reflexivity. Qed.
