(** C86: the key pair of a publisher. *)
From Verif Require Import Base BaseProofs StrModel FsModel MetaModel ConfModel KeysModel.

(** ** specification *)
(** no permission for anybody but the owner *)
Definition hidden (m : N) : Prop := N.land m 63 = 0%N.

Section Keys.
  Variable umask : N.
  Variable can : str -> bool.
  Variable uid : N.
  Variables keypath pubfile priv pub : str.
  Notation key_file := (keypath ++ L "/.private.key").
  Notation keys_run := (keys_run umask can uid keypath pubfile priv pub).
  Notation keys_seen := (keys_seen umask can uid keypath pubfile priv pub).
  (** the permissions a file that is opened for writing has *)
  Definition perm_of (p : str) (s : pstore) : N := match mget p s with Some (_, m) => m | None => N.ldiff 438 umask end.

  Lemma seqb_ne (a b : str) : a <> b -> seqb a b = false.
  Proof. intro N. destruct (seqb a b) eqn:E; [apply seqb_eq in E; contradiction|reflexivity]. Qed.
  Lemma other {A} k k' (v : A) m : k' <> k -> mget k' (mset k v m) = mget k' m.
  Proof. intro N. rewrite mget_mset, (seqb_ne _ _ N). reflexivity. Qed.
  Lemma same {A} k (v : A) m : mget k (mset k v m) = Some v.
  Proof. rewrite mget_mset, seqb_refl. reflexivity. Qed.
  Lemma guard : (uid =? 0)%N || is_nil keypath = false <-> uid <> 0%N /\ keypath <> [].
  Proof.
    destruct (N.eqb_spec uid 0) as [->|U]; cbn [orb]; [split; [discriminate|intros [H _]; destruct H; reflexivity]|].
    destruct keypath as [|c k]; cbn [is_nil]; [split; [discriminate|intros [_ H]; destruct H; reflexivity]|]. split; [intros _; split; [exact U|discriminate]|reflexivity].
  Qed.
  (** what the file [p] holds after the steps on it, and what another file keeps *)
  Lemma trunc_get p q s : mget q (truncated umask p s) = if seqb q p then Some ([], perm_of p s) else mget q s.
  Proof. unfold truncated. rewrite mget_mset. reflexivity. Qed.
  Lemma put_get p c q s : mget q (put_text p c s) = if seqb q p then option_map (fun x => (c, snd x)) (mget p s) else mget q s.
  Proof.
    unfold put_text. destruct (mget p s) as [[c0 m]|] eqn:E; [rewrite mget_mset; reflexivity|]. destruct (seqb q p) eqn:Q; [apply seqb_eq in Q; subst q; rewrite E; reflexivity|reflexivity].
  Qed.
  Lemma chmod_get p m q s : mget q (chmod p m s) = if seqb q p then option_map (fun x => (fst x, m)) (mget p s) else mget q s.
  Proof.
    unfold chmod. destruct (mget p s) as [[c0 m0]|] eqn:E; [rewrite mget_mset; reflexivity|]. destruct (seqb q p) eqn:Q; [apply seqb_eq in Q; subst q; rewrite E; reflexivity|reflexivity].
  Qed.
  (** every state, given by the two files: how far the private key is written, its permissions, and the public key *)
  Inductive stage (s s' : pstore) : Prop :=
  | st_start : s' = s -> stage s s'
  | st_writing n : can key_file = true -> mget key_file s' = Some (firstn n priv, perm_of key_file s) -> (forall p, p <> key_file -> mget p s' = mget p s) -> stage s s'
  | st_private : can key_file = true -> mget key_file s' = Some (priv, 384%N) -> (forall p, p <> key_file -> mget p s' = mget p s) -> stage s s'
  | st_public n : can key_file = true -> can pubfile = true -> mget key_file s' = Some (priv, 384%N) -> mget pubfile s' = Some (firstn n pub, perm_of pubfile s) ->
      (forall p, p <> key_file -> p <> pubfile -> mget p s' = mget p s) -> stage s s'.
  Ltac gets := repeat (rewrite ?trunc_get, ?put_get, ?chmod_get); rewrite ?seqb_refl; cbn [option_map fst snd].
  (** *** every state that can be observed while the command runs, or that a crash can leave *)
  Theorem C86_seen s s' : key_file <> pubfile -> keys_seen s s' -> stage s s'.
  Proof.
    intros Ne. assert (Nf : seqb key_file pubfile = false) by (apply seqb_ne, Ne). assert (Nf' : seqb pubfile key_file = false) by (apply seqb_ne; intro X; apply Ne; symmetry; exact X).
    unfold KeysModel.keys_seen. destruct ((uid =? 0)%N || is_nil keypath); [intros ->; apply st_start; reflexivity|]. unfold program, private_file. set (kf := key_file) in *. intro D.
    inversion D as [| |x t s0 a1 s'0 E1 D1]; subst; [apply st_start; reflexivity|]. clear D. cbn [do_step] in E1. destruct (can kf) eqn:Ck; [|discriminate E1]. injection E1 as <-.
    assert (G1 : forall q, mget q (truncated umask kf s) = if seqb q kf then Some ([], perm_of kf s) else mget q s) by (intro q; apply trunc_get).
    inversion D1 as [|? ? ? ? n|x t s0 a2 s'0 E2 D2]; subst; clear D1.
    - apply (st_writing s _ 0); [exact Ck|rewrite G1, seqb_refl; reflexivity|]. intros p Np. fold kf in Np. rewrite G1, (seqb_ne _ _ Np). reflexivity.
    - apply (st_writing s _ n); [exact Ck|rewrite put_get, seqb_refl, G1, seqb_refl; reflexivity|]. intros p Np. fold kf in Np. rewrite put_get, (seqb_ne _ _ Np), G1, (seqb_ne _ _ Np). reflexivity.
    - cbn [do_step] in E2. injection E2 as <-. set (t2 := put_text kf priv (truncated umask kf s)) in *.
      assert (G2 : forall q, mget q t2 = if seqb q kf then Some (priv, perm_of kf s) else mget q s).
      { intro q. unfold t2. rewrite put_get, !G1, seqb_refl. destruct (seqb q kf); reflexivity. }
      inversion D2 as [| |x t s0 a3 s'0 E3 D3]; subst; clear D2.
      + apply (st_writing s _ (length priv)); [exact Ck|rewrite G2, seqb_refl, firstn_all; reflexivity|]. intros p Np. fold kf in Np. rewrite G2, (seqb_ne _ _ Np). reflexivity.
      + cbn [do_step] in E3. injection E3 as <-. set (t3 := chmod kf 384 t2) in *.
        assert (G3 : forall q, mget q t3 = if seqb q kf then Some (priv, 384%N) else mget q s).
        { intro q. unfold t3. rewrite chmod_get, !G2, seqb_refl. destruct (seqb q kf); reflexivity. }
        assert (Pp : perm_of pubfile t3 = perm_of pubfile s) by (unfold perm_of; rewrite G3, Nf'; reflexivity).
        inversion D3 as [| |x t s0 a4 s'0 E4 D4]; subst; clear D3.
        * apply st_private; [exact Ck|rewrite G3, seqb_refl; reflexivity|]. intros p Np. fold kf in Np. rewrite G3, (seqb_ne _ _ Np). reflexivity.
        * cbn [do_step] in E4. destruct (can pubfile) eqn:Cp; [|discriminate E4]. injection E4 as <-. set (t4 := truncated umask pubfile t3) in *.
          assert (G4 : forall q, mget q t4 = if seqb q pubfile then Some ([], perm_of pubfile s) else mget q t3) by (intro q; unfold t4; rewrite trunc_get, Pp; reflexivity).
          assert (W : forall m z, mget pubfile z = Some (firstn m pub, perm_of pubfile s) -> (forall q, q <> pubfile -> mget q z = mget q t3) -> stage s z).
          { intros m z Z1 Z2. apply (st_public s z m); [exact Ck|exact Cp|rewrite Z2 by exact Ne; rewrite G3, seqb_refl; reflexivity|exact Z1|].
            intros p N1 N2. fold kf in N1. rewrite Z2 by exact N2. rewrite G3, (seqb_ne _ _ N1). reflexivity. }
          inversion D4 as [|? ? ? ? n|x t s0 a5 s'0 E5 D5]; subst; clear D4.
          -- apply (W 0); [rewrite G4, seqb_refl; reflexivity|]. intros q Nq. rewrite G4, (seqb_ne _ _ Nq). reflexivity.
          -- apply (W n); [rewrite put_get, seqb_refl, G4, seqb_refl; reflexivity|]. intros q Nq. rewrite put_get, (seqb_ne _ _ Nq), G4, (seqb_ne _ _ Nq). reflexivity.
          -- cbn [do_step] in E5. injection E5 as <-. inversion D5; subst. apply (W (length pub)); [rewrite put_get, seqb_refl, G4, seqb_refl, firstn_all; reflexivity|].
             intros q Nq. rewrite put_get, (seqb_ne _ _ Nq), G4, (seqb_ne _ _ Nq). reflexivity.
  Qed.
  (** *** when it succeeds, and what it leaves: both keys, the private one for its owner only, and nothing else touched; never as root *)
  Theorem C86_done s : key_file <> pubfile ->
    (fst (keys_run s) = Ok tt <-> uid <> 0%N /\ keypath <> [] /\ can key_file = true /\ can pubfile = true) /\
    (fst (keys_run s) = Ok tt -> let s' := snd (keys_run s) in
       mget key_file s' = Some (priv, 384%N) /\ hidden 384 /\ mget pubfile s' = Some (pub, perm_of pubfile s) /\ forall p, p <> key_file -> p <> pubfile -> mget p s' = mget p s) /\
    (uid = 0%N \/ keypath = [] \/ can key_file = false -> keys_run s = (Throw, s)).
  Proof.
    intros Ne. assert (Nf : seqb key_file pubfile = false) by (apply seqb_ne, Ne). assert (Nf' : seqb pubfile key_file = false) by (apply seqb_ne; intro X; apply Ne; symmetry; exact X).
    unfold KeysModel.keys_run. destruct ((uid =? 0)%N || is_nil keypath) eqn:Gd.
    - cbn [fst snd]. split; [split; [discriminate|]|split; [discriminate|reflexivity]]. intros (A & B & _). pose proof (proj2 guard (conj A B)) as X. rewrite Gd in X. discriminate X.
    - apply guard in Gd as [U K]. unfold program, private_file. set (kf := key_file) in *. cbn [run do_step]. destruct (can kf) eqn:Ck.
      + destruct (can pubfile) eqn:Cp; cbn [fst snd].
        * split; [split; [auto|reflexivity]|]. split; [|intros [X|[X|X]]; [contradiction|contradiction|discriminate X]]. intros _. cbv zeta.
          assert (Pp : perm_of pubfile (chmod kf 384 (put_text kf priv (truncated umask kf s))) = perm_of pubfile s) by (unfold perm_of; gets; rewrite ?Nf'; reflexivity).
          split; [gets; rewrite ?Nf; cbn [option_map fst snd]; gets; reflexivity|]. split; [reflexivity|]. split; [gets; rewrite ?Nf', ?Pp; reflexivity|].
          intros p N1 N2. apply seqb_ne in N1. apply seqb_ne in N2. gets. rewrite ?N1, ?N2. reflexivity.
        * split; [split; [discriminate|intros (_ & _ & _ & X); discriminate X]|]. split; [discriminate|intros [X|[X|X]]; [contradiction|contradiction|discriminate X]].
      + cbn [fst snd]. split; [split; [discriminate|intros (_ & _ & X & _); discriminate X]|]. split; [discriminate|reflexivity].
  Qed.
  (** *** nobody else can ever read the new private key, provided the umask or the old file's permissions hide it from the start *)
  Theorem C86_private_partial s s' c m : key_file <> pubfile -> keys_seen s s' -> hidden (perm_of key_file s) -> mget key_file s' = Some (c, m) -> mget key_file s' <> mget key_file s -> hidden m.
  Proof.
    intros Ne D H E N. apply C86_seen in D; [|exact Ne]. destruct D as [-> | n Ck P F | Ck P F | n Ck Cp P Q F]; [contradiction N; reflexivity| | |]; rewrite P in E; injection E as _ <-; [exact H|reflexivity|reflexivity].
  Qed.
End Keys.

(** ** witness, and where the claim fails *)
Definition kp : str := L "/home/me/keys".
Definition kf : str := L "/home/me/keys/.private.key".
Definition pf : str := L "/home/me/.PKEY".
Definition old_keys : pstore := [(pf, (L "oldpub", 420%N)); (kf, (L "oldpriv", 384%N))].
Example C86_witness : let '(r, s) := keys_run 18 (fun _ => true) 1000 kp pf (L "priv") (L "pub") [] in r = Ok tt /\ mget kf s = Some (L "priv", 384%N) /\ mget pf s = Some (L "pub", 420%N) /\
  kp ++ L "/.private.key" = kf /\ kf <> pf /\ hidden (perm_of 63 kf []) /\ hidden (perm_of 18 kf old_keys).
Proof. vm_compute. split; [reflexivity|]. split; [reflexivity|]. split; [reflexivity|]. split; [reflexivity|]. split; [discriminate|]. split; reflexivity. Qed.
(** *** with the usual umask a new private key is written to a file that everybody can read, and a crash leaves it so *)
Theorem C86_exposed_refuted : exists s', keys_seen 18 (fun _ => true) 1000 kp pf (L "priv") (L "pub") [] s' /\ mget kf s' = Some (L "priv", 420%N) /\ N.land 420 36 = 36%N /\ ~ hidden 420.
Proof.
  exists [(kf, (L "priv", 420%N))]. split; [|split; [vm_compute; reflexivity|split; [reflexivity|discriminate]]].
  change (seen 18 (fun _ => true) (program kp pf (L "priv") (L "pub")) [] [(kf, (L "priv", 420%N))]). unfold program.
  eapply seen_later; [reflexivity|]. eapply seen_later; [reflexivity|]. replace (put_text _ _ _) with [(kf, (L "priv", 420%N))] by (vm_compute; reflexivity). apply seen_now.
Qed.
(** *** an existing pair is overwritten without a question; when the public key cannot be written, the private key is lost all the same
    and does not fit the public key that is left *)
Theorem C86_lost_refuted : keys_run 18 (fun p => negb (seqb p pf)) 1000 kp pf (L "priv") (L "pub") old_keys = (Throw, [(pf, (L "oldpub", 420%N)); (kf, (L "priv", 384%N))]).
Proof. vm_compute. reflexivity. Qed.
