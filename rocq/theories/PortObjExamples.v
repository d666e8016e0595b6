(** C112: with C65, what the recipes themselves say; and the exceptions. *)
From Verif Require Import Base BaseProofs StrModel StrSpec StrProofs Graph FsModel FsProofs MetaModel MetaExact ConfModel RecipeModel RecipeProps RecipeExact PortsModel PortsProofs PortsProps PortsLists PortObjModel PortObjProps.
From Coq Require Import ZArith Lia.
Open Scope nat_scope.

Lemma last_field_app k v xs ys : last_field ys k v -> last_field (xs ++ ys) k v.
Proof. intros (a & b & -> & N). exists (xs ++ a), b. split; [rewrite <- app_assoc; reflexivity|exact N]. Qed.
(** [e], with items [is], is the last recipe of its name when the object first looks: at any later time, in any world, it is answered for with
    its own place, version, release and dependencies *)
Theorem C112_recipes cfg rs a e b is h0 q w0 h w : Forall s_ok rs -> recipes cfg w0 = map s_content rs -> rs = a ++ e :: b -> ~ In (s_name e) (map s_name b) -> snd e = Some is ->
  early cfg h0 -> needs_ports q ->
  let o := pcalls cfg (h0 ++ (q, w0) :: h) new_pobj in let n := s_name e in
  panswer cfg (Known n) w o = Ok (PBool true) /\ panswer cfg (Place n) w o = Ok (PText (s_coll e ++ L "/" ++ n)) /\
  (forall v, last_field is (L "version") v -> panswer cfg (PVersion n) w o = Ok (PText v)) /\
  (forall v, last_field (Field (L "release") (L "1") :: is) (L "release") v -> Forall is_digit v -> (read_dec v < 2 ^ 63)%N -> panswer cfg (PRelease n) w o = Ok (PNum (Some (read_dec v mod 2 ^ 16)%N))) /\
  exists ds, panswer cfg (Needs n) w o = Ok (PSet ds) /\ NoDup ds /\ forall x, In x ds <-> exists i, In i is /\ asks i x.
Proof.
  intros F R E Nb Si Ea Q o n. destruct (C65_exact rs F) as (m & Rm & V & K).
  assert (Ie : In e rs) by (rewrite E; apply in_elt). pose proof (K e Ie) as G. destruct (mget (s_name e) m) as [p|] eqn:Gp; [|destruct (G eq_refl)].
  assert (A : looked_at cfg m h0 q h o).
  { exists w0. split; [exact Ea|]. split; [exact Q|]. split; [|reflexivity]. split; [rewrite R; exact Rm|]. intros ->. discriminate Gp. }
  destruct (C112_known cfg m h0 q h o n p w A Gp) as (A1 & A2 & A3 & A4 & A5). destruct (V n p Gp) as (a' & e' & b' & E' & Ne' & Nb' & Cp & Vp & Dp).
  assert (Ee : a' = a /\ e' = e).
  { rewrite E in E'. clear - E' Ne' Nb Nb'. fold n in Nb. unfold n in *. revert a' E'. induction a as [|x a IH]; intros [|y a'] E'; cbn [app] in E'.
    - injection E' as <- _. auto.
    - exfalso. injection E' as _ E'. apply Nb. rewrite E', map_app. apply in_app_iff. right. left. exact Ne'.
    - exfalso. injection E' as _ E'. apply Nb'. rewrite <- E', map_app. apply in_app_iff. right. left. reflexivity.
    - injection E' as <- E'. destruct (IH a' E') as [-> ->]. auto. }
  destruct Ee as [-> ->]. split; [exact A1|]. rewrite A3, Cp. split; [reflexivity|].
  assert (St : forall k v, last_field (Field (L "release") (L "1") :: is) k v -> p_vals p k = v).
  { intros k v Lf. apply (proj1 (Vp k)). rewrite flat_map_app. cbn [flat_map]. rewrite app_nil_r. apply last_field_app. unfold states. rewrite Si. exact Lf. }
  split; [intros v Lf; rewrite A2, (St (L "version") v); [reflexivity|apply (last_field_app _ _ [_] is), Lf]|].
  split; [intros v Lf D B; rewrite A4, (St _ _ Lf), (proj1 (C17_numbers v D B)); reflexivity|].
  exists (p_deps p). split; [exact A5|]. destruct Dp as [So Dp]. split; [apply ssorted_NoDup, So|]. destruct Dp as [(x & e2 & is2 & y & X1 & X2 & X3 & X4)|[X1 _]].
  - assert (Y : x = a /\ e2 = e).
    { clear - X1 X2 X3 Si. destruct y as [|z y _] using rev_ind; [apply app_inj_tail in X1; destruct X1; auto|]. change (x ++ e2 :: y ++ [z]) with (x ++ (e2 :: y) ++ [z]) in X1. rewrite app_assoc in X1. apply app_inj_tail in X1 as [_ <-].
      rewrite (X3 e) in Si; [discriminate Si|]. apply in_app_iff. right. left. reflexivity. }
    destruct Y as [-> ->]. assert (is2 = is) by congruence. subst is2. exact X4.
  - rewrite (X1 e) in Si; [discriminate Si|]. apply in_app_iff. right. left. reflexivity.
Qed.

(** ** of two ports of one name, the one in the collection named later in the configuration counts *)
Definition named_port (n : str) (e : str * option str) : Prop := fst e = n /\ snd e <> None.
Lemma recipes_kept n : forall b info fnd m m', read_recipes b (info, fnd, m) = Ok m' -> ~ In n (map (fun x => snd (fst x)) b) -> mget n m' = mget n m.
Proof.
  induction b as [|[[c x] t] b IH]; intros info fnd m m' E N; cbn [read_recipes] in E; [injection E as <-; reflexivity|]. destruct (read_recipe c x t (info, fnd, m)) as [[[i f] m1]| |] eqn:R; [|discriminate E|discriminate E].
  cbn [map fst snd In] in N. rewrite (IH i f m1 m' E); [|tauto]. assert (Em : exists p, m1 = mset x p m).
  { unfold read_recipe in R. destruct t as [t|]; [destruct (parse_lines t) as [ls|]; [|discriminate R]; destruct (split_strtok_set _ _) as [d|]; [|discriminate R]|]; injection R as _ _ <-; eexists; reflexivity. }
  destruct Em as [p ->]. rewrite mget_mset. destruct (seqb_spec n x) as [->|]; [tauto|reflexivity].
Qed.
Lemma recipes_last n c t : forall a b info fnd m m', read_recipes (a ++ (c, n, t) :: b) (info, fnd, m) = Ok m' -> ~ In n (map (fun x => snd (fst x)) b) -> exists p, mget n m' = Some p /\ p_coll p = c.
Proof.
  induction a as [|[[c' x] t'] a IH]; intros b info fnd m m' E N; cbn [app read_recipes] in E.
  - destruct (read_recipe c n t (info, fnd, m)) as [[[i f] m1]| |] eqn:R; [|discriminate E|discriminate E]. rewrite (recipes_kept n b i f m1 m' E N). assert (Em : exists p, m1 = mset n p m /\ p_coll p = c).
    { unfold read_recipe in R. destruct t as [t|]; [destruct (parse_lines t) as [ls|]; [|discriminate R]; destruct (split_strtok_set _ _) as [d|]; [|discriminate R]|]; injection R as _ _ <-; eexists; split; reflexivity. }
    destruct Em as (p & -> & C). exists p. split; [rewrite mget_mset, seqb_refl; reflexivity|exact C].
  - destruct (read_recipe c' x t' (info, fnd, m)) as [[[i f] m1]| |]; [exact (IH b i f m1 m' E N)|discriminate E|discriminate E].
Qed.
Lemma is_port_spec n c : is_port (n, c) = true <-> c <> None /\ forall t, n <> "."%char :: t.
Proof.
  split.
  - intro H. split; [intros ->; destruct n as [|[[] [] [] [] [] [] [] []] n]; discriminate H|]. intros t ->. discriminate H.
  - intros [C N]. destruct c as [c|]; [|destruct (C eq_refl)]. destruct n as [|x n]; [reflexivity|]. destruct (ascii_dec x "."%char) as [->|Nx]; [destruct (N n eq_refl)|]. destruct x as [[] [] [] [] [] [] [] []]; try reflexivity. destruct (Nx eq_refl).
Qed.
Theorem C112_shadow cfg1 d cfg2 es1 n t es2 m h0 q w0 h w : w_dir w0 (u_coll d) = Some (es1 ++ (n, Some t) :: es2) -> (forall x, n <> "."%char :: x) ->
  (forall e, In e es2 -> ~ named_port n e) -> (forall d' es e, In d' cfg2 -> w_dir w0 (u_coll d') = Some es -> In e es -> ~ named_port n e) ->
  let cfg := cfg1 ++ d :: cfg2 in early cfg h0 -> needs_ports q -> ports_read (recipes cfg w0) = Ok m ->
  panswer cfg (Place n) w (pcalls cfg (h0 ++ (q, w0) :: h) new_pobj) = Ok (PText (u_coll d ++ L "/" ++ n)).
Proof.
  intros W Nd N1 N2 cfg E Q R. set (o := pcalls _ _ _).
  assert (Sp : exists a b, recipes cfg w0 = a ++ (u_coll d, n, Some t) :: b /\ ~ In n (map (fun x => snd (fst x)) b)).
  { unfold recipes, cfg. rewrite flat_map_app. cbn [flat_map]. unfold dir_recipes at 2. rewrite W, filter_app. cbn [filter]. assert (Pn : is_port (n, Some t) = true) by (apply is_port_spec; split; [discriminate|exact Nd]). rewrite Pn. rewrite map_app. cbn [map fst snd].
    exists (flat_map (dir_recipes w0) cfg1 ++ map (fun e => (u_coll d, fst e, snd e)) (filter is_port es1)), (map (fun e => (u_coll d, fst e, snd e)) (filter is_port es2) ++ flat_map (dir_recipes w0) cfg2).
    split; [rewrite <- !app_assoc; reflexivity|]. rewrite map_app, map_map. cbn [fst snd]. intro I. apply in_app_iff in I as [I|I].
    - apply in_map_iff in I as [[x c] [X I]]. cbn [fst] in X. subst x. apply filter_In in I as [I P]. apply is_port_spec in P as [P _]. apply (N1 (n, c) I). split; [reflexivity|exact P].
    - apply in_map_iff in I as [[[c' x] y] [X I]]. cbn [fst snd] in X. subst x. apply in_flat_map in I as [d' [Id I]]. unfold dir_recipes in I. destruct (w_dir w0 (u_coll d')) as [es|] eqn:We; [|destruct I].
      apply in_map_iff in I as [[x c] [X I]]. cbn [fst snd] in X. injection X as _ -> ->. apply filter_In in I as [I P]. apply is_port_spec in P as [P _]. apply (N2 d' es (n, y) Id We I). split; [reflexivity|exact P]. }
  destruct Sp as (a & b & Sp & Nb). pose proof R as R'. rewrite Sp in R'. destruct (recipes_last n (u_coll d) (Some t) a b _ _ _ m R' Nb) as (p & G & C).
  assert (A : looked_at cfg m h0 q h o) by (exists w0; split; [exact E|]; split; [exact Q|]; split; [split; [exact R|intros ->; discriminate G]|reflexivity]).
  destruct (C112_known cfg m h0 q h o n p w A G) as (_ & _ & P & _). rewrite P, C. reflexivity.
Qed.

(** ** a concrete case *)
Definition x_cfg : list dirurl := [DU (L "cli") [] []; DU (L "base") [] []].
Definition x_zlib : source := (L "base", L "zlib", Some [Field (L "version") (L "1.3")]).
Definition x_curl : source := (L "cli", L "curl", Some [Field (L "version") (L "8.1"); Field (L "release") (L "4"); Inline (L "run") (L "openssl zlib gone")]).
Definition x_ssl : source := (L "cli", L "openssl", Some [Field (L "version") (L "3.0"); Inline (L "makedepends") (L "zlib.lib")]).
Definition entry (e : source) : str * option str := (s_name e, option_map (fun is => text_of (flat_map render is)) (snd e)).
Definition x_world : pworld := PW (fun d => if seqb d (L "cli") then Some [(L ".git", Some []); entry x_curl; (L "notes", None); entry x_ssl] else if seqb d (L "base") then Some [entry x_zlib] else None).
Definition x_none : pworld := PW (fun d => if seqb d (L "cli") then Some [(L ".git", Some [])] else None).
Example C112_hypotheses : Forall s_ok [x_curl; x_ssl; x_zlib] /\ recipes x_cfg x_world = map s_content [x_curl; x_ssl; x_zlib] /\ early x_cfg [(Ports, x_none); (Order (L "cli"), x_none); (Is_dir (L "cli"), x_world)] /\ needs_ports Ports.
Proof.
  split; [|split; [vm_compute; reflexivity|split]].
  - apply Forall_forall. intros e H. assert (K : match snd e with Some is => forallb i_okb is && forallb fitsb (flat_map render is) | None => true end = true) by (destruct H as [<-|[<-|[<-|[]]]]; vm_compute; reflexivity).
    unfold s_ok. destruct (snd e) as [is|]; [|exact Logic.I]. apply andb_true_iff in K as [K1 K2]. rewrite forallb_forall in K1, K2. split; apply Forall_forall; intros x I; [apply i_okb_ok, K1, I|apply fitsb_ok, K2, I].
  - assert (N : no_ports x_cfg x_none).
    { intros d es n c I E J. unfold x_none in E. cbn [w_dir] in E. destruct (seqb (u_coll d) (L "cli")); [|discriminate E]. injection E as <-. destruct J as [J|[]]. injection J as <- _. eexists. reflexivity. }
    intros q w [I|[I|[I|[]]]]; injection I as <- <-; [left; auto|left; auto|right; eexists; reflexivity].
  - intros d E. discriminate E.
Qed.
Definition x_held (h : list (pquery * pworld)) : pobj := pcalls x_cfg h new_pobj.
Example C112_witness : let o := x_held [(Ports, x_none); (Needs (L "curl"), x_world); (PVersion (L "zlib"), x_none)] in
  panswer x_cfg (Order (L "cli")) x_none o = Ok (PList [L "openssl"; L "curl"]) /\ panswer x_cfg (Place (L "openssl")) x_none o = Ok (PText (L "cli/openssl")) /\ panswer x_cfg (Level (L "curl")) x_none o = Ok (PNum (Some 2%N)) /\
  panswer x_cfg (PRelease (L "curl")) x_none o = Ok (PNum (Some 4%N)) /\ panswer x_cfg Warnings x_none o = Ok (PList [L "WARNING gone from curl (cli)  NOT FOUND ..."]) /\ panswer x_cfg (Known (L "notes")) x_none o = Ok (PBool false).
Proof. cbv zeta. repeat split; vm_compute; reflexivity. Qed.
(** *** asking for the order of a collection twice gives every port of it twice *)
Theorem C112_twice_refuted : let o := x_held [(Order (L "cli"), x_world)] in panswer x_cfg (Order (L "cli")) x_world o = Ok (PList [L "openssl"; L "curl"; L "openssl"; L "curl"]) /\
  panswer x_cfg (Order (L "base")) x_world o = Ok (PList [L "openssl"; L "curl"; L "zlib"]).
Proof. cbv zeta. split; vm_compute; reflexivity. Qed.
(** *** asking for the version of a port that is not there makes it exist *)
Theorem C112_named_refuted : panswer x_cfg (Known (L "gone")) x_world (x_held [(Ports, x_world)]) = Ok (PBool false) /\ panswer x_cfg (Known (L "gone")) x_world (x_held [(Ports, x_world); (PVersion (L "gone"), x_world)]) = Ok (PBool true).
Proof. split; vm_compute; reflexivity. Qed.
(** *** asked before the ports are there, the object never sees them *)
Theorem C112_stuck_refuted : let o := x_held [(PVersion (L "curl"), x_none)] in panswer x_cfg (PVersion (L "curl")) x_world o = Ok (PText []) /\ panswer x_cfg (Known (L "zlib")) x_world o = Ok (PBool false) /\
  panswer x_cfg (Order (L "cli")) x_world o = Ok (PList []).
Proof. cbv zeta. repeat split; vm_compute; reflexivity. Qed.
(** *** the place of a port is never empty: the test of 'cards create' (create.cxx:576) cannot find a port missing *)
Theorem C112_place_refuted : forall cfg n w o t, panswer cfg (Place n) w o = Ok (PText t) -> t <> [].
Proof.
  intros cfg n w o t E. unfold panswer, pcall in E. destruct (load_ports cfg w o) as [o1 [[]| |]]; [|discriminate E|discriminate E]. cbn [snd ask_port] in E. injection E as <-. intro X. apply (f_equal (@length ascii)) in X. rewrite !app_length in X. cbn [List.length L list_ascii_of_string] in X. lia.
Qed.
Definition x_both : pworld := PW (fun d => if seqb d (L "cli") then Some [entry x_curl; entry x_zlib] else if seqb d (L "base") then Some [entry x_ssl; entry x_zlib; (L "notes", None)] else None).
Example C112_shadow_hypotheses : w_dir x_both (u_coll (DU (L "base") [] [])) = Some ([entry x_ssl] ++ (L "zlib", Some (text_of [L "version=1.3"])) :: [(L "notes", None)]) /\
  (forall e, In e [(L "notes", @None str)] -> ~ named_port (L "zlib") e) /\ panswer x_cfg (Place (L "zlib")) x_none (x_held [(Ports, x_both)]) = Ok (PText (L "base/zlib")).
Proof. split; [vm_compute; reflexivity|]. split; [intros e [<-|[]] [X _]; discriminate X|vm_compute; reflexivity]. Qed.
