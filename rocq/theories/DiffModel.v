(** diff.cxx and upgrade.cxx: comparing the installed packages with the repositories.
    Simplifications: the percentage (ratio(), a float) and the printed reports are not modelled; the counters are natural numbers (the
    code's wrap at 2^32 packages); a member that was never initialised has an arbitrary value, given by [junk]. *)
From Verif Require Import Base StrModel MetaModel DbModel IndexModel.
From Coq Require Import ZArith NArith.

Record junk := Junk { j_ibuild : str -> Z; j_irel : str -> N; j_rbuild : str -> Z; j_rrel : str -> N; j_space : str -> N }.
Definition known {A} (j : A) (o : option A) : A := match o with Some x => x | None => j end.
(** pkgrepo.cxx:449-451, 776-781: unsigned short; stoi throws while the index is read *)
Definition i_release (i : irec) : option N := match i_val i "r"%char with Some v => match stoi_u16 v with Ok n => Some n | _ => None end | None => None end.
(** diff.cxx:37-42 *)
Definition vtext (v : str) (r : N) : str := v ++ "-"%char :: dec (r mod 2 ^ 32).
(** pkgdbh.cxx:888-901; m_listOfPackagesNames and m_listOfPackages have the same names after buildDatabase *)
Definition build_same (j : junk) (m : mem) (name : str) (build : Z) : bool :=
  if (build =? 0)%Z then false
  else match mget name (m_pkgs m) with
       | None => false
       | Some r => negb (known (j_ibuild j name) (r_build r) <? build)%Z
       end.
(** pkgrepo.cxx:762-768 *)
Definition repo_build (j : junk) (name : str) (i : irec) : Z := known (j_rbuild j name) (i_build i).
(** pkgrepo.h, the values diff gives *)
Inductive upg := UOk | UOut | UNew | UObs | UUnm.
(** diff.cxx:26-68: one turn *)
Definition classify (j : junk) (repo : list (str * irec)) (m : mem) (p : str * rec) : upg :=
  match mget (fst p) repo with
  | Some i =>
    if build_same j m (fst p) (repo_build j (fst p) i) then UOk
    else if seqb (vtext (r_version (snd p)) (known (j_irel j (fst p)) (r_release (snd p)))) (vtext (i_text "V"%char i) (known (j_rrel j (fst p)) (i_release i))) then UNew
    else UOut
  | None => if r_auto (snd p) then UObs else UUnm
  end.
(** diff.h: the counters that can change, and m_listOfPackagesToDeal *)
Record dstate := D { d_ok : nat; d_out : nat; d_new : nat; d_obs : nat; d_unm : nat; d_deal : list (str * upg) }.
Definition d_step (j : junk) (repo : list (str * irec)) (m : mem) (s : dstate) (p : str * rec) : dstate :=
  let u := classify j repo m p in
  D (match u with UOk => S (d_ok s) | _ => d_ok s end) (match u with UOut => S (d_out s) | _ => d_out s end) (match u with UNew => S (d_new s) | _ => d_new s end)
    (match u with UObs => S (d_obs s) | _ => d_obs s end) (match u with UUnm => S (d_unm s) | _ => d_unm s end) (mset (fst p) u (d_deal s)).
Definition diff (j : junk) (repo : list (str * irec)) (m : mem) : dstate := fold_left (d_step j repo m) (m_pkgs m) (D 0 0 0 0 0 []).
(** diff.cxx:302-310: the other counters are never incremented *)
Definition d_size (s : dstate) : nat := d_obs s + d_out s + d_new s + d_unm s.
(** upgrade.cxx:65-82: the packages of the configured groups *)
Definition group_turn (j : junk) (repo : list (str * irec)) (m : mem) (g : str) (acc : list dep) (p : str * rec) : list dep :=
  if negb (length (r_group (snd p)) =? 0) then acc
  else let name := fst p ++ "."%char :: g in
    match mget name repo with
    | Some i => let b := repo_build j name i in if build_same j m name b then acc else dins (name, b) acc
    | None => acc
    end.
Definition group_update (j : junk) (repo : list (str * irec)) (m : mem) (groups : list str) : list dep :=
  fold_left (fun acc g => fold_left (group_turn j repo m g) (m_pkgs m) acc) groups [].
(** upgrade.cxx:83-100 *)
Definition up_turn (j : junk) (repo : list (str * irec)) (m : mem) (acc : list dep * list str) (p : str * rec) : list dep * list str :=
  match mget (fst p) repo with
  | None => if r_auto (snd p) then (fst acc, sins (fst p) (snd acc)) else acc
  | Some i => let b := repo_build j (fst p) i in if build_same j m (fst p) b then acc else (dins (fst p, b) (fst acc), snd acc)
  end.
(** the sets m_ListOfPackagesToUpdate and m_ListOfPackagesToDelete *)
Definition up_lists (j : junk) (repo : list (str * irec)) (m : mem) (groups : list str) : list dep * list str :=
  fold_left (up_turn j repo m) (m_pkgs m) (group_update j repo m groups, []).
(** upgrade.cxx:54-64: without any installed package in the repositories the upgrade stops *)
Definition depot_found (repo : list (str * irec)) (m : mem) : bool := existsb (fun p => match mget (fst p) repo with Some _ => true | None => false end) (m_pkgs m).
