(** C111: concrete cases *)
From Verif Require Import Base BaseProofs StrModel StrSpec StrProofs RulesModel FsModel FsProofs MetaModel MetaSpec MetaProofs DbModel DbSpec DbFacts GenDeps GenDepsProofs GenDepsProps HexModel FilesModel.
From Verif Require FilesProps.
From Verif Require Import IndexModel IndexProofs IndexProps FetchModel ConfModel DiffModel SizeModel DiffAmounts InstallModel IndexExact OrderProps InfoModel InfoProps InfoMembers RepoObjModel RepoObjProps RepoObjMore RepoObjGroup RepoObjEmpty.
From Coq Require Import ZArith Lia.
Open Scope nat_scope.

Definition cfg3 : list dirurl := [own_d; gone_d; base_d].
Definition w_of (l : shelves) : rworld :=
  RW (fun d => match find (fun x => seqb (u_coll (fst x)) (u_coll d)) l with Some (_, Some ps) => Some (gen_index ps) | _ => None end) (fun _ => None).
Definition w3 : rworld := w_of three.
Definition w_none : rworld := w_of [].
(** a part of bar *)
Definition g_doc : gpkg := Gp (L "bar.doc2.0-1-any.cards-zst") [L "Nbar.doc"; L "V2.0"; L "r3"; L "gdoc"; L "B1700000001"] (L "ab05") (L "ff06") 7.
Lemma regular_doc : regular g_doc (L "bar.doc").
Proof.
  constructor.
  - vm_compute; discriminate.
  - reflexivity.
  - cbn. intros s H. repeat (destruct H as [<-|H]; [split; [discriminate|intros v; discriminate]|]). destruct H.
  - cbn. intros v H. repeat (destruct H as [H|H]; [inversion H; subst; exists 3%N; vm_compute; reflexivity|]). destruct H.
  - cbn. intros v H. repeat (destruct H as [H|H]; [discriminate H|]). destruct H.
  - cbn. intro H. repeat (destruct H as [H|H]; [discriminate H|]). destruct H.
Qed.
Definition with_doc : shelves := [(own_d, Some [g_own]); (gone_d, None); (base_d, Some [g1; g2; g_doc])].
Definition w_doc : rworld := w_of with_doc.
Lemma good_doc : good_depots (at_colls with_doc).
Proof.
  intros c o I. destruct I as [I|[I|[I|[]]]]; injection I as <- <-; (split; [discriminate|]); intros ps E; try discriminate E; injection E as <-; (split; [|repeat (constructor; [apply good_lineb_ok; vm_compute; reflexivity|]); constructor]).
  - intros p [<-|[]]. eexists. exact regular_own.
  - intros p [<-|[<-|[<-|[]]]]; eexists; [exact regular_g1|exact regular_g2|exact regular_doc].
Qed.
(** an index that is broken after foo: the release of the next package is not a number *)
Definition bad : list str := [L "@bar2.0-1-x86_64.cards-zst"; L "Nbar"; L "V2.0"; L "rnew"; L "B1700000001"; L "Hab02"; L "Iff03"; L "i12"; []].
Definition w_bad : rworld := RW (fun d => if seqb (u_coll d) (L "own") then Some (gen_index [g_own]) else if seqb (u_coll d) (L "base") then Some (text_of (gen_lines g1 ++ bad)) else None) (fun _ => None).
Definition upto : shelves := [(own_d, Some [g_own]); (gone_d, None); (base_d, Some [g1])].

Section Cases.
Notation answer := (RepoObjProps.answer cfg3 no_date (L "x86_64") (L "rolling") 0 0 0 0).
Example C111_case : stocked cfg3 w3 three /\ opens cfg3 w3 /\ last_read w3 [(Exists (L "bar"), w3)] w3 [(Exists (L "bar"), w3)] /\ last_read w_none [(All, w_none); (Refresh, w3)] w3 [] /\
  offered (at_colls three) (L "bar") /\ answer w3 [] (Text Version (L "bar")) w3 = Ok (AText (L "2.0")) /\ answer w3 [] (Text Version (L "foo")) w3 = Ok (AText (L "1.0")).
Proof.
  assert (O : offered (at_colls three) (L "bar")) by (exists (L "base"), [g1; g2], g2; split; [right; right; left; reflexivity|]; split; [right; left; reflexivity|exact regular_g2]).
  split; [split; [left; vm_compute; reflexivity|]; split; [exact C93_good|exists (L "bar"); exact O]|]. split; [vm_compute; reflexivity|]. split; [split; [left; split; reflexivity|]; intros w1 [I|[]]; discriminate I|].
  split; [split; [right; exists [(All, w_none)]; reflexivity|intros w1 []]|]. split; [exact O|]. split; vm_compute; reflexivity.
Qed.
Example C111_group_case : stocked cfg3 w_doc with_doc /\ names_first (at_colls with_doc) /\ part_of g_doc (L "bar.doc") (L "bar") /\
  answer w_doc [] (OfGroup (L "bar")) w_doc = Ok (ASet [L "/srv/depot/base/bar.doc2.0-1-any.cards-zst"; L "/srv/depot/base/bar2.0-1-x86_64.cards-zst"]).
Proof.
  split; [split; [left; vm_compute; reflexivity|]; split; [exact good_doc|]; exists (L "bar"), (L "base"), [g1; g2; g_doc], g2; split; [right; right; left; reflexivity|]; split; [right; left; reflexivity|exact regular_g2]|].
  split; [intros c ps p I Ip; destruct I as [I|[I|[I|[]]]]; try discriminate I; injection I as <- <-; repeat (destruct Ip as [<-|Ip]; [eexists; eexists; reflexivity|]); destruct Ip|].
  split; [|vm_compute; reflexivity]. exists [L "Nbar.doc"; L "V2.0"; L "r3"], "g"%char, (L "doc"), [L "B1700000001"]. split; [reflexivity|]. split; [left; reflexivity|]. split; [intros y z [<-|[<-|[]]] [I|[]]; discriminate I|].
  split; [intros _; exists (L ".doc"); split; reflexivity|]. intro H. exfalso. revert H. vm_compute. intro H. repeat (apply le_S_n in H). inversion H.
Qed.
Example C111_half_case : stocked cfg3 w_bad upto /\ cut_short cfg3 w_bad upto.
Proof.
  assert (C : cut_short cfg3 w_bad upto).
  { exists [(own_d, Some [g_own]); (gone_d, None)], base_d, [g1], bad, []. split; [reflexivity|]. split; [vm_compute; reflexivity|]. split; [repeat (constructor; [apply good_lineb_ok; vm_compute; reflexivity|]); constructor|].
    exists (L "bar2.0-1-x86_64.cards-zst"), [L "Nbar"; L "V2.0"], (L "new"), [L "B1700000001"; L "Hab02"; L "Iff03"; L "i12"; []]. split; [reflexivity|]. split; [vm_compute; discriminate|]. split; [vm_compute; reflexivity|].
    split; [intros s [<-|[<-|[]]]; (split; [discriminate|split; intros x E; discriminate E])|]. intros x [E|[E|[]]]; discriminate E. }
  split; [|exact C]. split; [right; exact C|]. split.
  - intros c o I. destruct I as [I|[I|[I|[]]]]; injection I as <- <-; (split; [discriminate|]); intros ps E; try discriminate E; injection E as <-; (split; [|repeat (constructor; [apply good_lineb_ok; vm_compute; reflexivity|]); constructor]).
    + intros p [<-|[]]. eexists. exact regular_own.
    + intros p [<-|[]]. eexists. exact regular_g1.
  - exists (L "foo"), (L "base"), [g1], g1. split; [right; right; left; reflexivity|]. split; [left; reflexivity|exact regular_g1].
Qed.
Example C111_waiting_case : bare cfg3 w_none /\ unread cfg3 [(Exists (L "bar"), w_none)] /\ answer w_none [(Exists (L "bar"), w_none)] (Exists (L "bar")) w3 = Ok (ABool true).
Proof.
  assert (B : bare cfg3 w_none) by (intros d I; reflexivity). split; [exact B|]. split; [|vm_compute; reflexivity]. intros q w [I|[]]. injection I as <- <-. split; [exact B|]. split; [intros k []|discriminate].
Qed.
(** A name that no collection offers exists once its version was asked for, and has an archive: the file "/". *)
Theorem C111_ghost_refuted : ~ offered (at_colls three) (L "baz") /\ answer w3 [] (Exists (L "baz")) w3 = Ok (ABool false) /\
  answer w3 [(Text Version (L "baz"), w3)] (Exists (L "baz")) w3 = Ok (ABool true) /\ answer w3 [(Text Version (L "baz"), w3)] (OfGroup (L "baz")) w3 = Ok (ASet [L "/"]).
Proof.
  split; [|split; [|split]; vm_compute; reflexivity]. intros (c & ps & p & I & Ip & R). pose proof (rg_name _ _ R) as N. destruct I as [I|[I|[I|[]]]]; try discriminate I; injection I as <- <-; repeat (destruct Ip as [<-|Ip]; [discriminate N|]); destruct Ip.
Qed.
(** Asked for a version before the indexes are there, the object does not see them when they are. *)
Theorem C111_poison_refuted : answer w_none [(Text Version (L "foo"), w_none)] (Exists (L "bar")) w3 = Ok (ABool false) /\ answer w_none [(Exists (L "foo"), w_none)] (Exists (L "bar")) w3 = Ok (ABool true) /\
  answer w_none [(Text Version (L "foo"), w_none)] (Text Version (L "foo")) w3 = Ok (AText []).
Proof. split; [|split]; vm_compute; reflexivity. Qed.
(** After refresh() has failed, bar, which was offered before and still is, does not exist. *)
Theorem C111_half_refuted : answer w3 [] (Exists (L "bar")) w_bad = Ok (ABool true) /\ answer w3 [] Refresh w_bad = Throw /\
  answer w3 [(Refresh, w_bad)] (Exists (L "bar")) w3 = Ok (ABool false) /\ answer w3 [(Refresh, w_bad)] (Exists (L "foo")) w3 = Ok (ABool true).
Proof. split; [|split; [|split]]; vm_compute; reflexivity. Qed.
(** After refresh() the list still has the line of a package that is gone. *)
Theorem C111_listing_refuted : answer w3 [(Listing, w3); (Refresh, w_of [(own_d, Some [g_own])])] Listing w3 = Ok (ASet [L "(base) bar 2.0 A bar"; L "(base) foo 1.0 "; L "(own) foo 9.0 "]) /\
  answer w3 [(Listing, w3); (Refresh, w_of [(own_d, Some [g_own])])] All w3 = Ok (ASet [L "foo"]).
Proof. split; vm_compute; reflexivity. Qed.
(** The report on a name that is not known is that on another package. *)
Theorem C111_info_refuted : exists t, t <> [] /\ answer w3 [] (Info (L "bar")) w3 = Ok (AText t) /\ answer w3 [] (Exists (L "baz")) w3 = Ok (ABool false) /\ answer w3 [(Info (L "bar"), w3)] (Info (L "baz")) w3 = Ok (AText t).
Proof.
  eexists. split; [|split; [vm_compute; reflexivity|split; vm_compute; reflexivity]]. discriminate.
Qed.
End Cases.
