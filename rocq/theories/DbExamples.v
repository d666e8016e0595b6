(** Concrete packages and a concrete machine: non-trivial cases for the theorems about the engine. *)
From Verif Require Import Base StrModel StrSpec RulesModel RulesSpec FsModel FsSpec FsProofs MetaModel DbModel DbSpec DbInv DbFacts.

Definition rt : str := L "/".
Definition mach : str := L "x86_64".
Definition pfx (p f : str) : option bool := Some (prefixb p f).
Definition quiet (s : str) (f : fs) : fs * bool := (f, true).
Definition reg (s : str) : node := Node KReg s 420 0 0 1 0.
Definition dirn : node := Node KDir [] 493 0 0 1 0.
Definition pkg (lines : list str) (files : list (str * node)) : archive :=
  [(L ".META", reg (text_of lines)); (L ".MTREE", reg (text_of (map fst files)))] ++ files.
Definition f_empty : fs := [([], dirn)].
Definition w_empty : world := World f_empty [].
Definition foo : archive := pkg [L "Nfoo"; L "V1"; L "ax86_64"; L "r1"]
  [(L "usr/", dirn); (L "usr/bin/", dirn); (L "usr/bin/tool", reg (L "foo tool")); (L "usr/foo.txt", reg (L "about foo"))].
Definition foo2 : archive := pkg [L "Nfoo"; L "V2"; L "ax86_64"; L "r1"]
  [(L "usr/", dirn); (L "usr/bin/", dirn); (L "usr/bin/tool", reg (L "foo tool 2"))].
Definition bar : archive := pkg [L "Nbar"; L "V1"; L "ax86_64"; L "r1"; L "Afoobar"]
  [(L "usr/", dirn); (L "usr/bin/", dirn); (L "usr/bin/tool", reg (L "bar tool")); (L "usr/bar.txt", reg (L "about bar"))].
Definition simple : opts := Opts false false false.
Definition forced : opts := Opts true false false.
Definition upgr : opts := Opts false true false.
Notation ses := (session false mach pfx quiet rt).
Notation his := (history false mach pfx quiet rt).
Definition files_of (d : disk) (n : str) : option (list str) :=
  match mget n d with Some dir => option_map read_files (mget (L "files") dir) | None => None end.

Definition w_foo : world := snd (ses (Add simple false None foo) w_empty).
Example foo_installed : fst (ses (Add simple false None foo) w_empty) = None /\
  files_of (w_db w_foo) (L "foo") = Some [L "usr/"; L "usr/bin/"; L "usr/bin/tool"; L "usr/foo.txt"] /\
  fget (w_fs w_foo) [L "usr"; L "bin"; L "tool"] = Some (reg (L "foo tool")).
Proof. split; [|split]; vm_compute; reflexivity. Qed.
(** the conflict of bar with foo *)
Example bar_conflict : fst (ses (Add simple false None bar) w_foo) = Some (Conflict [L "usr/bin/tool"]).
Proof. vm_compute. reflexivity. Qed.
Definition w_bar : world := snd (ses (Add forced false None bar) w_foo).
Example bar_forced : fst (ses (Add forced false None bar) w_foo) = None /\
  files_of (w_db w_bar) (L "foo") = Some [L "usr/"; L "usr/bin/"; L "usr/foo.txt"] /\
  files_of (w_db w_bar) (L "bar") = Some [L "usr/"; L "usr/bar.txt"; L "usr/bin/"; L "usr/bin/tool"].
Proof. split; [|split]; vm_compute; reflexivity. Qed.
Example foo_again : fst (ses (Add simple false None foo) w_bar) = Some Already /\
  fst (ses (Add upgr false None foo) w_empty) = Some NotInstalled.
Proof. split; vm_compute; reflexivity. Qed.
Example foo_upgraded : fst (ses (Add upgr false None foo2) w_foo) = None /\
  fget (w_fs (snd (ses (Add upgr false None foo2) w_foo))) [L "usr"; L "foo.txt"] = None /\
  fget (w_fs (snd (ses (Add upgr false None foo2) w_foo))) [L "usr"; L "bin"; L "tool"] = Some (reg (L "foo tool 2")).
Proof. split; [|split]; vm_compute; reflexivity. Qed.
Example foo_removed : fst (ses (Remove false None (L "foo")) w_bar) = None /\
  fget (w_fs (snd (ses (Remove false None (L "foo")) w_bar))) [L "usr"; L "foo.txt"] = None /\
  fget (w_fs (snd (ses (Remove false None (L "foo")) w_bar))) [L "usr"; L "bin"; L "tool"] = Some (reg (L "bar tool")).
Proof. split; [|split]; vm_compute; reflexivity. Qed.
Lemma no_dot_open a name info : open_archive false mach rt a = Ok (name, info) -> nondot name = true -> no_dot_name a.
Proof.
  intros E H v A. apply open_name in E as [E _]. rewrite (archive_name_unique _ _ _ E A) in H. discriminate.
Qed.
Ltac no_dot := eapply no_dot_open; [vm_compute; reflexivity|reflexivity].
Lemma foo_no_dot : no_dot_name foo. Proof. no_dot. Qed.
Lemma foo2_no_dot : no_dot_name foo2. Proof. no_dot. Qed.
Lemma bar_no_dot : no_dot_name bar. Proof. no_dot. Qed.
(** deciding that a concrete file system is a tree *)
Definition dirb (f : fs) (p : path) : bool := match fget f p with Some n => is_dir n | None => false end.
Definition treeb (f : fs) : bool := dirb f [] && forallb (fun e => dirb f (removelast (fst e))) f.
Lemma dirb_dir f p : dirb f p = true -> dir_at f p.
Proof. unfold dirb, dir_at. destruct (fget f p) as [n|]; [|discriminate]. intro H. exists n. split; auto. apply is_dir_kind, H. Qed.
Lemma treeb_tree f : treeb f = true -> tree f.
Proof.
  intro H. apply andb_true_iff in H as [A B]. split; [apply dirb_dir, A|]. intros p c N. apply fget_In in N as [n N].
  rewrite forallb_forall in B. specialize (B _ N). cbn [fst] in B. rewrite removelast_last in B. apply dirb_dir, B.
Qed.
Lemma tree_w_bar : tree (w_fs w_bar). Proof. apply treeb_tree. vm_compute. reflexivity. Qed.
Lemma tree_w_foo : tree (w_fs w_foo). Proof. apply treeb_tree. vm_compute. reflexivity. Qed.
