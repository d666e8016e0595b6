(** C61: concrete files. *)
From Verif Require Import Base BaseProofs StrModel FsModel FsProofs MetaModel ElfModel ElfProps.
Open Scope N_scope.
Fixpoint enc (k : nat) (v : N) : str := match k with O => [] | S k => ascii_of_N (v mod 256) :: enc k (v / 256) end.
Definition ehdr (phoff shoff phnum shnum : N) : str :=
  magic ++ ["002"; "001"; "001"]%char ++ repeat zero 9 ++ enc 2 3 ++ enc 2 62 ++ enc 4 1 ++ enc 8 0 ++ enc 8 phoff ++ enc 8 shoff ++ enc 4 0 ++ enc 2 64 ++ enc 2 56 ++ enc 2 phnum ++ enc 2 64 ++ enc 2 shnum ++ enc 2 0.
Definition phdr (type off size : N) : str := enc 4 type ++ enc 4 4 ++ enc 8 off ++ enc 8 off ++ enc 8 off ++ enc 8 size ++ enc 8 size ++ enc 8 8.
Definition shdr (type off size link : N) : str := enc 4 0 ++ enc 4 type ++ enc 8 2 ++ enc 8 off ++ enc 8 off ++ enc 8 size ++ enc 4 link ++ enc 4 0 ++ enc 8 8 ++ enc 8 0.
Definition dyn (tag v : N) : str := enc 8 tag ++ enc 8 v.
Definition strs : str := zero :: L "libc.so.6" ++ [zero] ++ L "libme.so.1" ++ [zero].
Definition entries3 : str := dyn 1 1 ++ dyn 14 11 ++ dyn 0 0.
(** tables behind the strings *)
Definition good_elf : str := ehdr 64 190 1 4 ++ phdr 2 142 48 ++ strs ++ entries3 ++ shdr 0 0 0 0 ++ shdr 6 142 48 2 ++ shdr 3 120 22 0 ++ shdr 1 0 0 0.
(** the same, the strings at the end of the file *)
Definition late_elf : str := ehdr 64 168 1 4 ++ phdr 2 120 48 ++ entries3 ++ shdr 0 0 0 0 ++ shdr 6 120 48 2 ++ shdr 3 424 22 0 ++ shdr 1 0 0 0 ++ strs.
(** no closing entry *)
Definition open_elf : str := ehdr 64 174 1 4 ++ phdr 2 142 32 ++ strs ++ dyn 1 1 ++ dyn 14 11 ++ shdr 0 0 0 0 ++ shdr 6 142 32 2 ++ shdr 3 120 22 0 ++ shdr 1 0 0 0.
(** the names of sections before those of libraries *)
Definition first_elf : str := ehdr 64 197 1 4 ++ phdr 2 149 48 ++ strs ++ L ".text" ++ [zero; zero] ++ entries3 ++ shdr 0 0 0 0 ++ shdr 3 142 7 0 ++ shdr 6 149 48 3 ++ shdr 3 120 22 0.

Ltac fact := apply le_num; [lia|vm_compute; reflexivity].
Ltac nofact := let X := fresh in intro X; apply le_num in X; [|lia]; vm_compute in X; discriminate X.
Lemma good_is_elf : elf64 good_elf 64 1 190 4.
Proof.
  constructor; try fact; try (vm_compute; discriminate). exists [], (skipn 5 good_elf). split; [vm_compute; reflexivity|reflexivity].
Qed.
Lemma good_dynstr : dynstr good_elf 190 4 2 120.
Proof. exists 1. split; [lia|]. split; [lia|]. split; [fact|]. split; [fact|]. split; fact. Qed.
Lemma good_dynamic : dynamic good_elf 64 1 142 48.
Proof. exists 0. split; [lia|]. split; [fact|]. split; [fact|]. split; [fact|]. intros j Lj _. lia. Qed.
Lemma text_c : text_at good_elf 121 (L "libc.so.6").
Proof. split; [intro I; cbn in I; repeat (destruct I as [I|I]; [discriminate I|]); destruct I|]. exists (firstn 121 good_elf), (skipn 131 good_elf). split; vm_compute; reflexivity. Qed.
Lemma text_me : text_at good_elf 131 (L "libme.so.1").
Proof. split; [intro I; cbn in I; repeat (destruct I as [I|I]; [discriminate I|]); destruct I|]. exists (firstn 131 good_elf), (skipn 142 good_elf). split; vm_compute; reflexivity. Qed.
(** the hypotheses of C61_exact_partial are met by this file *)
Example C61_witness : elf_libs good_elf = Ok [L "libc.so.6"; L "libme.so.1"] /\
  exists ls, elf_libs good_elf = Ok ls /\ forall s, In s ls <-> names_library good_elf 142 120 s /\ last s zero <> "."%char.
Proof.
  split; [vm_compute; reflexivity|]. apply (C61_exact_partial good_elf 64 1 190 4 2 120 142 48 2 good_is_elf good_dynstr good_dynamic).
  - vm_compute. discriminate.
  - vm_compute. reflexivity.
  - lia.
  - fact.
  - intros j Lj. assert (C : j = 0 \/ j = 1) by lia. destruct C as [-> | ->]; nofact.
  - intros j tag v [H1 [H2 H3]] T. assert (Lj : j < 2) by (destruct (N.lt_ge_cases j 2) as [X|X]; [exact X|exfalso; apply (H3 2 X); fact]). assert (C : j = 0 \/ j = 1) by lia. apply le_num in H2; [|lia]. destruct C as [-> | ->]; vm_compute in H2; injection H2 as <-.
    + exists (L "libc.so.6"). split; [discriminate|exact text_c].
    + exists (L "libme.so.1"). split; [discriminate|exact text_me].
  - intros i Li. assert (C : i = 0 \/ i = 1) by lia. destruct C as [-> | ->]; nofact.
  - lia.
  - lia.
  - vm_compute. reflexivity.
Qed.
(** REFUTED: with the strings in the second half nothing is found, though the file needs libc *)
Theorem C61_late_refuted : elf_libs late_elf = Ok [] /\ elf64 late_elf 64 1 168 4 /\ dynstr late_elf 168 4 2 424 /\ dynamic late_elf 64 1 120 48 /\ names_library late_elf 120 424 (L "libc.so.6").
Proof.
  split; [vm_compute; reflexivity|]. split.
  { constructor; try fact; try (vm_compute; discriminate). exists [], (skipn 5 late_elf). split; [vm_compute; reflexivity|reflexivity]. }
  split; [exists 1; split; [lia|]; split; [lia|]; split; [fact|]; split; [fact|]; split; fact|].
  split; [exists 0; split; [lia|]; split; [fact|]; split; [fact|]; split; [fact|]; intros j Lj _; lia|].
  exists 0, 1, 1. split; [split; [fact|split; [fact|intros i Li; assert (i = 0) as -> by lia; nofact]]|]. split; [left; reflexivity|].
  split; [intro I; cbn in I; repeat (destruct I as [I|I]; [discriminate I|]); destruct I|]. exists (firstn 425 late_elf), (skipn 435 late_elf). split; vm_compute; reflexivity.
Qed.
(** REFUTED: without a closing entry the loop reads on behind the segment: its bound counts bytes as entries *)
Theorem C61_overrun_refuted : elf_libs open_elf = UB.
Proof. vm_compute. reflexivity. Qed.
(** REFUTED: the names are looked up in the first string table, not in the one of the dynamic section: here wrong names are reported *)
Theorem C61_first_table_refuted : elf_libs first_elf = Ok [L "text"; []] /\ dynstr first_elf 197 4 3 120 /\ text_at first_elf 121 (L "libc.so.6") /\ dyn_entry first_elf 149 0 1 1.
Proof.
  split; [vm_compute; reflexivity|]. split; [exists 2; split; [lia|]; split; [lia|]; split; [fact|]; split; [fact|]; split; fact|]. split.
  - split; [intro I; cbn in I; repeat (destruct I as [I|I]; [discriminate I|]); destruct I|]. exists (firstn 121 first_elf), (skipn 131 first_elf). split; vm_compute; reflexivity.
  - split; [fact|]. split; [fact|]. intros i Li. assert (i = 0) as -> by lia. nofact.
Qed.
(** REFUTED: a 32-bit file on a 64-bit machine: the tables are read with the strides of 64-bit structures, beyond their end *)
Definition shdr32 (type off size link : N) : str := enc 4 0 ++ enc 4 type ++ enc 4 2 ++ enc 4 off ++ enc 4 off ++ enc 4 size ++ enc 4 link ++ enc 4 0 ++ enc 4 4 ++ enc 4 0.
Definition elf32 : str :=
  magic ++ ["001"; "001"; "001"]%char ++ repeat zero 9 ++ enc 2 3 ++ enc 2 3 ++ enc 4 1 ++ enc 4 0 ++ enc 4 52 ++ enc 4 130 ++ enc 4 0 ++ enc 2 52 ++ enc 2 32 ++ enc 2 1 ++ enc 2 40 ++ enc 2 4 ++ enc 2 0 ++
  (enc 4 2 ++ enc 4 106 ++ enc 4 106 ++ enc 4 106 ++ enc 4 24 ++ enc 4 24 ++ enc 4 4 ++ enc 4 4) ++ strs ++ (enc 4 1 ++ enc 4 1 ++ enc 4 14 ++ enc 4 11 ++ enc 4 0 ++ enc 4 0) ++
  shdr32 0 0 0 0 ++ shdr32 6 106 24 2 ++ shdr32 3 84 22 0 ++ shdr32 1 0 0 0.
Theorem C61_class32_refuted : elf_libs elf32 = UB.
Proof. vm_compute. reflexivity. Qed.
(** a file of 30 bytes that begins as an ELF file does *)
Example C61_cut_case : elf_libs (magic ++ "002"%char :: repeat zero 25) = UB.
Proof. apply (C61_cut_refuted "002"%char (repeat zero 25)); [reflexivity|vm_compute; discriminate|left; reflexivity]. Qed.
