(** C92: where the report does not tell what 'cards upgrade' does. *)
From Verif Require Import Base BaseProofs StrModel FsModel RulesModel ProcModel MetaModel FsProofs DbModel DbSpec DbLoad DbInv DbExamples IndexModel DiffModel DiffProps DiffAmounts HexModel FetchModel GenDeps RemoveCmd RemoveCmdProofs RemoveCmdExamples
  InstallModel InstallExamples UpCmdModel UpCmdExamples SizeModel ReportModel ReportProps.
From Coq Require Import ZArith NArith.
Open Scope nat_scope.

(** the system is said to be up to date although the upgrade installs a package of a configured group *)
Theorem C92_groups_refuted : exists m, load false [(L "c", dx [L "V1"; L "B20"])] = Ok m /\
  show_info true 0 0 (fun _ => 0%N) (fun _ => 0%N) ex_junk ex_repo m = [L "Your system is up to date."] /\ fst (up_lists ex_junk ex_repo m [L "man"]) = [(L "c.man", 5%Z)].
Proof. eexists. split; [vm_compute; reflexivity|]. split; vm_compute; reflexivity. Qed.
(** the number of new dependencies is 0 although the upgrade installs one *)
Theorem C92_added_refuted : exists m, load false (w_db w_up) = Ok m /\
  under (L "Added packages (new dependencies):        ") (show_info true 0 0 (fun _ => 0%N) (fun _ => 0%N) u_junk (index u_repo) m) = Some (L "0", []) /\
  u_upgrade [] u_start w_up = Some (None, w_upped) /\ ~ installed (w_db w_up) (L "bar") /\ installed (w_db w_upped) (L "bar").
Proof.
  destruct C77_new_dependency_refuted as (A & B & _). destruct C77_case as (_ & _ & C & _). eexists. split; [vm_compute; reflexivity|]. split; [vm_compute; reflexivity|]. split; [exact C|]. split; [exact A|exact B].
Qed.
