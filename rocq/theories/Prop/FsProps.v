(** * C32: the files of removed packages *)
From Coq Require Import String List ZArith.
From stdpp Require Import gmap strings relations.
From Verif Require Import Proof.GraphFacts.
From Verif Require Import Model.Py Model.ItemByRepo Model.Dependency Model.Package Model.ComponentDB Model.Databases
  Model.InstallDB Model.System Model.Graph Model.Plan Model.Path Model.Fs Model.Ops
  Spec.ItemByRepoSpec Spec.DependencySpec Spec.DatabaseSpec Spec.SystemSpec Spec.GraphSpec Spec.PlanSpec Spec.PathSpec Spec.FsSpec Spec.OpsSpec
  Proof.InstallDBFacts Proof.SystemFacts Proof.FsFacts Proof.FsChecks Proof.OpsFacts Proof.RemoveFiles.
Require Import Verif.Prop.PlanProps Verif.Prop.OpsProps.
Open Scope string_scope.

(** ** C32 *)
(** One listed file, whatever the table of owners holds: it goes exactly if the policy says
    so, and apart from it only directories that have become empty go. *)
Theorem C32_one_file sha1 dest owners pkg fi f : destination dest -> relative_path (f_path fi) -> tree f ->
  exists f', remove_file sha1 dest owners pkg fi f = Ok f' /\ tree f' /\
    shrunk f f' (fun q => q = located dest (f_path fi)) /\
    (deletes sha1 dest owners pkg f fi -> f' !! located dest (f_path fi) = None) /\
    (~ deletes sha1 dest owners pkg f fi -> f' = f).
Proof. exact (remove_file_ok sha1 dest owners pkg fi f). Qed.
Print Assumptions C32_one_file.

(** A removal, successful or not: what is gone was listed by an installed package, not as
    permanent and not as a configuration file with other content, or it is a directory with
    nothing left in it.  If it succeeded, exactly the files so listed by a package that is no
    longer installed are gone.  Missing: files that another package owns, see below. *)
Theorem C32_whole_removal_partial h o A ig w w' r : destination (o_dest o) -> fair h -> system (w_sys w) ->
  relative_lists (w_sys w) -> tree (w_fs w) -> remove h o A ig w = (w', r) ->
  tree (w_fs w') /\
  shrunk (w_fs w) (w_fs w') (fun q => forall x, w_fs w !! q = Some x -> exists n, gives_up (h_sha1 h) (o_dest o) (w_sys w) n q x) /\
  (forall b, r = Ok b -> forall q c, w_fs w !! q = Some (NFile c) ->
     (w_fs w' !! q = None <->
      exists n, is_installed (y_inst (w_sys w')) n = false /\ gives_up (h_sha1 h) (o_dest o) (w_sys w) n q (NFile c))).
Proof. exact (fun D => removal_files h o D A ig w w' r). Qed.
Print Assumptions C32_whole_removal_partial.

(** If no path was ever listed by two packages, every other package keeps its files. *)
Theorem C32_others_keep_theirs_partial h o A ig w w' b : destination (o_dest o) -> fair h -> lived no_shared_paths (w_sys w) ->
  relative_lists (w_sys w) -> tree (w_fs w) -> remove h o A ig w = (w', Ok b) ->
  forall n path c, is_installed (y_inst (w_sys w')) n = true -> lists (w_sys w) n path ->
    w_fs w !! located (o_dest o) path = Some (NFile c) -> w_fs w' !! located (o_dest o) path = Some (NFile c).
Proof. exact (fun D => others_keep h o D A ig w w' b). Qed.
Print Assumptions C32_others_keep_theirs_partial.

(** The table of owners protects nothing: it is asked for the absolute path, and holds
    relative ones. *)
Theorem C32_table_of_owners_refuted s q pkg : system s -> relative_lists s -> absolute q -> ~ owned_by_other (y_files s) q pkg.
Proof. exact (fun S => never_owned s q pkg (lived_yinv _ _ S)). Qed.
Print Assumptions C32_table_of_owners_refuted.

Definition etc (h : string) (perm : option string) (n : string) : finfo := mkFile ("etc/" +:+ n) "config" (Some ("sha1:" +:+ h)) perm.
Definition server : list finfo :=
  [mkFile "usr/sbin/serverd" "executable" (Some "sha1:bin") None; mkFile "usr/share/common" "data" (Some "sha1:common") None;
   etc "asis" None "asis"; etc "packaged" None "changed"; etc "forever" (Some "true") "forever"; mkFile "var/server" "data" None None].
Definition sharing : sys := with_repo []
  [YInstall (v_pkg "server" "1" "1" []) server false;
   YInstall (v_pkg "client" "1" "1" []) [mkFile "usr/share/common" "data" (Some "sha1:common") None] false].
Lemma sharing_system : system sharing.
Proof. apply with_repo_system. intros d K. repeat (destruct K as [K|K]; [discriminate K|]). destruct K. Qed.
Definition server_disk : fs := {[ "/usr" := NDir; "/usr/sbin" := NDir; "/usr/sbin/serverd" := NFile "bin"; "/usr/share" := NDir; "/usr/share/common" := NFile "common";
  "/etc" := NDir; "/etc/asis" := NFile "asis"; "/etc/changed" := NFile "by the user"; "/etc/forever" := NFile "forever";
  "/var" := NDir; "/var/server" := NDir; "/var/server/data" := NFile "precious" ]}.
Definition after_removal : world := (remove plain usual ["server"] false (start sharing server_disk)).1.

Theorem C32_shared_file_refuted : exists h o A w w' b n path c, fair h /\ destination (o_dest o) /\ system (w_sys w) /\ relative_lists (w_sys w) /\ tree (w_fs w) /\
  remove h o A false w = (w', Ok b) /\ is_installed (y_inst (w_sys w')) n = true /\ owner (w_sys w) path n /\ lists (w_sys w') n path /\
  w_fs w !! located (o_dest o) path = Some (NFile c) /\ w_fs w' !! located (o_dest o) path = None.
Proof.
  exists plain, usual, ["server"], (start sharing server_disk), after_removal, true, "client", "usr/share/common", "common".
  split; [apply host_fair|]. split; [now left|]. split; [apply sharing_system|].
  split; [apply relative_check_ok; vm_compute; reflexivity|]. split; [apply tree_check_ok; vm_compute; reflexivity|].
  split; [unfold after_removal; apply by_parts; vm_compute; reflexivity|]. split; [vm_compute; reflexivity|].
  split; [eexists; vm_compute; reflexivity|].
  split; [split; [vm_compute; reflexivity|]; eexists; split; [vm_compute; reflexivity|]; left; reflexivity|].
  split; vm_compute; reflexivity.
Qed.
Print Assumptions C32_shared_file_refuted.

Example C32_nontrivial : fair plain /\ system sharing /\ relative_lists sharing /\ tree server_disk /\
  remove plain usual ["server"] false (start sharing server_disk) = (after_removal, Ok true) /\
  names_of (w_sys after_removal) = ["client"] /\
  w_fs after_removal = {[ "/etc" := NDir; "/etc/changed" := NFile "by the user"; "/etc/forever" := NFile "forever";
    "/var" := NDir; "/var/server" := NDir; "/var/server/data" := NFile "precious" ]}.
Proof.
  split; [apply host_fair|]. split; [apply sharing_system|]. split; [apply relative_check_ok; vm_compute; reflexivity|]. split; [apply tree_check_ok; vm_compute; reflexivity|].
  split; [unfold after_removal; apply by_parts; vm_compute; reflexivity|]. split; [vm_compute; reflexivity|]. apply (bool_decide_eq_true_1 _). vm_compute. reflexivity.
Qed.
