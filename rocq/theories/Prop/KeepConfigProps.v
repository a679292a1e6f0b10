(** * C33: configuration files the user changed *)
From Coq Require Import String List ZArith.
From stdpp Require Import gmap strings relations.
From Verif Require Import Proof.GraphFacts.
From Verif Require Import Model.Py Model.ItemByRepo Model.Dependency Model.Package Model.ComponentDB Model.Databases
  Model.InstallDB Model.System Model.Graph Model.Plan Model.Path Model.Fs Model.Ops
  Spec.ItemByRepoSpec Spec.DependencySpec Spec.DatabaseSpec Spec.SystemSpec Spec.GraphSpec Spec.PlanSpec Spec.PathSpec Spec.FsSpec Spec.OpsSpec
  Proof.InstallDBFacts Proof.SystemFacts Proof.FsFacts Proof.FsChecks Proof.OpsFacts Proof.KeepConfig.
Require Import Verif.Prop.PlanProps Verif.Prop.OpsProps.
Open Scope string_scope.

(** ** C33 *)
(** A package that is in order and brings a configuration file the user changed: after a
    successful installation the user's content is in place and the packaged one beside it.
    Missing: packages that are not in order, and versions that no longer list the file as a
    configuration file, see below. *)
Theorem C33_user_content_stays_partial h o k i ask w w' c packaged mine : destination (o_dest o) -> in_order k ->
  brings_config (o_dest o) (w_fs w) k c packaged mine -> user_changed (h_sha1 h) (w_sys w) k c mine ->
  install_package h o k i ask w = (w', Ok tt) ->
  w_fs w' !! located (o_dest o) c = Some (NFile mine) /\ w_fs w' !! located (o_dest o) (c +:+ ".newconfig") = Some (NFile packaged).
Proof. exact (kept_content h o k i ask w w' c packaged mine). Qed.
Print Assumptions C33_user_content_stays_partial.

(** Whatever becomes of the installation, and wherever it is cut short, the user's content is
    in the file or in the one with the suffix .old. *)
Theorem C33_never_lost_partial h o k i ask w w' r c packaged mine : destination (o_dest o) -> in_order k ->
  brings_config (o_dest o) (w_fs w) k c packaged mine -> user_changed (h_sha1 h) (w_sys w) k c mine ->
  install_package h o k i ask w = (w', r) ->
  forall s f, (s, f) = (w_sys w', w_fs w') \/ crash_point w w' (s, f) ->
    f !! located (o_dest o) c = Some (NFile mine) \/ f !! located (o_dest o) (c +:+ ".old") = Some (NFile mine).
Proof. exact (never_lost h o k i ask w w' r c packaged mine). Qed.
Print Assumptions C33_never_lost_partial.

(** ** Where it fails *)
Definition daemon_files (kind hash : string) : list finfo :=
  [mkFile "etc/daemon.conf" kind (Some hash) None; mkFile "sbin/daemon" "executable" (Some "sha1:code") None; mkFile "etc/other.conf" "config" (Some "sha1:other") None].
Definition daemon_data (conf : string) : list (string * entry) := [("etc", ADir); ("etc/daemon.conf", AFile conf); ("etc/other.conf", AFile "other"); ("sbin/daemon", AFile "code")].
Definition daemon_1 : sys := with_repo [v_pkg "daemon" "2" "2" []] [YInstall (v_pkg "daemon" "1" "1" []) (daemon_files "config" "sha1:default 1") false].
Definition daemon_2 : pkgfile := mkPkgfile (v_pkg "daemon" "2" "2" []) (daemon_files "config" "sha1:default 2") (daemon_data "default 2").
Lemma daemon_system : system daemon_1.
Proof. apply with_repo_system. intros d K. repeat (destruct K as [K|K]; [discriminate K|]). destruct K. Qed.
Definition tuned : fs := {[ "/etc" := NDir; "/etc/daemon.conf" := NFile "tuned"; "/etc/other.conf" := NFile "other"; "/sbin" := NDir; "/sbin/daemon" := NFile "code" ]}.
Definition has_content (f : fs) (c : string) : bool := existsb (fun pn => bool_decide (pn.2 = NFile c)) (map_to_list f).
Lemma no_content f c : has_content f c = false -> forall p, f !! p <> Some (NFile c).
Proof.
  intros H p E. apply Bool.not_true_iff_false in H. apply H. unfold has_content. apply existsb_exists. exists (p, NFile c). split; [apply elem_of_list_In, elem_of_map_to_list, E|now apply bool_decide_eq_true].
Qed.

(** A package that ships daemon.conf.old as well: the user's content is nowhere. *)
Definition daemon_with_old : pkgfile :=
  mkPkgfile (v_pkg "daemon" "2" "2" []) (daemon_files "config" "sha1:default 2" ++ [mkFile "etc/daemon.conf.old" "data" (Some "sha1:example") None])
    (daemon_data "default 2" ++ [("etc/daemon.conf.old", AFile "example")]).
Theorem C33_shipped_side_file_refuted : exists h o k w w' c packaged mine, fair h /\ destination (o_dest o) /\ system (w_sys w) /\ tree (w_fs w) /\
  brings_config (o_dest o) (w_fs w) k c packaged mine /\ user_changed (h_sha1 h) (w_sys w) k c mine /\
  install_package h o k false false w = (w', Ok tt) /\ forall p, w_fs w' !! p <> Some (NFile mine).
Proof.
  exists plain, usual, daemon_with_old, (start daemon_1 tuned), (install_package plain usual daemon_with_old false false (start daemon_1 tuned)).1, "etc/daemon.conf", "default 2", "tuned".
  split; [apply host_fair|]. split; [now left|]. split; [apply daemon_system|]. split; [apply tree_check_ok; vm_compute; reflexivity|].
  split; [split; [eexists; split; [left; reflexivity|split; reflexivity]|split; [right; left; reflexivity|vm_compute; reflexivity]]|].
  split; [split; [intros _; eexists _, _; split; [vm_compute; reflexivity|]; split; [apply (bool_decide_eq_true_1 _); vm_compute; reflexivity|]; split; [left; reflexivity|]; split; [reflexivity|]; split; [reflexivity|vm_compute; discriminate]|vm_compute; discriminate]|].
  split; [apply by_parts; vm_compute; reflexivity|]. apply no_content. vm_compute. reflexivity.
Qed.
Print Assumptions C33_shipped_side_file_refuted.

(** A version that lists the file, but no longer as a configuration file: the user's content
    is overwritten. *)
Definition daemon_3 : pkgfile := mkPkgfile (v_pkg "daemon" "2" "2" []) (daemon_files "data" "sha1:default 2") (daemon_data "default 2").
Theorem C33_no_longer_config_refuted : exists h o k w w' c packaged mine, fair h /\ destination (o_dest o) /\ system (w_sys w) /\ tree (w_fs w) /\ in_order k /\
  In (c, AFile packaged) (k_data k) /\ w_fs w !! located (o_dest o) c = Some (NFile mine) /\ user_changed (h_sha1 h) (w_sys w) k c mine /\
  install_package h o k false false w = (w', Ok tt) /\ forall p, w_fs w' !! p <> Some (NFile mine).
Proof.
  exists plain, usual, daemon_3, (start daemon_1 tuned), (install_package plain usual daemon_3 false false (start daemon_1 tuned)).1, "etc/daemon.conf", "default 2", "tuned".
  split; [apply host_fair|]. split; [now left|]. split; [apply daemon_system|]. split; [apply tree_check_ok; vm_compute; reflexivity|]. split; [apply order_check_ok; vm_compute; reflexivity|].
  split; [right; left; reflexivity|]. split; [vm_compute; reflexivity|].
  split; [split; [intros _; eexists _, _; split; [vm_compute; reflexivity|]; split; [apply (bool_decide_eq_true_1 _); vm_compute; reflexivity|]; split; [left; reflexivity|]; split; [reflexivity|]; split; [reflexivity|vm_compute; discriminate]|vm_compute; discriminate]|].
  split; [apply by_parts; vm_compute; reflexivity|]. apply no_content. vm_compute. reflexivity.
Qed.
Print Assumptions C33_no_longer_config_refuted.

Example C33_nontrivial : destination (o_dest usual) /\ in_order daemon_2 /\ brings_config "/" tuned daemon_2 "etc/daemon.conf" "default 2" "tuned" /\
  user_changed (h_sha1 plain) daemon_1 daemon_2 "etc/daemon.conf" "tuned" /\
  (install_package plain usual daemon_2 false false (start daemon_1 tuned)).2 = Ok tt /\
  w_fs (install_package plain usual daemon_2 false false (start daemon_1 tuned)).1 =
    {[ "/etc" := NDir; "/etc/daemon.conf" := NFile "tuned"; "/etc/daemon.conf.newconfig" := NFile "default 2"; "/etc/other.conf" := NFile "other"; "/sbin" := NDir; "/sbin/daemon" := NFile "code" ]} /\
  user_changed (h_sha1 plain) (with_repo [] []) daemon_2 "etc/daemon.conf" "tuned" /\
  w_fs (install_package plain usual daemon_2 true false (start (with_repo [] []) tuned)).1 !! "/etc/daemon.conf.newconfig" = Some (NFile "default 2").
Proof.
  split; [now left|]. split; [apply order_check_ok; vm_compute; reflexivity|].
  split; [split; [eexists; split; [left; reflexivity|split; reflexivity]|split; [right; left; reflexivity|vm_compute; reflexivity]]|].
  split; [split; [intros _; eexists _, _; split; [vm_compute; reflexivity|]; split; [apply (bool_decide_eq_true_1 _); vm_compute; reflexivity|]; split; [left; reflexivity|]; split; [reflexivity|]; split; [reflexivity|vm_compute; discriminate]|vm_compute; discriminate]|].
  split; [vm_compute; reflexivity|]. split; [apply (bool_decide_eq_true_1 _); vm_compute; reflexivity|].
  split; [split; [vm_compute; discriminate|intros _; eexists; split; [left; reflexivity|]; split; [reflexivity|]; split; [reflexivity|vm_compute; discriminate]]|].
  vm_compute. reflexivity.
Qed.
