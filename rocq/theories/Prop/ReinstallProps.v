(** * C38: installing over an installed package *)
From Coq Require Import String List ZArith.
From stdpp Require Import gmap strings relations.
From Verif Require Import Proof.GraphFacts.
From Verif Require Import Model.Py Model.ItemByRepo Model.Dependency Model.Package Model.ComponentDB Model.Databases
  Model.InstallDB Model.System Model.Graph Model.Plan Model.Path Model.Fs Model.Ops
  Spec.ItemByRepoSpec Spec.DependencySpec Spec.DatabaseSpec Spec.SystemSpec Spec.GraphSpec Spec.PlanSpec Spec.PathSpec Spec.FsSpec Spec.OpsSpec
  Proof.DependencyFacts Proof.InstallDBFacts Proof.SystemFacts Proof.PlanFacts Proof.OpsFacts Proof.OpsTop Proof.OpsSteps Proof.Reinstall.
Require Import Verif.Prop.PlanProps Verif.Prop.OpsProps.
Open Scope string_scope.

(** ** C38 *)
(** How an installation is classified: as a re-installation exactly if it is the same build
    (or release), as an upgrade exactly if it is another and newer, otherwise as a downgrade. *)
Theorem C38_classification o info p : all_readable info p ->
  (compare_installed o info p = Ok VSame <-> same_one (o_ignore_build o) info p) /\
  (compare_installed o info p = Ok VUpgrade <-> ~ same_one (o_ignore_build o) info p /\ newer_one (o_ignore_build o) info p) /\
  ((exists q, compare_installed o info p = Ok (VDowngrade q)) <-> ~ same_one (o_ignore_build o) info p /\ ~ newer_one (o_ignore_build o) info p).
Proof. exact (classification o info p). Qed.
Print Assumptions C38_classification.
(** It fails only if a version or release cannot be read. *)
Theorem C38_classification_fails o info p e : compare_installed o info p = Err e -> e = EValue /\ ~ all_readable info p.
Proof. exact (compare_err o info p e). Qed.
Print Assumptions C38_classification_fails.

(** "Proceeds only after the user confirms" is false: installing an older version over a
    newer one asks nothing. *)
Definition editor (version release : string) : pkgfile := mkPkgfile (v_pkg "editor" version release []) [] [].
Definition new_editor : sys := with_repo [v_pkg "editor" "2" "5" []] [YInstall (v_pkg "editor" "2" "5" []) [] false].
Lemma new_editor_system : system new_editor.
Proof. apply with_repo_system. intros d K. repeat (destruct K as [K|K]; [discriminate K|]). destruct K. Qed.
Lemma readable_text s : (match Version.parse_version s with Ok _ => true | Err _ => false end) = true -> readable s.
Proof. destruct (Version.parse_version s) as [v|] eqn:E; [|discriminate]. intros _. exists v. now apply parse_iff. Qed.
Theorem C38_older_version_unasked_refuted : exists h o k w w' info, fair h /\ system (w_sys w) /\
  is_installed (y_inst (w_sys w)) (p_name (k_pkg k)) = true /\ get_info (y_inst (w_sys w)) (p_name (k_pkg k)) = Ok info /\
  ~ same_one (o_ignore_build o) info (k_pkg k) /\ ~ newer_one (o_ignore_build o) info (k_pkg k) /\
  install_package h o k false true w = (w', Ok tt) /\ forall q b, ~ asked w w' q b.
Proof.
  pose (w := start new_editor ∅). pose (k := editor "1" "4").
  assert (G : get_info (y_inst (w_sys w)) (p_name (k_pkg k)) = Ok (mkInfo StI "2" "5" None "")) by (vm_compute; reflexivity).
  assert (R : all_readable (mkInfo StI "2" "5" None "") (k_pkg k)) by (split; [|split; [|split]]; apply readable_text; vm_compute; reflexivity).
  assert (C : compare_installed usual (mkInfo StI "2" "5" None "") (k_pkg k) = Ok (VDowngrade None)) by (vm_compute; reflexivity).
  assert (D : (exists q, compare_installed usual (mkInfo StI "2" "5" None "") (k_pkg k) = Ok (VDowngrade q))) by eauto.
  apply (classification usual _ _ R) in D as [D1 D2].
  exists plain, usual, k, w, (install_package plain usual k false true w).1, (mkInfo StI "2" "5" None "").
  split; [apply host_fair|]. split; [apply new_editor_system|]. split; [vm_compute; reflexivity|]. split; [exact G|]. split; [exact D1|]. split; [exact D2|].
  split; [apply by_parts; vm_compute; reflexivity|]. intros q b (new & E & I). assert (L : w_log (install_package plain usual k false true w).1 = [EvInstalled "editor"]) by (vm_compute; reflexivity).
  rewrite L in E. destruct new as [|x [|y new]]; [discriminate E| |discriminate E]. injection E as <-. destruct I as [[=]|[]].
Qed.
Print Assumptions C38_older_version_unasked_refuted.
(** What holds: exactly the questions of [question_for] are asked, only if asking is
    requested; a refusal stops the installation and nothing is changed (apart from the
    third-party entry); a success means the user said yes.
    Missing: a question for older versions. *)
Theorem C38_questions_partial h o k i ask w w' r info : install_package h o k i ask w = (w', r) ->
  is_installed (y_inst (w_sys w)) (p_name (k_pkg k)) = true -> get_info (y_inst (w_sys w)) (p_name (k_pkg k)) = Ok info ->
  all_readable info (k_pkg k) ->
  (forall q b, asked w w' q b -> ask = true /\ question_for (o_ignore_build o) info (k_pkg k) q /\
     (b = false -> (exists e, r = Err e) /\ w_fs w' = w_fs w /\ same_records (w_sys w) (w_sys w'))) /\
  (forall q, r = Ok tt -> ask = true -> question_for (o_ignore_build o) info (k_pkg k) q -> asked w w' q true).
Proof. exact (install_questions h o k i ask w w' r info). Qed.
Print Assumptions C38_questions_partial.
(** A package that is not installed raises no question. *)
Theorem C38_fresh_package h o k i ask w w' r q b : install_package h o k i ask w = (w', r) ->
  is_installed (y_inst (w_sys w)) (p_name (k_pkg k)) = false -> ~ asked w w' q b.
Proof. exact (install_fresh_asks_nothing h o k i ask w w' r q b). Qed.
Print Assumptions C38_fresh_package.
Definition stubborn : host := host_with (fun _ _ => false) bare (fun _ => Err EError).
Example C38_nontrivial : system new_editor /\
  w_log (install_package plain usual (editor "2" "5") false true (start new_editor ∅)).1 = [EvInstalled "editor"; EvAsked QReinstall true] /\
  (install_package stubborn usual (editor "2" "5") false true (start new_editor ∅)).2 = Err EError /\
  w_log (install_package plain usual (editor "2" "4") false true (start new_editor ∅)).1 = [EvInstalled "editor"; EvAsked QOldRelease true] /\
  w_log (install_package stubborn usual (editor "2" "4") false true (start new_editor ∅)).1 = [EvAsked QOldRelease false] /\
  w_log (install_package stubborn usual (editor "2" "4") false false (start new_editor ∅)).1 = [EvInstalled "editor"] /\
  w_log (install_package stubborn usual (editor "3" "6") false true (start new_editor ∅)).1 = [EvInstalled "editor"].
Proof. split; [apply new_editor_system|]. split; [vm_compute; reflexivity|]. split; [vm_compute; reflexivity|]. split; [vm_compute; reflexivity|]. split; [vm_compute; reflexivity|]. split; vm_compute; reflexivity. Qed.

(** ** C34 *)
(** False as stated: the upgrade fails at the first such file, after the new version's files
    have been unpacked; the old version stays recorded and the file stays. *)
Definition two_files : sys := with_repo [v_pkg "editor" "2" "2" []]
  [YInstall (v_pkg "editor" "1" "1" []) [mkFile "bin/ed" "executable" (Some "sha1:old") None; mkFile "bin/extra" "executable" (Some "sha1:extra") None] false].
Lemma two_files_system : system two_files.
Proof. apply with_repo_system. intros d K. repeat (destruct K as [K|K]; [discriminate K|]). destruct K. Qed.
Definition disk : fs := {[ "/bin" := NDir; "/bin/ed" := NFile "old"; "/bin/extra" := NFile "extra" ]}.
Definition editor_2 : pkgfile := mkPkgfile (v_pkg "editor" "2" "2" []) [mkFile "bin/ed" "executable" (Some "sha1:new") None] [("bin/ed", AFile "new")].
Theorem C34_leftover_refuted : exists h o k w w' e x, fair h /\ system (w_sys w) /\
  is_installed (y_inst (w_sys w)) (p_name (k_pkg k)) = true /\ lists (w_sys w) (p_name (k_pkg k)) x /\ (forall y, In y (k_files k) -> f_path y <> x) /\
  install_package h o k false false w = (w', Err e) /\ e = EType /\
  w_fs w' !! (o_dest o +:+ x) = w_fs w !! (o_dest o +:+ x) /\ w_fs w !! (o_dest o +:+ x) <> None /\
  w_fs w' !! "/bin/ed" = Some (NFile "new") /\ w_fs w !! "/bin/ed" = Some (NFile "old").
Proof.
  exists plain, usual, editor_2, (start two_files disk), (install_package plain usual editor_2 false false (start two_files disk)).1, EType, "bin/extra".
  split; [apply host_fair|]. split; [apply two_files_system|]. split; [vm_compute; reflexivity|].
  split; [split; [vm_compute; reflexivity|]; eexists; split; [vm_compute; reflexivity|]; right; left; reflexivity|].
  split; [intros y [<-|[]]; discriminate|]. split; [rewrite (surjective_pairing (install_package _ _ _ _ _ _)) at 1; f_equal; vm_compute; reflexivity|]. split; [reflexivity|].
  split; [vm_compute; reflexivity|]. split; [vm_compute; discriminate|]. split; vm_compute; reflexivity.
Qed.
Print Assumptions C34_leftover_refuted.
(** What holds: an upgrade that succeeds has no such file.  Missing: upgrades with such files
    should succeed and remove them; they always fail. *)
Theorem C34_no_leftover_partial h o k i ask w w' u files : install_package h o k i ask w = (w', Ok u) ->
  is_installed (y_inst (w_sys w)) (p_name (k_pkg k)) = true -> list_of (w_sys w) (p_name (k_pkg k)) = Ok files ->
  forall x, In x files -> exists y, In y (k_files k) /\ f_path y = f_path x.
Proof. exact (install_no_leftover h o k i ask w w' u files). Qed.
Print Assumptions C34_no_leftover_partial.
Definition editor_3 : pkgfile := mkPkgfile (v_pkg "editor" "2" "2" [])
  [mkFile "bin/extra" "executable" (Some "sha1:extra") None; mkFile "bin/ed" "executable" (Some "sha1:new") None] [("bin/ed", AFile "new"); ("bin/extra", AFile "extra")].
Example C34_nontrivial : (install_package plain usual editor_3 false false (start two_files disk)).2 = Ok tt /\
  is_installed (y_inst two_files) "editor" = true /\ is_ok (list_of two_files "editor") = true.
Proof. split; [vm_compute; reflexivity|]. split; vm_compute; reflexivity. Qed.
