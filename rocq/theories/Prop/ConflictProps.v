(** * C18: conflicting packages *)
From Coq Require Import String List ZArith.
From stdpp Require Import gmap strings relations.
From Verif Require Import Proof.GraphFacts.
From Verif Require Import Model.Py Model.ItemByRepo Model.Dependency Model.Package Model.ComponentDB Model.Databases
  Model.InstallDB Model.System Model.Graph Model.Plan Model.Path Model.Fs Model.Ops
  Spec.ItemByRepoSpec Spec.DependencySpec Spec.DatabaseSpec Spec.SystemSpec Spec.GraphSpec Spec.PlanSpec Spec.PathSpec Spec.FsSpec Spec.OpsSpec Spec.PkgFilesSpec
  Proof.RevDepFacts Proof.InstallDBFacts Proof.SystemFacts Proof.PlanTop Proof.OpsFacts Proof.OpsTop Proof.OpsSteps Proof.Conflicts Proof.ConflictFiles.
Require Import Verif.Prop.PlanProps Verif.Prop.OpsProps.
Open Scope string_scope.

(** No two packages of an accepted plan conflict. *)
Theorem C18_install_plan h o A w w' order : fair h -> system (w_sys w) -> o_ignore_file_conflicts o = false ->
  plan_install_pkg_names h o A w = (w', Ok order) -> forall x y, In x order -> offers (w_sys w) x y -> ~ In y order.
Proof. exact (fun F => plan_ok h o F (fun s => plan_install s (h_it h) A) w w' order). Qed.
Print Assumptions C18_install_plan.
Theorem C18_upgrade_plan h o A w w' order : fair h -> system (w_sys w) -> o_ignore_file_conflicts o = false ->
  plan_upgrade_pkg_names h o A w = (w', Ok order) -> forall x y, In x order -> offers (w_sys w) x y -> ~ In y order.
Proof. exact (fun F => plan_ok h o F (fun s => plan_upgrade s (h_it h) (o_eager o) A) w w' order). Qed.
Print Assumptions C18_upgrade_plan.

(** Of the packages a command installs none is left next to one it conflicts with, except
    packages of system.base and packages having the name of a component.  Missing: those,
    and installed packages that declare the conflict themselves. *)
Theorem C18_install_partial h o A re w w' b : fair h -> honest h -> system (w_sys w) ->
  o_ignore_file_conflicts o = false -> o_ignore_dependency o = false -> install_pkg_names h o A re w = (w', Ok b) ->
  forall x y, installed_now w w' x -> declares (w_sys w') x y -> has_pkg (w_sys w') y ->
    has_component (db_comp (y_db (w_sys w))) y RRepos = Ok true \/ (o_bypass_safety o = false /\ in_base (w_sys w) y).
Proof. exact (fun F N => install_names_unconflicted h o F N A re w w' b). Qed.
Print Assumptions C18_install_partial.
Theorem C18_upgrade_partial h o A w w' b : fair h -> honest h -> system (w_sys w) ->
  o_ignore_file_conflicts o = false -> o_ignore_dependency o = false -> upgrade_pkg_names h o A w = (w', Ok b) ->
  forall x y, installed_now w w' x -> declares (w_sys w') x y -> has_pkg (w_sys w') y ->
    has_component (db_comp (y_db (w_sys w))) y RRepos = Ok true \/ (o_bypass_safety o = false /\ in_base (w_sys w) y).
Proof. exact (fun F N => upgrade_unconflicted h o F N A w w' b). Qed.
Print Assumptions C18_upgrade_partial.

(** The packages of package files are not left next to one they conflict with either. *)
Theorem C18_files_partial h o uris w w' u : fair h -> system (w_sys w) ->
  o_ignore_file_conflicts o = false -> o_ignore_dependency o = false -> o_dry_run o = false -> install_pkg_files h o uris w = (w', Ok u) ->
  forall x y, named_by_file h uris x -> declares (w_sys w') x y -> has_pkg (w_sys w') y ->
    has_component (db_comp (y_db (w_sys w))) y RRepos = Ok true \/ (o_bypass_safety o = false /\ in_base (w_sys w) y).
Proof. exact (fun F => files_unconflicted h o F uris w w' u). Qed.
Print Assumptions C18_files_partial.

(** Whoever does not agree to the removals keeps everything, and then the plan goes on only if
    no installed package is in the way. *)
Theorem C18_refusal h o get order w : (forall past, h_answer h past QConflicts = false) ->
  untouched w (check_conflicts h o get order w).1 /\
  forall u x p c, (check_conflicts h o get order w).2 = Ok u -> In x order -> get (w_sys w) x = Ok p -> In c (p_conflicts p) ->
    is_installed (y_inst (w_sys w)) c = false.
Proof. exact (check_refused h o get order w). Qed.
Print Assumptions C18_refusal.

(** ** Samples *)
Definition c_pkg (name : string) (deps : list dependency) (conflicts : list string) : package :=
  mkPackage name "1" "1" None deps [] conflicts (Some "misc") [] [] [] false "".
Lemma bare_honest answer open : honest (host_with answer bare open).
Proof. intros p k [= <-]. reflexivity. Qed.
Definition mta : sys := with_repo [c_pkg "postfix" [dep_on "libdb"] ["sendmail"; "exim"]; c_pkg "libdb" [] []; c_pkg "exim" [] ["postfix"]]
  [YInstall (c_pkg "sendmail" [] []) [] false; YInstall (c_pkg "mutt" [dep_on "sendmail"] []) [] false].
Lemma mta_system : system mta.
Proof. apply with_repo_system. intros d K. repeat (destruct K as [K|K]; [discriminate K|]). destruct K. Qed.
Definition no_removal : host := host_with (fun _ q => match q with QConflicts => false | _ => true end) bare (fun _ => Err EError).

Example C18_nontrivial : fair plain /\ honest plain /\ system mta /\
  (let w' := (install_pkg_names plain usual ["postfix"] false (start mta ∅)).1 in
   (install_pkg_names plain usual ["postfix"] false (start mta ∅)).2 = Ok true /\ names_of (w_sys w') = ["postfix"; "libdb"; "mutt"] /\
   installed_now (start mta ∅) w' "postfix" /\ declares (w_sys w') "postfix" "sendmail" /\
   ~ In (EvInstalled "sendmail") (w_log w')) /\
  (install_pkg_names plain usual ["postfix"; "exim"] false (start mta ∅)).2 = Err EError /\
  (let w' := (install_pkg_names no_removal usual ["postfix"] false (start mta ∅)).1 in
   (install_pkg_names no_removal usual ["postfix"] false (start mta ∅)).2 = Err EError /\ names_of (w_sys w') = names_of mta).
Proof.
  split; [apply host_fair|]. split; [apply bare_honest|]. split; [apply mta_system|]. split.
  - intros w'. split; [vm_compute; reflexivity|]. split; [vm_compute; reflexivity|]. split.
    { exists (w_log w'). split; [now rewrite app_nil_r|]. vm_compute. tauto. }
    split; [exists (c_pkg "postfix" [dep_on "libdb"] ["sendmail"; "exim"]); split; [split; vm_compute; reflexivity|now left]|]. vm_compute. intuition discriminate.
  - split; [vm_compute; reflexivity|]. intros w'. split; vm_compute; reflexivity.
Qed.

(** ** What does not hold *)
(** An installed package that declares the conflict is not noticed. *)
Definition reserved : sys := with_repo [c_pkg "newcomer" [] []] [YInstall (c_pkg "resident" [] ["newcomer"]) [] false].
Lemma reserved_system : system reserved.
Proof. apply with_repo_system. intros d K. repeat (destruct K as [K|K]; [discriminate K|]). destruct K. Qed.
Theorem C18_resident_refuted : exists h o A w w' x y, fair h /\ honest h /\ system (w_sys w) /\ o_ignore_file_conflicts o = false /\ o_ignore_dependency o = false /\
  install_pkg_names h o A false w = (w', Ok true) /\ installed_now w w' y /\ has_pkg (w_sys w') y /\ declares (w_sys w') x y /\
  ~ (exists q yes, asked w w' q yes).
Proof.
  set (w' := (install_pkg_names plain usual ["newcomer"] false (start reserved ∅)).1).
  exists plain, usual, ["newcomer"], (start reserved ∅), w', "resident", "newcomer".
  split; [apply host_fair|]. split; [apply bare_honest|]. split; [apply reserved_system|]. split; [reflexivity|]. split; [reflexivity|].
  split; [unfold w'; apply by_parts; vm_compute; reflexivity|]. split; [exists (w_log w'); split; [now rewrite app_nil_r|]; vm_compute; tauto|].
  split; [exists (c_pkg "newcomer" [] []); split; vm_compute; reflexivity|]. split; [exists (c_pkg "resident" [] ["newcomer"]); split; [split; vm_compute; reflexivity|now left]|].
  intros (q & yes & new & E & K). cbn [w_log start] in E. rewrite app_nil_r in E. subst new. revert K. vm_compute. intuition discriminate.
Qed.
Print Assumptions C18_resident_refuted.

(** A conflicting package of system.base stays, as soon as another one is removed. *)
Definition shells : sys := with_repo [c_pkg "fish" [] ["sh"; "toy"]; base_pkg "sh" []; c_pkg "toy" [] []]
  [YInstall (base_pkg "sh" []) [] false; YInstall (c_pkg "toy" [] []) [] false].
Lemma shells_system : system shells.
Proof. apply with_repo_system. intros d K. repeat (destruct K as [K|K]; [discriminate K|]). destruct K. Qed.
Theorem C18_system_base_refuted : exists h o A w w' x y, fair h /\ honest h /\ system (w_sys w) /\ o_ignore_file_conflicts o = false /\ o_ignore_dependency o = false /\
  install_pkg_names h o A false w = (w', Ok true) /\ installed_now w w' x /\ declares (w_sys w') x y /\ has_pkg (w_sys w') y.
Proof.
  set (w' := (install_pkg_names plain usual ["fish"] false (start shells ∅)).1).
  exists plain, usual, ["fish"], (start shells ∅), w', "fish", "sh".
  split; [apply host_fair|]. split; [apply bare_honest|]. split; [apply shells_system|]. split; [reflexivity|]. split; [reflexivity|].
  split; [unfold w'; apply by_parts; vm_compute; reflexivity|]. split; [exists (w_log w'); split; [now rewrite app_nil_r|]; vm_compute; tauto|].
  split; [exists (c_pkg "fish" [] ["sh"; "toy"]); split; [split; vm_compute; reflexivity|now left]|]. exists (base_pkg "sh" []). split; vm_compute; reflexivity.
Qed.
Print Assumptions C18_system_base_refuted.

(** With --ignore-dependency nothing is checked but the package itself, and that check looks
    for an installed package whose name is the description of the new one. *)
Definition heedless : opts := mkOpts true false false false false false false "/".
Theorem C18_own_check_refuted : exists h o A w w' x y, fair h /\ honest h /\ system (w_sys w) /\ o_ignore_file_conflicts o = false /\
  install_pkg_names h o A false w = (w', Ok true) /\ installed_now w w' x /\ declares (w_sys w') x y /\ has_pkg (w_sys w') y /\
  ~ in_base (w_sys w) y /\ ~ (exists q yes, asked w w' q yes).
Proof.
  set (w' := (install_pkg_names plain heedless ["postfix"] false (start mta ∅)).1).
  exists plain, heedless, ["postfix"], (start mta ∅), w', "postfix", "sendmail".
  split; [apply host_fair|]. split; [apply bare_honest|]. split; [apply mta_system|]. split; [reflexivity|].
  split; [unfold w'; apply by_parts; vm_compute; reflexivity|]. split; [exists (w_log w'); split; [now rewrite app_nil_r|]; vm_compute; tauto|].
  split; [exists (c_pkg "postfix" [dep_on "libdb"] ["sendmail"; "exim"]); split; [split; vm_compute; reflexivity|now left]|]. split; [exists (c_pkg "sendmail" [] []); split; vm_compute; reflexivity|].
  split; [intros [K _]; revert K; vm_compute; discriminate|].
  intros (q & yes & new & E & K). cbn [w_log start] in E. rewrite app_nil_r in E. subst new. revert K. vm_compute. intuition discriminate.
Qed.
Print Assumptions C18_own_check_refuted.

(** ** Package files *)
Definition parcels : host := host_with (fun _ _ => true) bare (fun u =>
  if String.eqb u "app.pisi" then Ok (mkPkgfile (c_pkg "app" [dep_on "lib"] ["old"]) [] [])
  else if String.eqb u "tool.pisi" then Ok (mkPkgfile (c_pkg "tool" [] []) [] [])
  else if String.eqb u "rival.pisi" then Ok (mkPkgfile (c_pkg "rival" [] ["tool"]) [] [])
  else Err EError).
Definition before_parcels : sys := with_repo [c_pkg "lib" [] ["tool"]] [YInstall (c_pkg "old" [] []) [] false].
Lemma before_parcels_system : system before_parcels.
Proof. apply with_repo_system. intros d K. repeat (destruct K as [K|K]; [discriminate K|]). destruct K. Qed.
Example C18_files_nontrivial : fair parcels /\ system before_parcels /\
  (let w' := (install_pkg_files parcels usual ["app.pisi"] (start before_parcels ∅)).1 in
   (install_pkg_files parcels usual ["app.pisi"] (start before_parcels ∅)).2 = Ok tt /\ names_of (w_sys w') = ["lib"; "app"] /\
   named_by_file parcels ["app.pisi"] "app" /\ declares (w_sys w') "app" "old") /\
  (install_pkg_files parcels usual ["tool.pisi"; "rival.pisi"] (start before_parcels ∅)).2 = Err EError.
Proof.
  split; [apply host_fair|]. split; [apply before_parcels_system|]. split; [|vm_compute; reflexivity].
  intros w'. split; [vm_compute; reflexivity|]. split; [vm_compute; reflexivity|]. split; [exists "app.pisi"; eexists; split; [now left|split; reflexivity]|].
  exists (c_pkg "app" [dep_on "lib"] ["old"]). split; [split; vm_compute; reflexivity|now left].
Qed.
(** A package taken from a repository because a file needs it is left next to a package of the
    files it declares a conflict with. *)
Theorem C18_files_extra_refuted : exists h o uris w w' x y, fair h /\ honest h /\ system (w_sys w) /\ o_ignore_file_conflicts o = false /\ o_ignore_dependency o = false /\
  install_pkg_files h o uris w = (w', Ok tt) /\ installed_now w w' x /\ installed_now w w' y /\ declares (w_sys w') x y /\ has_pkg (w_sys w') y /\
  ~ in_base (w_sys w) y.
Proof.
  set (w' := (install_pkg_files parcels usual ["app.pisi"; "tool.pisi"] (start before_parcels ∅)).1).
  exists parcels, usual, ["app.pisi"; "tool.pisi"], (start before_parcels ∅), w', "lib", "tool".
  split; [apply host_fair|]. split; [apply bare_honest|]. split; [apply before_parcels_system|]. split; [reflexivity|]. split; [reflexivity|].
  split; [unfold w'; apply by_parts; vm_compute; reflexivity|]. split; [exists (w_log w'); split; [now rewrite app_nil_r|]; vm_compute; tauto|].
  split; [exists (w_log w'); split; [now rewrite app_nil_r|]; vm_compute; tauto|].
  split; [exists (c_pkg "lib" [] ["tool"]); split; [split; vm_compute; reflexivity|now left]|].
  split; [exists (c_pkg "tool" [] []); split; vm_compute; reflexivity|]. intros [K _]. revert K. vm_compute. discriminate.
Qed.
Print Assumptions C18_files_extra_refuted.
