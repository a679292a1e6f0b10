(** * C15, C19, C21, C35, C53, C54: removing and installing packages *)
From Coq Require Import String List ZArith.
From stdpp Require Import gmap strings relations.
From Verif Require Import Proof.GraphFacts.
From Verif Require Import Model.Py Model.ItemByRepo Model.Dependency Model.Package Model.ComponentDB Model.Databases
  Model.InstallDB Model.System Model.Graph Model.Plan Model.Path Model.Fs Model.Ops
  Spec.ItemByRepoSpec Spec.DependencySpec Spec.DatabaseSpec Spec.SystemSpec Spec.GraphSpec Spec.PlanSpec Spec.PathSpec Spec.FsSpec Spec.OpsSpec
  Proof.RevDepFacts Proof.InstallDBFacts Proof.SystemFacts Proof.PlanFacts Proof.UpgradeFacts Proof.PlanTop Proof.OpsFacts Proof.OpsTop Proof.OpsSteps.
Require Import Verif.Prop.PlanProps.
Open Scope string_scope.

(** ** Samples *)
Definition host_with (answer : list event -> question -> bool) (fetch : package -> res pkgfile) (open : string -> res pkgfile) : host :=
  mkHost forth (fun X => elements X) answer (fun c => "sha1:" +:+ c) (fun _ _ => None) fetch open
    (fun p => "Name: " +:+ p_name p +:+ ", version: " +:+ p_version p).
Definition bare (p : package) : res pkgfile := Ok (mkPkgfile p [] []).
Definition plain : host := host_with (fun _ _ => true) bare (fun _ => Err EError).
Lemma host_fair answer fetch open : fair (host_with answer fetch open).
Proof.
  split; [apply forth_any|]. intros X. split; [apply NoDup_elements|]. intros x. cbn [h_list host_with]. rewrite <- elem_of_list_In. apply elem_of_elements.
Qed.
Definition usual : opts := mkOpts false false false false false false false "/".
Definition start (s : sys) (f : fs) : world := mkWorld s f [] [].
Definition names_of (s : sys) : list string := elements (list_to_set (list_installed (y_inst s)) : gset string).

Definition met_check (s : sys) : bool :=
  forallb (fun n => match get_package (y_db s) n RInst with
                    | Ok p => forallb (fun d => match installed_satisfies_dep s d with Ok b => b | Err _ => false end) (p_deps p)
                    | Err _ => true end) (list_installed (y_inst s)).
Lemma met_check_ok s : system s -> met_check s = true -> deps_met s.
Proof.
  intros S H n p d [I G] Hd. unfold met_check in H. rewrite forallb_forall in H. specialize (H n (proj2 (list_installed_spec _ _) I)). rewrite G in H. rewrite forallb_forall in H.
  apply (sat_true _ _ S). specialize (H d Hd). destruct (installed_satisfies_dep s d); [now subst|discriminate].
Qed.
Global Instance dependency_eq_dec : EqDecision dependency.
Proof. solve_decision. Defined.
Definition index_check (s : sys) : bool :=
  forallb (fun n => match get_package (y_db s) n RInst with
                    | Ok p => forallb (fun d => match get_rev_deps (y_db s) (dep_package d) RInst with
                                                | Ok l => bool_decide ((n, d) ∈ l) | Err _ => true end) (p_deps p)
                    | Err _ => true end) (list_installed (y_inst s)).
Lemma index_check_ok s : index_check s = true -> index_complete s.
Proof.
  intros H x l y q d L [I G] Hd E. unfold index_check in H. rewrite forallb_forall in H. specialize (H y (proj2 (list_installed_spec _ _) I)). rewrite G in H. rewrite forallb_forall in H.
  specialize (H d Hd). rewrite E, L in H. apply bool_decide_eq_true, elem_of_list_In in H. exact H.
Qed.

Lemma by_parts {A B} (p : A * res B) b : p.2 = Ok b -> p = (p.1, Ok b).
Proof. intros <-. apply surjective_pairing. Qed.

(** ** C15 *)
Theorem C15_removal_breaks_nothing h o A w w' r : fair h -> o_ignore_dependency o = false -> system (w_sys w) ->
  deps_met (w_sys w) -> index_complete (w_sys w) ->
  remove h o A false w = (w', Ok r) -> deps_met (w_sys w').
Proof. exact (fun F => remove_safe h o F A w w' r). Qed.
Print Assumptions C15_removal_breaks_nothing.
(** what was asked for is gone *)
Theorem C15_requested_removed h o A ig w w' : fair h -> system (w_sys w) -> o_dry_run o = false -> remove h o A ig w = (w', Ok true) ->
  forall p, requested (w_sys w) A p -> (o_bypass_safety o = false -> ~ in_base (w_sys w) p) -> forall q, ~ present (w_sys w') p q.
Proof. exact (fun F => remove_all_requested h o F A ig w w'). Qed.
Print Assumptions C15_requested_removed.
Example C15_nontrivial : fair plain /\ system house /\ deps_met house /\ index_complete house /\
  (remove plain usual ["one"] false (start house ∅)).2 = Ok true /\
  names_of house = ["three"; "two"; "zero"; "four"; "one"] /\
  names_of (w_sys (remove plain usual ["one"] false (start house ∅)).1) = ["zero"; "four"].
Proof.
  split; [apply host_fair|]. split; [apply house_system|]. split; [apply met_check_ok; [apply house_system|vm_compute; reflexivity]|].
  split; [apply index_check_ok; vm_compute; reflexivity|]. split; [vm_compute; reflexivity|]. split; vm_compute; reflexivity.
Qed.

(** The condition on the index is needed, and the program's own operations break it: once a
    package that others need has been upgraded, removing it no longer takes them along. *)
Definition forgetful : sys := with_repo []
  [YInstall (v_pkg "lib" "1" "1" []) [] false; YInstall (v_pkg "app" "1" "1" [dep_on "lib"]) [] false; YInstall (v_pkg "lib" "2" "2" []) [] false].
Lemma forgetful_system : system forgetful.
Proof. apply with_repo_system. intros d K. repeat (destruct K as [K|K]; [discriminate K|]). destruct K. Qed.
Theorem C15_upgraded_dependency_refuted : exists h o A w w' r, fair h /\ o_ignore_dependency o = false /\ system (w_sys w) /\
  deps_met (w_sys w) /\ remove h o A false w = (w', Ok r) /\ ~ deps_met (w_sys w').
Proof.
  exists plain, usual, ["lib"], (start forgetful ∅), (remove plain usual ["lib"] false (start forgetful ∅)).1, true.
  split; [apply host_fair|]. split; [reflexivity|]. split; [apply forgetful_system|]. split; [apply met_check_ok; [apply forgetful_system|vm_compute; reflexivity]|].
  split; [apply by_parts; vm_compute; reflexivity|].
  intros K. destruct (K "app" (v_pkg "app" "1" "1" [dep_on "lib"]) (dep_on "lib")) as (q & [Q _] & _).
  - split; vm_compute; reflexivity.
  - left. reflexivity.
  - revert Q. vm_compute. discriminate.
Qed.
Print Assumptions C15_upgraded_dependency_refuted.

(** ** C19 *)
(** False as stated: "core", of system.base, depends on "zlib", which is not; removing zlib
    removes core. *)
Definition base_pkg (name : string) (deps : list dependency) : package :=
  mkPackage name "1" "1" None deps [] [] (Some "system.base") [] [] [] false "".
Definition based : sys := with_repo [base_pkg "core" [dep_on "zlib"]; v_pkg "zlib" "1" "1" []; base_pkg "sh" []; v_pkg "game" "1" "1" [dep_on "sh"]]
  [YInstall (v_pkg "zlib" "1" "1" []) [] false; YInstall (base_pkg "core" [dep_on "zlib"]) [] false; YInstall (base_pkg "sh" []) [] false;
   YInstall (v_pkg "game" "1" "1" [dep_on "sh"]) [] false].
Lemma based_system : system based.
Proof. apply with_repo_system. intros d K. repeat (destruct K as [K|K]; [discriminate K|]). destruct K. Qed.
Lemma in_base_check s n : match expand s ["system.base"] with Ok X => bool_decide (n ∈ X) | Err _ => false end = true ->
  has_component (db_comp (y_db s)) "system.base" RRepos = Ok true -> system s -> in_base s n.
Proof.
  intros H C S. destruct (expand_requested s ["system.base"] (yi_reach _ (lived_yinv _ _ S))) as (R & E & K). rewrite E in H. apply bool_decide_eq_true in H. apply K in H as (x & [<-|[]] & [[B _]|[_ G]]); [congruence|].
  split; [exact C|exact G].
Qed.
Theorem C19_dependents_refuted : exists h o A w w' r n p, fair h /\ o_bypass_safety o = false /\ system (w_sys w) /\
  remove h o A false w = (w', r) /\ in_base (w_sys w) n /\ present (w_sys w) n p /\ ~ present (w_sys w') n p.
Proof.
  exists plain, usual, ["zlib"], (start based ∅), (remove plain usual ["zlib"] false (start based ∅)).1, (remove plain usual ["zlib"] false (start based ∅)).2, "core", (base_pkg "core" [dep_on "zlib"]).
  split; [apply host_fair|]. split; [reflexivity|]. split; [apply based_system|]. split; [apply surjective_pairing|].
  split; [apply in_base_check; [vm_compute; reflexivity|vm_compute; reflexivity|apply based_system]|]. split; [split; vm_compute; reflexivity|].
  intros [K _]. revert K. vm_compute. discriminate.
Qed.
Print Assumptions C19_dependents_refuted.
(** What holds: a package of system.base goes only if it relies, directly or not, on a
    requested package that is not in system.base.  Missing: that case. *)
Theorem C19_only_dependents_partial h o A ig w w' r n p : fair h -> system (w_sys w) -> o_bypass_safety o = false ->
  remove h o A ig w = (w', r) -> in_base (w_sys w) n -> present (w_sys w) n p -> ~ present (w_sys w') n p ->
  o_ignore_dependency o || ig = false /\
  exists a, requested (w_sys w) A a /\ ~ in_base (w_sys w) a /\ tc (relies_on (w_sys w)) a n.
Proof. exact (fun F => remove_base h o F A ig w w' r n p). Qed.
Print Assumptions C19_only_dependents_partial.
(** So nothing of it goes if what system.base relies on is in system.base. *)
Theorem C19_closed_base_partial h o A ig w w' r : fair h -> system (w_sys w) -> o_bypass_safety o = false ->
  remove h o A ig w = (w', r) ->
  (forall x y, relies_on (w_sys w) x y -> in_base (w_sys w) y -> in_base (w_sys w) x) ->
  forall n p, in_base (w_sys w) n -> present (w_sys w) n p -> present (w_sys w') n p.
Proof. exact (fun F => remove_base_closed h o F A ig w w' r). Qed.
Print Assumptions C19_closed_base_partial.
Example C19_nontrivial : fair plain /\ system based /\ in_base based "sh" /\
  (remove plain usual ["sh"; "game"] false (start based ∅)).2 = Ok true /\
  names_of (w_sys (remove plain usual ["sh"; "game"] false (start based ∅)).1) = ["zlib"; "core"; "sh"].
Proof.
  split; [apply host_fair|]. split; [apply based_system|]. split; [apply in_base_check; [vm_compute; reflexivity|vm_compute; reflexivity|apply based_system]|].
  split; vm_compute; reflexivity.
Qed.

(** ** C21 *)
(** False as stated: a package file installed with dependencies ignored is installed. *)
Definition tool_file : pkgfile := mkPkgfile (v_pkg "tool" "1" "1" []) [mkFile "usr/bin/tool" "executable" (Some "sha1:x") None] [("usr/bin/tool", AFile "x")].
Definition offline : host := host_with (fun _ _ => true) bare (fun u => if String.eqb u "tool-1-1.pisi" then Ok tool_file else Err EError).
Definition dry (ignore_dependency : bool) : opts := mkOpts ignore_dependency false true false false false false "/".
Theorem C21_package_file_refuted : exists h o A w w' u, fair h /\ o_dry_run o = true /\ system (w_sys w) /\
  install h o A false w = (w', Ok u) /\ (exists n p, present (w_sys w') n p /\ ~ present (w_sys w) n p) /\ w_fs w' <> w_fs w.
Proof.
  exists offline, (dry true), ["tool-1-1.pisi"], (start house ∅), (install offline (dry true) ["tool-1-1.pisi"] false (start house ∅)).1, tt.
  split; [apply host_fair|]. split; [reflexivity|]. split; [apply house_system|]. split; [apply by_parts; vm_compute; reflexivity|].
  split; [exists "tool", (v_pkg "tool" "1" "1" []); split; [split; vm_compute; reflexivity|intros [K _]; revert K; vm_compute; discriminate]|].
  intros K. assert (L : w_fs (start house ∅) !! "/usr/bin/tool" = Some (NFile "x")) by (rewrite <- K; vm_compute; reflexivity). discriminate L.
Qed.
Print Assumptions C21_package_file_refuted.
(** What holds: everything else.  Missing: package files with ignore_dependency. *)
Theorem C21_remove h o A ig w : o_dry_run o = true -> untouched w (remove h o A ig w).1.
Proof. exact (fun D => dry_remove h o D A ig w). Qed.
Print Assumptions C21_remove.
Theorem C21_upgrade h o A w : o_dry_run o = true -> untouched w (upgrade_pkg_names h o A w).1.
Proof. exact (fun D => dry_upgrade h o D A w). Qed.
Print Assumptions C21_upgrade.
Theorem C21_install_partial h o A r w : o_dry_run o = true ->
  o_ignore_dependency o = false \/ (forall x l, A = x :: l -> py_endswith x package_suffix = false) ->
  untouched w (install h o A r w).1.
Proof. exact (fun D K => dry_install h o D A r K w). Qed.
Print Assumptions C21_install_partial.
Example C21_nontrivial :
  (remove plain (dry false) ["one"] false (start house ∅)).2 = Ok true /\
  w_log (remove plain (dry false) ["one"] false (start house ∅)).1 = [EvAsked QRemoveExtra true] /\
  (install offline (dry false) ["tool-1-1.pisi"] false (start house ∅)).2 = Ok tt /\
  (upgrade_pkg_names plain (dry false) [] (start taken_blindly ∅)).2 = Ok true /\
  w_log (upgrade_pkg_names plain (dry true) [] (start taken_blindly ∅)).1 = [] /\
  names_of (w_sys (upgrade_pkg_names plain usual ["r"] (start taken_blindly ∅)).1) <> names_of taken_blindly.
Proof. split; [vm_compute; reflexivity|]. split; [vm_compute; reflexivity|]. split; [vm_compute; reflexivity|]. split; [vm_compute; reflexivity|]. split; [vm_compute; reflexivity|]. vm_compute. discriminate. Qed.

(** ** C35 *)
(** Whatever state a crash leaves during the installation of a package, the records are
    those of before; if the installation fails, too. *)
Theorem C35_crash_during_install h o k i ask w w' r : install_package h o k i ask w = (w', r) ->
  (forall c, crash_point w w' c -> same_records (w_sys w) c.1) /\
  (forall e, r = Err e -> same_records (w_sys w) (w_sys w')).
Proof. exact (install_crash h o k i ask w w' r). Qed.
Print Assumptions C35_crash_during_install.
(** If it succeeds they are those of the whole installation. *)
Theorem C35_all_new h o k i ask w w' u : install_package h o k i ask w = (w', Ok u) ->
  exists s, noted (w_sys w) (k_pkg k) s /\ record_install s (k_pkg k) (k_files k) (negb (o_comar o)) = Ok (w_sys w').
Proof. exact (fun H => match install_package_ok h o k i ask w w' u H with ex_intro _ s (conj A (conj B _)) => ex_intro _ s (conj A B) end). Qed.
Print Assumptions C35_all_new.
(** During any command, from one state of the databases to the next the records of one
    package change as a whole, or none. *)
Theorem C35_commands h o c w w' r : system (w_sys w) -> run h o c w = (w', r) ->
  forall s s', successive w w' s s' -> whole_step s s'.
Proof. exact (run_whole h o c w w' r). Qed.
Print Assumptions C35_commands.
Example C35_nontrivial : let w' := (run offline usual (CInstall ["tool-1-1.pisi"] false) (start house ∅)).1 in
  length (w_past w') = 4 /\ w_log w' = [EvInstalled "tool"] /\
  is_installed (y_inst (w_sys w')) "tool" = true /\ forallb (fun c => negb (is_installed (y_inst c.1) "tool")) (w_past w') = true.
Proof. vm_compute. auto. Qed.

(** ** C53 *)
Theorem C53_dependencies_satisfied h o k i ask w w' u : system (w_sys w) -> o_ignore_dependency o = false ->
  install_package h o k i ask w = (w', Ok u) ->
  forall d, In d (p_deps (k_pkg k)) -> met (w_sys w) d /\ (dep_package d <> p_name (k_pkg k) -> met (w_sys w') d).
Proof. exact (install_deps h o k i ask w w' u). Qed.
Print Assumptions C53_dependencies_satisfied.
(** During any command: whenever a package appears, what it depends on is there. *)
Theorem C53_commands h o c w w' r : system (w_sys w) -> o_ignore_dependency o = false -> run h o c w = (w', r) ->
  forall s s', successive w w' s s' -> forall n p, present s' n p -> ~ present s n p ->
  forall d, In d (p_deps p) -> met s d /\ (dep_package d <> n -> met s' d).
Proof. exact (run_deps h o c w w' r). Qed.
Print Assumptions C53_commands.
Example C53_nontrivial : system shop /\ let w' := (run plain usual (CInstall ["app"] false) (start shop ∅)).1 in
  w_log w' = [EvInstalled "app"; EvInstalled "lib"; EvInstalled "core"; EvAsked QInstallExtra true] /\ length (w_past w') = 7.
Proof. split; [apply shop_system|]. vm_compute. auto. Qed.

(** ** C54 *)
(** False as stated: the refused package is entered in the databases as third-party. *)
Definition owned : sys := with_repo [v_pkg "known" "1" "1" []] [YInstall (v_pkg "other" "1" "1" []) [mkFile "usr/bin/tool" "executable" None None] false].
Lemma owned_system : system owned.
Proof. apply with_repo_system. intros d K. repeat (destruct K as [K|K]; [discriminate K|]). destruct K. Qed.
Lemma tool_clashes : clashes "/" owned ∅ tool_file.
Proof.
  exists (mkFile "usr/bin/tool" "executable" (Some "sha1:x") None), "other", (mkFile "usr/bin/tool" "executable" None None).
  split; [left; reflexivity|]. split; [vm_compute; reflexivity|]. split; [discriminate|]. vm_compute. discriminate.
Qed.
Theorem C54_nothing_changes_refuted : exists h o k ask w w' r, fair h /\ system (w_sys w) /\ clashes (o_dest o) (w_sys w) (w_fs w) k /\
  install_package h o k false ask w = (w', r) /\ get_package (y_db (w_sys w')) (p_name (k_pkg k)) RThird = Ok (k_pkg k) /\
  get_package (y_db (w_sys w)) (p_name (k_pkg k)) RThird <> Ok (k_pkg k).
Proof.
  exists offline, usual, tool_file, true, (start owned ∅), (install_package offline usual tool_file false true (start owned ∅)).1, (install_package offline usual tool_file false true (start owned ∅)).2.
  split; [apply host_fair|]. split; [apply owned_system|]. split; [apply tool_clashes|]. split; [apply surjective_pairing|]. split; [vm_compute; reflexivity|]. vm_compute. discriminate.
Qed.
Print Assumptions C54_nothing_changes_refuted.
(** What holds: it is refused, the file system is as before, nothing is installed or asked,
    and the databases are as before except for that entry.  Missing: that entry. *)
Theorem C54_refused_partial h o k ask w w' r : clashes (o_dest o) (w_sys w) (w_fs w) k -> install_package h o k false ask w = (w', r) ->
  (exists e, r = Err e) /\ w_fs w' = w_fs w /\ w_log w' = w_log w /\
  (w_sys w' = w_sys w \/ noted (w_sys w) (k_pkg k) (w_sys w')) /\ same_records (w_sys w) (w_sys w').
Proof. exact (install_clash_all h o k ask w w' r). Qed.
Print Assumptions C54_refused_partial.
Example C54_nontrivial : clashes "/" owned ∅ tool_file /\
  (install_package offline usual tool_file false true (start owned ∅)).2 = Err EError /\
  (install_package offline usual tool_file true true (start owned ∅)).2 = Ok tt /\
  (install_package offline usual tool_file false true (start owned {[ "/usr/bin/tool" := NDir ]})).2 <> Err EError.
Proof. split; [apply tool_clashes|]. split; [vm_compute; reflexivity|]. split; [vm_compute; reflexivity|]. vm_compute. discriminate. Qed.
