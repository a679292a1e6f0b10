(** * C20: asking before touching other packages *)
From Coq Require Import String List ZArith.
From stdpp Require Import gmap strings relations.
From Verif Require Import Proof.GraphFacts.
From Verif Require Import Model.Py Model.ItemByRepo Model.Dependency Model.Package Model.ComponentDB Model.Databases
  Model.InstallDB Model.System Model.Graph Model.Plan Model.Path Model.Fs Model.Ops
  Spec.ItemByRepoSpec Spec.DependencySpec Spec.DatabaseSpec Spec.SystemSpec Spec.GraphSpec Spec.PlanSpec Spec.PathSpec Spec.FsSpec Spec.OpsSpec
  Proof.RevDepFacts Proof.InstallDBFacts Proof.SystemFacts Proof.PlanTop Proof.OpsFacts Proof.OpsTop Proof.OpsSteps Proof.Conflicts Proof.Consent.
Require Import Verif.Prop.PlanProps Verif.Prop.OpsProps Verif.Prop.ConflictProps.
Open Scope string_scope.

(** ** Removing *)
(** If everything requested is installed and none of it refused as part of system.base, then
    nothing else goes before the user has agreed.  Missing: requests with other names. *)
Theorem C20_remove_partial h o A ig w w' r : fair h -> system (w_sys w) ->
  (forall x, requested (w_sys w) A x -> is_installed (y_inst (w_sys w)) x = true /\ (o_bypass_safety o = false -> ~ in_base (w_sys w) x)) ->
  remove h o A ig w = (w', r) -> forall y p, present (w_sys w) y p -> ~ present (w_sys w') y p -> ~ requested (w_sys w) A y ->
  agreed_first w w' QRemoveExtra a_removal /\ h_answer h (w_log w) QRemoveExtra = true.
Proof. exact (fun F => remove_consent h o F A ig w w' r). Qed.
Print Assumptions C20_remove_partial.

(** ** Installing *)
(** If nothing requested is installed (or reinstalling is asked for) and system.base needs
    nothing, then nothing else is installed before the user has agreed.  Missing: the other
    cases. *)
Theorem C20_install_partial h o A re w w' r : fair h -> honest h -> system (w_sys w) -> base_current o (w_sys w) ->
  (re = false -> forall x, requested (w_sys w) A x -> is_installed (y_inst (w_sys w)) x = false) ->
  install_pkg_names h o A re w = (w', r) -> forall x, installed_now w w' x -> ~ requested (w_sys w) A x ->
  agreed_first w w' QInstallExtra an_installation.
Proof. exact (fun F N => install_consent h o F N A re w w' r). Qed.
Print Assumptions C20_install_partial.
(** Whoever agrees to nothing keeps what is installed, and gets only what was requested. *)
Theorem C20_install_declined_partial h o A re w w' r : fair h -> honest h -> refuses h QConflicts -> refuses h QInstallExtra ->
  system (w_sys w) -> base_current o (w_sys w) ->
  (re = false -> forall x, requested (w_sys w) A x -> is_installed (y_inst (w_sys w)) x = false) ->
  install_pkg_names h o A re w = (w', r) ->
  untouched w w' \/ ((forall y, has_pkg (w_sys w) y -> has_pkg (w_sys w') y) /\ forall x, installed_now w w' x -> requested (w_sys w) A x).
Proof. exact (fun F N => install_declined h o F N A re w w' r). Qed.
Print Assumptions C20_install_declined_partial.
(** From package files, nothing but their packages without agreement. *)
Theorem C20_package_files h o uris w w' r x : ~ named_by_file h uris x -> install_pkg_files h o uris w = (w', r) ->
  installed_now w w' x -> agreed_first w w' QFileExtra (fun e => e = EvInstalled x).
Proof. exact (fun N => files_consent h o uris x N w w' r). Qed.
Print Assumptions C20_package_files.

(** ** Upgrading *)
(** If all that is requested is due for an upgrade and system.base needs nothing.  Missing:
    the other cases, among them every "upgrade all". *)
Theorem C20_upgrade_partial h o A w w' r : fair h -> honest h -> A <> [] -> system (w_sys w) -> base_current o (w_sys w) ->
  (forall x, requested (w_sys w) A x -> upgrade_due (w_sys w) (o_ignore_build o) x) ->
  upgrade_pkg_names h o A w = (w', r) -> forall x, installed_now w w' x -> ~ requested (w_sys w) A x ->
  agreed_first w w' QUpgradeExtra an_installation.
Proof.
  exact (fun F N => match A as A return A <> [] -> system (w_sys w) -> base_current o (w_sys w) -> (forall x, requested (w_sys w) A x -> upgrade_due (w_sys w) (o_ignore_build o) x) ->
      upgrade_pkg_names h o A w = (w', r) -> forall x, installed_now w w' x -> ~ requested (w_sys w) A x -> agreed_first w w' QUpgradeExtra an_installation
    with [] => fun K => match K eq_refl with end | a :: l => fun _ => upgrade_consent h o F N (a :: l) w w' r end).
Qed.
Print Assumptions C20_upgrade_partial.
Theorem C20_upgrade_declined_partial h o A w w' r : fair h -> honest h -> A <> [] -> refuses h QConflicts -> refuses h QUpgradeExtra ->
  system (w_sys w) -> base_current o (w_sys w) ->
  (forall x, requested (w_sys w) A x -> upgrade_due (w_sys w) (o_ignore_build o) x) ->
  upgrade_pkg_names h o A w = (w', r) ->
  untouched w w' \/ ((forall y, has_pkg (w_sys w) y -> has_pkg (w_sys w') y) /\ forall x, installed_now w w' x -> requested (w_sys w) A x).
Proof.
  exact (fun F N => match A as A return A <> [] -> refuses h QConflicts -> refuses h QUpgradeExtra -> system (w_sys w) -> base_current o (w_sys w) ->
      (forall x, requested (w_sys w) A x -> upgrade_due (w_sys w) (o_ignore_build o) x) -> upgrade_pkg_names h o A w = (w', r) ->
      untouched w w' \/ ((forall y, has_pkg (w_sys w) y -> has_pkg (w_sys w') y) /\ forall x, installed_now w w' x -> requested (w_sys w) A x)
    with [] => fun K => match K eq_refl with end | a :: l => fun _ => upgrade_declined h o F N (a :: l) w w' r end).
Qed.
Print Assumptions C20_upgrade_declined_partial.

(** ** Removals that come with an installation *)
Theorem C20_conflicts_install h o A re w w' r n : install h o A re w = (w', r) -> happens w w' (EvRemoved n) ->
  agreed_first w w' QConflicts a_removal.
Proof.
  exact (fun H I => guarded_log _ _ _ _ _ (eq_ind _ (fun z => guarded QConflicts a_removal w (fst z)) (guard_install h o A re w) _ H) I (ex_intro _ n eq_refl)).
Qed.
Print Assumptions C20_conflicts_install.
Theorem C20_conflicts_upgrade h o A w w' r n : upgrade_pkg_names h o A w = (w', r) -> happens w w' (EvRemoved n) ->
  agreed_first w w' QConflicts a_removal.
Proof.
  exact (fun H I => guarded_log _ _ _ _ _ (eq_ind _ (fun z => guarded QConflicts a_removal w (fst z)) (guard_upgrade h o A w) _ H) I (ex_intro _ n eq_refl)).
Qed.
Print Assumptions C20_conflicts_upgrade.

(** ** Samples *)
Definition silent_user : host := host_with (fun _ _ => false) bare (fun _ => Err EError).
Definition log_of {A} (p : world * res A) : list event := w_log p.1.
Example C20_nontrivial :
  log_of (remove plain usual ["one"] false (start house ∅)) = [EvRemoved "one"; EvRemoved "two"; EvRemoved "three"; EvAsked QRemoveExtra true] /\
  log_of (remove silent_user usual ["one"] false (start house ∅)) = [EvAsked QRemoveExtra false] /\
  log_of (install_pkg_names plain usual ["postfix"] false (start mta ∅)) =
    [EvInstalled "postfix"; EvInstalled "libdb"; EvAsked QInstallExtra true; EvRemoved "sendmail"; EvAsked QConflicts true] /\
  log_of (install_pkg_names silent_user usual ["postfix"] false (start mta ∅)) = [EvAsked QConflicts false] /\
  log_of (upgrade_pkg_names plain usual ["r"] (start taken_blindly ∅)) = [EvInstalled "r"; EvInstalled "z"; EvInstalled "x"; EvAsked QUpgradeExtra true] /\
  base_current usual mta /\ base_current usual taken_blindly /\ refuses silent_user QInstallExtra /\
  (forall x, requested mta ["postfix"] x -> is_installed (y_inst mta) x = false).
Proof.
  do 5 (split; [vm_compute; reflexivity|]). split; [right; intros y [K _]; revert K; vm_compute; discriminate|]. split; [right; intros y [K _]; revert K; vm_compute; discriminate|]. split; [intros past; reflexivity|].
  intros x (y & [<-|[]] & [[_ ->]|[K _]]); [vm_compute; reflexivity|revert K; vm_compute; discriminate].
Qed.

(** ** What does not hold *)
Definition unasked {A} (p : world * res A) : bool := forallb (fun e => match e with EvAsked _ _ => false | _ => true end) (log_of p).
Lemma unasked_ok {A} s f (m : M A) : unasked (m (start s f)) = true -> ~ exists q yes, asked (start s f) (m (start s f)).1 q yes.
Proof.
  intros H (q & yes & new & E & K). cbn [w_log start] in E. rewrite app_nil_r in E. unfold unasked, log_of in H. rewrite E, forallb_forall in H. discriminate (H _ K).
Qed.
(** A name that is not installed hides one more package in the count. *)
Theorem C20_remove_refuted : exists h o A w w' y p, fair h /\ system (w_sys w) /\ remove h o A false w = (w', Ok true) /\
  present (w_sys w) y p /\ ~ has_pkg (w_sys w') y /\ ~ requested (w_sys w) A y /\ ~ exists q yes, asked w w' q yes.
Proof.
  exists plain, usual, ["one"; "nine"; "ten"], (start house ∅), (remove plain usual ["one"; "nine"; "ten"] false (start house ∅)).1, "two", (v_pkg "two" "1" "1" [dep_on "one"; at_least "zero" "1"]).
  split; [apply host_fair|]. split; [apply house_system|]. split; [apply by_parts; vm_compute; reflexivity|]. split; [split; vm_compute; reflexivity|].
  split; [intros [q [K _]]; revert K; vm_compute; discriminate|].
  split; [intros (x & I & [[_ K]|[K _]]); repeat (destruct I as [<-|I]; [revert K; vm_compute; discriminate|]); destruct I|].
  apply unasked_ok. vm_compute. reflexivity.
Qed.
Print Assumptions C20_remove_refuted.
(** An installed package among those requested does the same when installing. *)
Definition half : sys := with_repo [v_pkg "have" "1" "1" []; v_pkg "new" "1" "1" [dep_on "lib"]; v_pkg "lib" "1" "1" []] [YInstall (v_pkg "have" "1" "1" []) [] false].
Lemma half_system : system half.
Proof. apply with_repo_system. intros d K. repeat (destruct K as [K|K]; [discriminate K|]). destruct K. Qed.
Theorem C20_install_refuted : exists h o A w w' x, fair h /\ honest h /\ system (w_sys w) /\ base_current o (w_sys w) /\ install_pkg_names h o A false w = (w', Ok true) /\
  installed_now w w' x /\ ~ requested (w_sys w) A x /\ ~ exists q yes, asked w w' q yes.
Proof.
  set (w' := (install_pkg_names plain usual ["have"; "new"] false (start half ∅)).1).
  exists plain, usual, ["have"; "new"], (start half ∅), w', "lib".
  split; [apply host_fair|]. split; [apply bare_honest|]. split; [apply half_system|]. split; [right; intros y [K _]; revert K; vm_compute; discriminate|].
  split; [unfold w'; apply by_parts; vm_compute; reflexivity|]. split; [exists (w_log w'); split; [now rewrite app_nil_r|]; vm_compute; tauto|].
  split; [intros (x & I & [[_ K]|[K _]]); repeat (destruct I as [<-|I]; [revert K; vm_compute; discriminate|]); destruct I|].
  apply unasked_ok. vm_compute. reflexivity.
Qed.
Print Assumptions C20_install_refuted.
(** The packages system.base lacks are counted as requested. *)
Definition lacking : sys := with_repo [base_pkg "core" []; v_pkg "game" "1" "1" []] [].
Lemma lacking_system : system lacking.
Proof. apply with_repo_system. intros d K. repeat (destruct K as [K|K]; [discriminate K|]). destruct K. Qed.
Theorem C20_system_base_refuted : exists h o A w w' x, fair h /\ honest h /\ system (w_sys w) /\
  (forall x, requested (w_sys w) A x -> is_installed (y_inst (w_sys w)) x = false) /\ install_pkg_names h o A false w = (w', Ok true) /\
  installed_now w w' x /\ ~ requested (w_sys w) A x /\ ~ exists q yes, asked w w' q yes.
Proof.
  set (w' := (install_pkg_names plain usual ["game"] false (start lacking ∅)).1).
  exists plain, usual, ["game"], (start lacking ∅), w', "core".
  split; [apply host_fair|]. split; [apply bare_honest|]. split; [apply lacking_system|]. split; [intros x _; vm_compute; reflexivity|].
  split; [unfold w'; apply by_parts; vm_compute; reflexivity|]. split; [exists (w_log w'); split; [now rewrite app_nil_r|]; vm_compute; tauto|].
  split; [intros (x & I & [[_ K]|[K _]]); repeat (destruct I as [<-|I]; [revert K; vm_compute; discriminate|]); destruct I|].
  apply unasked_ok. vm_compute. reflexivity.
Qed.
Print Assumptions C20_system_base_refuted.
(** Packages that need no upgrade are counted, too. *)
Theorem C20_upgrade_refuted : exists h o A w w' x, fair h /\ honest h /\ system (w_sys w) /\ base_current o (w_sys w) /\ upgrade_pkg_names h o A w = (w', Ok true) /\
  installed_now w w' x /\ ~ requested (w_sys w) A x /\ ~ has_pkg (w_sys w) x /\ ~ exists q yes, asked w w' q yes.
Proof.
  set (w' := (upgrade_pkg_names plain usual ["r"; "s"; "t"] (start taken_blindly ∅)).1).
  exists plain, usual, ["r"; "s"; "t"], (start taken_blindly ∅), w', "z".
  split; [apply host_fair|]. split; [apply bare_honest|]. split; [apply taken_blindly_system|]. split; [right; intros y [K _]; revert K; vm_compute; discriminate|].
  split; [unfold w'; apply by_parts; vm_compute; reflexivity|]. split; [exists (w_log w'); split; [now rewrite app_nil_r|]; vm_compute; tauto|].
  split; [intros (x & I & [[_ K]|[K _]]); repeat (destruct I as [<-|I]; [revert K; vm_compute; discriminate|]); destruct I|].
  split; [intros [q [K _]]; revert K; vm_compute; discriminate|]. apply unasked_ok. vm_compute. reflexivity.
Qed.
Print Assumptions C20_upgrade_refuted.
