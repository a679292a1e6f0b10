(** * C06, C28, C29, C31, C60: the databases of what is installed *)
From Coq Require Import String List ZArith.
From stdpp Require Import gmap strings.
From Verif Require Import Model.Py Model.ItemByRepo Model.Dependency Model.Package Model.Databases Model.InstallDB Model.System
  Spec.ItemByRepoSpec Spec.DependencySpec Spec.DatabaseSpec Spec.SystemSpec
  Proof.RevDepFacts Proof.InstallDBFacts Proof.SystemFacts.
Open Scope string_scope.

(** ** C28 *)

(** What the install database answers about a package is decided by its latest event. *)
Theorem C28_is_installed log db p : happened log db ->
  (is_installed db p = true <-> exists v r b, fate_of log p = Present v r b).
Proof. exact (happened_installed log db p). Qed.
Theorem C28_is_removed log db p : happened log db ->
  (is_removed db p = true <-> exists v r b, fate_of log p = Gone v r b).
Proof. exact (happened_removed log db p). Qed.
Theorem C28_list_installed db : NoDup (list_installed db) /\
  forall p, In p (list_installed db) <-> is_installed db p = true.
Proof. exact (conj (list_installed_nodup db) (list_installed_spec db)). Qed.
Theorem C28_version log db p : happened log db ->
  match fate_of log p with
  | NeverSeen => get_version db p = Err EKey
  | Present v r b | Gone v r b => get_version db p = Ok (v, r, b)
  end.
Proof. exact (happened_version log db p). Qed.
(** Recording an install succeeds exactly when the package is not present. *)
Theorem C28_no_double_install log db p v r b d later : happened log db ->
  (exists db', do_event db (EvInstall p v r b d later) = Ok db') <-> forall v' r' b', fate_of log p <> Present v' r' b'.
Proof. exact (install_again log db p v r b d later). Qed.
Theorem C28_remove_recorded log db p : happened log db ->
  (exists db', do_event db (EvRemove p) = Ok db') <-> fate_of log p <> NeverSeen.
Proof. exact (remove_again log db p). Qed.

Definition some_log : list iev :=
  [EvInstall "bash" "3.2" "5" (Some 7%Z) "Pardus" true; EvRemove "bash"; EvConfigured "glibc";
   EvInstall "bash" "3.1" "4" None "Pardus" false; EvInstall "glibc" "2.5" "9" None "Pardus" true].
Definition run_log (l : list iev) : res installdb := foldM do_event (rev l) empty_inst.
Lemma run_log_happened l db : run_log l = Ok db -> happened l db.
Proof.
  unfold run_log. assert (G : forall l l0 db0, happened l0 db0 -> foldM do_event l db0 = Ok db -> happened (rev l ++ l0)%list db).
  { clear l. induction l as [|e l IH]; intros l0 db0 H K; simpl in *; [injection K as <-; exact H|].
    apply Proof.DatabaseFacts.bind_ok in K as (db1 & E & K). rewrite <- app_assoc. simpl. eapply IH; [econstructor; eauto|exact K]. }
  intros H. specialize (G (rev l) [] empty_inst hap_start H). now rewrite rev_involutive, app_nil_r in G.
Qed.
Example C28_nontrivial : exists db, happened some_log db /\
  fate_of some_log "bash" = Present "3.2" "5" (Some 7%Z) /\ is_installed db "bash" = true /\ is_installed db "zsh" = false.
Proof.
  assert (E : is_ok (run_log some_log) = true) by (vm_compute; reflexivity).
  destruct (run_log some_log) as [db|] eqn:R; [|discriminate]. exists db. pose proof (run_log_happened _ _ R) as H.
  split; [exact H|]. split; [reflexivity|]. split; [apply (C28_is_installed _ _ _ H); vm_compute; eauto|].
  destruct (is_installed db "zsh") eqn:Z; [|reflexivity]. apply (C28_is_installed _ _ _ H) in Z as (? & ? & ? & [=]).
Qed.

(** ** C29 *)

(** As stated it is false: removing a package that awaits configuration leaves it listed,
    and purging one makes listing fail. *)
Theorem C29_removed_still_listed_refuted : exists log db l,
  happened log db /\ list_pending db = Ok l /\ In "bash" (map fst l) /\ ~ awaiting log "bash".
Proof.
  exists [EvRemove "bash"; EvInstall "bash" "3.2" "5" None "" true]. eexists. exists [("bash", mkInfo StR "3.2" "5" None "")].
  split; [eapply hap_step; [eapply hap_step; [constructor|vm_compute; reflexivity]|vm_compute; reflexivity]|].
  split; [vm_compute; reflexivity|]. split; [simpl; auto|simpl; tauto].
Qed.
Theorem C29_purged_breaks_listing_refuted : exists log db, happened log db /\ list_pending db = Err EKey.
Proof.
  exists [EvPurge "bash"; EvInstall "bash" "3.2" "5" None "" true]. eexists. split.
  - eapply hap_step; [eapply hap_step; [constructor|vm_compute; reflexivity]|vm_compute; reflexivity].
  - vm_compute. reflexivity.
Qed.
(** No package awaiting configuration is ever left out. *)
Theorem C29_never_misses_partial log db l p :
  happened log db -> list_pending db = Ok l -> awaiting log p -> In p (map fst l).
Proof. exact (pending_listed log db l p). Qed.
(** As long as packages awaiting configuration are not removed or purged, the list is exact. *)
Theorem C29_exact_partial log db : happened log db -> undisturbed log ->
  exists l, list_pending db = Ok l /\ NoDup (map fst l) /\
    (forall p, In p (map fst l) <-> awaiting log p) /\
    (forall p info, In (p, info) l -> get_info db p = Ok info).
Proof. exact (pending_exact log db). Qed.
Example C29_nontrivial : undisturbed some_log /\ awaiting some_log "bash" /\ ~ awaiting some_log "glibc".
Proof. simpl. repeat split; auto. Qed.

(** ** C60 *)
(** The install database and the package database agree about what is installed. *)
Theorem C60_databases_agree s n : system s ->
  (is_installed (y_inst s) n = true <-> exists pk, get_package (y_db s) n RInst = Ok pk) /\
  (forall pk, get_package (y_db s) n RInst = Ok pk ->
     p_name pk = n /\ get_version (y_inst s) n = Ok (p_version pk, p_release pk, p_build pk)).
Proof. exact (system_agrees s n). Qed.

(** ** C31 *)
(** As stated it is false: with a path listed by two packages (file conflicts ignored),
    removing the first leaves the path without an owner. *)
Definition a_file (path : string) : finfo := mkFile path "data" (Some "1234") None.
Definition two_owners : list yop :=
  [YInstall (pkg "a" []) [a_file "etc/x"] false; YInstall (pkg "b" []) [a_file "etc/x"] false; YRemove "a"].
Theorem C31_shared_path_refuted : exists s n path, system s /\ lists s n path /\ forall m, ~ owner s path m.
Proof.
  exists (apply_all two_owners), "b", "etc/x". split; [apply apply_all_system; simpl; intros d [|[|[|[]]]]; congruence|].
  split.
  - split; [vm_compute; reflexivity|]. exists [a_file "etc/x"]. split; [vm_compute; reflexivity|simpl; auto].
  - intros m [f H]. assert (E : get_file (y_files (apply_all two_owners)) "etc/x" = None) by (vm_compute; reflexivity). congruence.
Qed.
(** A path is only ever attributed to an installed package that lists it, with the entry of
    that list: removed packages own nothing. *)
Theorem C31_owner_lists_it_partial s path n f : system s -> get_file (y_files s) path = Some (n, f) ->
  is_installed (y_inst s) n = true /\ exists files, list_of s n = Ok files /\ In f files /\ f_path f = path.
Proof. exact (owner_lists s path n f). Qed.
(** As long as no path is listed twice, ownership is exactly being listed. *)
Theorem C31_exact_partial s n path : lived no_shared_paths s -> (owner s path n <-> lists s n path).
Proof. exact (no_shared_exact s n path). Qed.

Definition upgraded_once : sys := apply_all
  [YInstall (pkg "a" []) [a_file "etc/x"; a_file "etc/y"] true; YInstall (pkg "b" []) [a_file "etc/z"] false;
   YConfigured "a"; YInstall (pkg "a" []) [a_file "etc/x"; a_file "etc/w"] false].
Example C31_nontrivial : system upgraded_once /\ owner upgraded_once "etc/w" "a" /\ owner upgraded_once "etc/z" "b" /\
  get_file (y_files upgraded_once) "etc/y" = None.
Proof.
  split; [apply apply_all_system; simpl; intros d H; repeat destruct H as [H|H]; congruence || contradiction|].
  split; [exists (a_file "etc/w"); vm_compute; reflexivity|]. split; [exists (a_file "etc/z"); vm_compute; reflexivity|vm_compute; reflexivity].
Qed.

(** ** C06 *)
Theorem C06_installed_satisfies s d : system s ->
  (installed_satisfies_dep s d = Ok true <-> is_installed (y_inst s) (dep_package d) = true /\
     exists v r b, get_version (y_inst s) (dep_package d) = Ok (v, r, b) /\ window_readable d v r /\ in_window d v r) /\
  (installed_satisfies_dep s d = Ok false <-> is_installed (y_inst s) (dep_package d) = false \/
     is_installed (y_inst s) (dep_package d) = true /\
     exists v r b, get_version (y_inst s) (dep_package d) = Ok (v, r, b) /\ window_readable d v r /\ ~ in_window d v r) /\
  (forall e, installed_satisfies_dep s d = Err e <-> e = EValue /\ is_installed (y_inst s) (dep_package d) = true /\
     exists v r b, get_version (y_inst s) (dep_package d) = Ok (v, r, b) /\ ~ window_readable d v r).
Proof. exact (installed_sat s d). Qed.
Theorem C06_repo_satisfies s d : system s ->
  (repo_satisfies_dep s d = Ok true <-> exists p, get_package (y_db s) (dep_package d) RRepos = Ok p /\ within d p) /\
  (repo_satisfies_dep s d = Ok false <-> missing (get_package (y_db s) (dep_package d) RRepos) \/
     exists p, get_package (y_db s) (dep_package d) RRepos = Ok p /\
       window_readable d (p_version p) (p_release p) /\ ~ in_window d (p_version p) (p_release p)) /\
  (forall e, repo_satisfies_dep s d = Err e -> e = EValue /\
     exists p, get_package (y_db s) (dep_package d) RRepos = Ok p /\ ~ window_readable d (p_version p) (p_release p)).
Proof. exact (repo_sat s d). Qed.
(** [installable n]: every dependency of the package the repositories offer is satisfied by
    an installed one; false as soon as the first that is not checked fine is unsatisfied. *)
Theorem C06_installable s n : system s ->
  (installable s n = Ok true <-> exists p, get_package (y_db s) n RRepos = Ok p /\ p_compdeps p = [] /\
     forall d, In d (p_deps p) -> installed_satisfies_dep s d = Ok true) /\
  (installable s n = Ok false <-> missing (get_package (y_db s) n RRepos) \/
     exists p pre d post, get_package (y_db s) n RRepos = Ok p /\ p_compdeps p = [] /\ p_deps p = (pre ++ d :: post)%list /\
       installed_satisfies_dep s d = Ok false /\ forall d', In d' pre -> installed_satisfies_dep s d' = Ok true).
Proof. exact (installable_spec s n). Qed.

Example C06_nontrivial :
  installed_satisfies_dep upgraded_once (mkDep "a" None (Some "0.5") (Some "2") None None None) = Ok true /\
  installed_satisfies_dep upgraded_once (mkDep "a" None (Some "2") None None None None) = Ok false /\
  installed_satisfies_dep upgraded_once (mkDep "zsh" None None None None None None) = Ok false.
Proof. vm_compute. auto. Qed.

Print Assumptions C28_is_installed.
Print Assumptions C28_is_removed.
Print Assumptions C28_list_installed.
Print Assumptions C28_version.
Print Assumptions C28_no_double_install.
Print Assumptions C28_remove_recorded.
Print Assumptions C29_removed_still_listed_refuted.
Print Assumptions C29_purged_breaks_listing_refuted.
Print Assumptions C29_never_misses_partial.
Print Assumptions C29_exact_partial.
Print Assumptions C60_databases_agree.
Print Assumptions C31_shared_path_refuted.
Print Assumptions C31_owner_lists_it_partial.
Print Assumptions C31_exact_partial.
Print Assumptions C06_installed_satisfies.
Print Assumptions C06_repo_satisfies.
Print Assumptions C06_installable.
