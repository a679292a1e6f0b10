(** * C23, C25, C30, C39: the databases together, over every history of operations *)
From Coq Require Import String List ZArith.
From stdpp Require Import gmap strings.
From Verif Require Import Model.Py Model.ItemByRepo Model.Dependency Model.Package Model.ComponentDB Model.Databases
  Spec.ItemByRepoSpec Spec.DatabaseSpec Proof.DatabaseFacts Proof.RevDepFacts Proof.ComponentFacts.
Open Scope string_scope.
Open Scope list_scope.

(** Two repositories with one index each, an installed and a third-party package. *)
Definition sample : dbs := run_ops
  [OAddRepo "main" "/m" None; OAddRepo "contrib" "/c" (Some 0%Z);
   OUpdateRepo "main" (mkIndex [] [pkg_in "nano" "editor"; pkg_in "bash" "system.base"] []);
   OUpdateRepo "contrib" (mkIndex [] [pkg_in "vim" "editor"] []);
   OInstalled (pkg "glibc" []); OInstalled (pkg "bash" [dep_on "glibc"]); OThirdParty (pkg_in "skype" "net")].

(** one step of [run_ops] *)
Lemma step_ok s o : match apply_op s o with Ok _ => true | Err _ => false end = true ->
  apply_op s o = Ok (match apply_op s o with Ok s' => s' | Err _ => s end).
Proof. destruct (apply_op s o); [reflexivity|discriminate]. Qed.

(** ** C23 *)
Theorem C23_system : forall s n r, reachable s ->
  agree (has_package s n r) (get_package s n r) /\
  agree (has_key (db_src s) n r) (get_item (order_of s) (db_src s) n r) /\
  agree (has_key (db_p2s s) n r) (get_item (order_of s) (db_p2s s) n r) /\
  agree (has_component (db_comp s) n r) (get_component (order_of s) (db_comp s) n r) /\
  agree (has_key (db_rev s) n r) (get_item (order_of s) (db_rev s) n r).
Proof. exact system_agree. Qed.
Print Assumptions C23_system.

Example C23_nontrivial : reachable sample /\
  has_package sample "nano" RRepos = Ok true /\ has_package sample "skype" RRepos = Ok false /\
  has_package sample "skype" RThird = Ok true /\ has_package sample "skype" RAll = Ok true.
Proof. split; [apply run_ops_reachable|]. vm_compute. auto. Qed.

(** ** C25 *)
Theorem C25_remove_repo_exact : forall s name, reachable s -> In name (order_of s) ->
  exists s', op_remove_repo s name = Ok s' /\
    order_of s' = List.filter (fun r => negb (String.eqb r name)) (order_of s) /\
    gone_only s s' name db_pkg /\ gone_only s s' name db_rev /\ gone_only s s' name db_src /\
    gone_only s s' name db_p2s /\ gone_only s s' name db_comp.
Proof. exact system_remove_repo. Qed.
Print Assumptions C25_remove_repo_exact.

Theorem C25_unknown_repo_changes_nothing : forall s name, reachable s -> ~ In name (order_of s) -> op_remove_repo s name = Ok s.
Proof. exact system_remove_unknown. Qed.
Print Assumptions C25_unknown_repo_changes_nothing.

Theorem C25_lookups_only_from_listed : forall A (s : dbs) (d : shelf A) n x q,
  get_item_repo (order_of s) d n RRepos = Ok (x, q) -> exists r, q = RName r /\ In r (order_of s).
Proof. exact @lookup_from_listed. Qed.
Print Assumptions C25_lookups_only_from_listed.

Example C25_nontrivial : reachable sample /\ In "main" (order_of sample) /\
  get_package sample "nano" (RName "main") = Ok (pkg_in "nano" "editor") /\
  match op_remove_repo sample "main" with
  | Ok s' => get_package s' "nano" RRepos = Err EError /\ get_package s' "bash" RInst = Ok (pkg "bash" [dep_on "glibc"])
  | Err _ => False end.
Proof. split; [apply run_ops_reachable|]. split; [vm_compute; auto|]. split; [vm_compute; reflexivity|]. vm_compute. auto. Qed.

(** ** C26, for the command add-repo *)
Theorem C26_command_adds_exactly_when : forall s n uri position, reachable s ->
  ((exists s', op_add_repo s n uri position = Ok s') <->
   ~ In n (order_of s) /\ match position with None => True | Some z => (0 <= z <= Z.of_nat (length (order_of s)))%Z end).
Proof. exact op_add_repo_possible. Qed.
Print Assumptions C26_command_adds_exactly_when.
Theorem C26_command_adds : forall s n uri position s', reachable s -> op_add_repo s n uri position = Ok s' ->
  rd_infos (db_repo s') = <[n := uri]> (rd_infos (db_repo s)) /\ s' = set_repo s (db_repo s') /\
  match position with
  | None => order_of s' = (order_of s ++ [n])%list
  | Some z => exists pre post, order_of s = (pre ++ post)%list /\ z = Z.of_nat (length pre) /\ order_of s' = (pre ++ n :: post)%list
  end.
Proof. exact op_add_repo_result. Qed.
Print Assumptions C26_command_adds.
Example C26_command_nontrivial : reachable sample /\ order_of sample = ["contrib"; "main"] /\
  (match op_add_repo sample "x" "/x" (Some 2%Z) with Ok s => order_of s | Err _ => [] end) = ["contrib"; "main"; "x"] /\
  (match op_add_repo sample "x" "/x" (Some 1%Z) with Ok s => order_of s | Err _ => [] end) = ["contrib"; "x"; "main"] /\
  is_ok (op_add_repo sample "x" "/x" (Some 3%Z)) = false /\ is_ok (op_add_repo sample "main" "/x" None) = false.
Proof. split; [apply run_ops_reachable|]. vm_compute. auto 10. Qed.

(** ** C30: [forall s, reachable s -> revdeps_exact s] is false. *)
Theorem C30_exact_partial : forall s, history_where revdep_careful s -> revdeps_exact s.
Proof. exact revdeps_exact_careful. Qed.
Print Assumptions C30_exact_partial.

(** Upgrading a package somebody needs forgets who needs it. *)
Theorem C30_refuted_upgrade : exists s, reachable s /\ ~ revdeps_exact s.
Proof. exists upgraded. exact upgrade_loses_revdeps. Qed.
Print Assumptions C30_refuted_upgrade.

(** A single package with two dependencies on one target already breaks it. *)
Theorem C30_refuted_two_deps : exists p s', add_package empty_dbs p RInst = Ok s' /\ ~ revdeps_exact s'.
Proof.
  exists (pkg "bash" [mkDep "glibc" None (Some "2") None None None None; mkDep "glibc" None None (Some "3") None None None]), ranged.
  split; [apply (step_ok empty_dbs (OInstalled _)); vm_compute; reflexivity|]. exact (proj2 two_deps_lose_one).
Qed.
Print Assumptions C30_refuted_two_deps.

Example C30_nontrivial : exists s, history_where revdep_careful s /\
  get_rev_deps s "glibc" RInst = Ok [("bash", dep_on "glibc")].
Proof.
  set (s1 := run_ops [OInstalled (pkg "glibc" [])]).
  exists (run_ops [OInstalled (pkg "glibc" []); OInstalled (pkg "bash" [dep_on "glibc"])]). split; [|vm_compute; reflexivity].
  apply (h_step _ s1 (OInstalled (pkg "bash" [dep_on "glibc"]))); [|split|].
  - apply (h_step _ empty_dbs (OInstalled (pkg "glibc" []))); [apply h_start|split|].
    + eexists. vm_compute. reflexivity.
    + apply NoDup_nil_2.
    + apply step_ok. vm_compute. reflexivity.
  - eexists. vm_compute. reflexivity.
  - apply NoDup_singleton.
  - apply (step_ok s1). vm_compute. reflexivity.
Qed.

(** ** C39: [forall s, reachable s -> components_exact s] is false. *)
Theorem C39_exact_partial : forall s, history_where component_careful s -> components_exact s.
Proof. exact components_exact_careful. Qed.
Print Assumptions C39_exact_partial.

Theorem C39_refuted : exists s, reachable s /\ ~ components_exact s.
Proof. exists moved. exact moved_inexact. Qed.
Print Assumptions C39_refuted.

Theorem C39_union : forall s c comp, get_union_comp (order_of s) (db_comp s) c = Ok comp ->
  (forall p, In p (c_packages comp) <-> exists r, In r (order_of s) /\ lists_package s c (RName r) p) /\
  (forall p, In p (c_sources comp) <-> exists r, In r (order_of s) /\ lists_source s c (RName r) p) /\
  NoDup (c_packages comp) /\ NoDup (c_sources comp).
Proof. exact get_union_comp_spec. Qed.
Print Assumptions C39_union.

Theorem C39_union_succeeds : forall s c, reachable s -> has_component (db_comp s) c RRepos = Ok true ->
  exists comp, get_union_comp (order_of s) (db_comp s) c = Ok comp.
Proof. exact get_union_comp_ok. Qed.
Print Assumptions C39_union_succeeds.

Theorem C39_expand : forall s A, reachable s -> exists R, expand_components (order_of s) (db_comp s) A = Ok R /\
  forall p, p ∈ R <-> exists x, In x A /\
    ((has_component (db_comp s) x RRepos = Ok false /\ p = x) \/
     (has_component (db_comp s) x RRepos = Ok true /\ exists r, In r (order_of s) /\ lists_package s x (RName r) p)).
Proof. exact expand_spec. Qed.
Print Assumptions C39_expand.

Theorem C39_expand_sources : forall s A, reachable s -> exists R, expand_src_components (order_of s) (db_comp s) A = Ok R /\
  forall p, p ∈ R <-> exists x, In x A /\
    ((has_component (db_comp s) x RRepos = Ok false /\ p = x) \/
     (has_component (db_comp s) x RRepos = Ok true /\ exists r, In r (order_of s) /\ lists_source s x (RName r) p)).
Proof. exact expand_src_spec. Qed.
Print Assumptions C39_expand_sources.

Example C39_nontrivial : reachable sample /\ has_component (db_comp sample) "editor" RRepos = Ok true /\
  has_component (db_comp sample) "net" RRepos = Ok false /\
  match expand_components (order_of sample) (db_comp sample) ["editor"; "bash"] with
  | Ok R => bool_decide (R = {["nano"; "vim"; "bash"]}) | Err _ => false end = true.
Proof. split; [apply run_ops_reachable|]. vm_compute. auto. Qed.
Example C39_nontrivial_careful : exists s, history_where component_careful s /\ lists_package s "editor" RThird "nano".
Proof.
  exists (run_ops [OThirdParty (pkg_in "nano" "editor")]). split.
  - apply (h_step _ empty_dbs (OThirdParty (pkg_in "nano" "editor"))); [apply h_start| |].
    + intros old K. vm_compute in K. discriminate K.
    + apply step_ok. vm_compute. reflexivity.
  - exists (mkComponent "editor" "" ["nano"] []). split; [vm_compute; reflexivity|now left].
Qed.
