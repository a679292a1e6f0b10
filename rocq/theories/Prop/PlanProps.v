(** * C10 - C14, C16, C37: planning *)
From Coq Require Import String List ZArith.
From stdpp Require Import gmap strings relations.
From Verif Require Import Proof.GraphFacts.
From Verif Require Import Model.Py Model.ItemByRepo Model.Dependency Model.Package Model.Databases
  Model.InstallDB Model.System Model.Graph Model.Plan
  Spec.ItemByRepoSpec Spec.DependencySpec Spec.DatabaseSpec Spec.SystemSpec Spec.GraphSpec Spec.PlanSpec
  Proof.RevDepFacts Proof.SystemFacts Proof.PlanFacts Proof.UpgradeFacts Proof.PlanTop.
Open Scope string_scope.

Definition v_pkg (name version release : string) (deps : list dependency) : package :=
  mkPackage name version release None deps [] [] (Some "misc") [] [] [] false "".
Definition exactly (name version : string) : dependency := mkDep name (Some version) None None None None None.
Definition at_least (name version : string) : dependency := mkDep name None (Some version) None None None None.
Definition with_repo (ps : list package) (more : list yop) : sys :=
  apply_all (YRepo (OAddRepo "main" "http://main/pisi-index.xml" None) :: YRepo (OUpdateRepo "main" (mkIndex [] ps [])) :: more).
Lemma with_repo_system ps more : (forall d, ~ In (YRepo d) more) -> system (with_repo ps more).
Proof. intros H. apply apply_all_system. intros d [[= <-]|[[= <-]|K]]; [exact I|exact I|destruct (H d K)]. Qed.


(** Two of the possible orders of iteration. *)
Definition forth : iter := mkIter (fun _ X => elements X) some_vs some_adj.
Definition back : iter := mkIter (fun _ X => rev (elements X)) (fun g => rev (some_vs g)) (fun g u => rev (some_adj g u)).
Lemma forth_any : any_order forth.
Proof.
  split; simpl; [intros n X; split; [apply NoDup_elements|]; intros x; rewrite <- elem_of_list_In; apply elem_of_elements|].
  intros g B. apply some_iterates, built_gwf, B.
Qed.
Lemma back_any : any_order back.
Proof.
  split; simpl; [intros n X; split; [apply nodup_rev, NoDup_elements|]; intros x; rewrite <- in_rev, <- elem_of_list_In; apply elem_of_elements|].
  intros g B. destruct (some_iterates g (built_gwf g B)) as (I1 & I2 & I3). split; [now apply nodup_rev|]. split; [intros u; rewrite <- in_rev; apply I2|].
  intros u Hu. destruct (I3 u Hu) as [J1 J2]. split; [now apply nodup_rev|]. intros v. rewrite <- in_rev. apply J2.
Qed.
Lemma plan_of (r : res (pgraph * list string)) l : match r with Ok p => bool_decide (p.2 = l) | Err _ => false end = true -> exists g, r = Ok (g, l).
Proof. destruct r as [[g l']|]; [|discriminate]. intros K. apply bool_decide_eq_true in K. simpl in K. subst. now exists g. Qed.
Definition order_of_plan (r : res (pgraph * list string)) : res (list string) := match r with Ok p => Ok p.2 | Err e => Err e end.


(** ** C10 *)
(** A plan has every requested package, no package twice, and for every package in it
    everything it needs, earlier. *)
Theorem C10_plan_closed_and_ordered s it A g order : system s -> any_order it -> NoDup A ->
  plan_install s it A = Ok (g, order) ->
  NoDup order /\ (forall x, In x A -> In x order) /\
  (forall x p d, In x order -> offered s x p -> In d (p_deps p) -> ~ met s d ->
     In (dep_package d) order /\ comes_before order (dep_package d) x).
Proof. exact (install_closed s it A g order). Qed.
Print Assumptions C10_plan_closed_and_ordered.

(** ** C11 *)
(** Nothing else is in it. *)
Theorem C11_plan_minimal s it A g order : system s -> any_order it -> NoDup A ->
  plan_install s it A = Ok (g, order) -> forall x, In x order <-> needed s A x.
Proof. exact (fun H I N E => proj1 (proj2 (install_ok s it A g order H I N E))). Qed.
Print Assumptions C11_plan_minimal.

(** app needs lib (new enough) and core; lib is installed but too old, core not at all; lib
    needs core. *)
Definition shop : sys := with_repo
  [v_pkg "app" "1" "1" [at_least "lib" "2"; dep_on "core"]; v_pkg "lib" "2" "2" [dep_on "core"]; v_pkg "core" "1" "1" []; v_pkg "game" "1" "1" []]
  [YInstall (v_pkg "lib" "1" "1" []) [] false].
Lemma shop_system : system shop.
Proof. apply with_repo_system. intros d [K|[]]; discriminate K. Qed.
Example C10_nontrivial : system shop /\ any_order forth /\ NoDup ["app"] /\
  order_of_plan (plan_install shop forth ["app"]) = Ok ["core"; "lib"; "app"] /\
  order_of_plan (plan_install shop back ["app"; "game"]) = Ok ["game"; "core"; "lib"; "app"].
Proof.
  split; [apply shop_system|]. split; [apply forth_any|]. split; [repeat constructor; intros K; inversion K|]. split; vm_compute; reflexivity.
Qed.

(** ** C12 *)
(** Planning ends (the fuel of the model never runs out), and a failure has one of the
    reasons listed. *)
Theorem C12_planning_fails_only_so s it A e : system s -> any_order it -> NoDup A -> plan_install s it A = Err e ->
  (exists x, needed s A x /\ (forall p, ~ offered s x p) /\ e = EError) \/
  (exists x p d, needed s A x /\ offered s x p /\ In d (p_deps p) /\ ~ answerable s d /\ e = EValue) \/
  (exists c, need_cycle s A /\ e = ECycle c).
Proof. exact (install_fails s it A e). Qed.
Print Assumptions C12_planning_fails_only_so.
(** Whether it succeeds does not depend on the order in which Python goes through sets. *)
Theorem C12_planning_succeeds_iff s it A : system s -> any_order it -> NoDup A ->
  ((exists plan, plan_install s it A = Ok plan) <->
   (forall x, needed s A x -> exists p, offered s x p /\ forall d, In d (p_deps p) -> answerable s d) /\ ~ need_cycle s A).
Proof. exact (install_iff s it A). Qed.
Print Assumptions C12_planning_succeeds_iff.

Definition broken_shop : sys := with_repo
  [v_pkg "lonely" "1" "1" [dep_on "nowhere"]; v_pkg "tick" "1" "1" [dep_on "tock"]; v_pkg "tock" "1" "1" [dep_on "tick"]; v_pkg "picky" "1" "1" [at_least "odd" "1..2"]; v_pkg "odd" "1" "1" []]
  [YInstall (v_pkg "odd" "1" "1" []) [] false].
Example C12_nontrivial : system broken_shop /\
  (exists e, plan_install broken_shop forth ["lonely"] = Err e /\ e = EError) /\
  (exists c, plan_install broken_shop forth ["tick"] = Err (ECycle c)) /\
  plan_install broken_shop forth ["picky"] = Err EValue.
Proof.
  split; [apply with_repo_system; intros d [K|[]]; discriminate K|]. split; [eexists; split; [vm_compute; reflexivity|reflexivity]|]. split; [eexists; vm_compute; reflexivity|vm_compute; reflexivity].
Qed.

(** ** C13 *)
Theorem C13_remove_plan_exact s it A g order : system s -> any_order it -> NoDup A -> plan_remove s it A = Ok (g, order) ->
  NoDup order /\ (forall x, In x order <-> falls_with s A x) /\ forall x, In x order -> exists p, present s x p.
Proof. exact (remove_ok s it A g order). Qed.
Print Assumptions C13_remove_plan_exact.
(** Every installed package with a satisfied dependency on a package of the plan is in it. *)
Theorem C13_dependents_included s it A g order : system s -> any_order it -> NoDup A -> plan_remove s it A = Ok (g, order) ->
  forall x l y d, In x order -> get_rev_deps (y_db s) x RInst = Ok l -> In (y, d) l -> is_installed (y_inst s) y = true -> met s d -> In y order.
Proof. exact (remove_dependents s it A g order). Qed.
Print Assumptions C13_dependents_included.
(** Planning a removal ends, and fails for two reasons only; never for a cycle. *)
Theorem C13_remove_plan_fails_only_so s it A e : system s -> any_order it -> NoDup A -> plan_remove s it A = Err e ->
  (exists x, In x A /\ is_installed (y_inst s) x = false /\ e = EError) \/
  (exists x l y d, falls_with s A x /\ get_rev_deps (y_db s) x RInst = Ok l /\ In (y, d) l /\ ~ answerable s d /\ e = EValue).
Proof. exact (remove_fails s it A e). Qed.
Print Assumptions C13_remove_plan_fails_only_so.

(** two uses one and zero; three uses two; four uses nothing. *)
Definition house : sys := with_repo []
  [YInstall (v_pkg "zero" "1" "1" []) [] false; YInstall (v_pkg "one" "1" "1" []) [] false; YInstall (v_pkg "two" "1" "1" [dep_on "one"; at_least "zero" "1"]) [] false;
   YInstall (v_pkg "three" "1" "1" [dep_on "two"]) [] false; YInstall (v_pkg "four" "1" "1" []) [] false].
Lemma house_system : system house.
Proof. apply with_repo_system. intros d K. repeat (destruct K as [K|K]; [discriminate K|]). destruct K. Qed.
Example C13_nontrivial : system house /\ any_order forth /\ NoDup ["one"] /\
  order_of_plan (plan_remove house forth ["one"]) = Ok ["three"; "two"; "one"].
Proof. split; [apply house_system|]. split; [apply forth_any|]. split; [repeat constructor; intros K; inversion K|]. vm_compute. reflexivity. Qed.

(** ** C14 *)
(** False as stated: when a package and one it depends on are both requested, the plan has
    no edge between them, and their order is that of Python's sets. *)

Theorem C14_requested_pair_refuted : exists s it A g order x y p d,
  system s /\ any_order it /\ NoDup A /\ plan_remove s it A = Ok (g, order) /\
  present s x p /\ In d (p_deps p) /\ dep_package d = y /\ met s d /\
  comes_before order y x.
Proof.
  destruct (plan_of (plan_remove house forth ["two"; "zero"]) ["zero"; "three"; "two"]) as [g E]; [vm_compute; reflexivity|].
  exists house, forth, ["two"; "zero"], g, ["zero"; "three"; "two"], "two", "zero", (v_pkg "two" "1" "1" [dep_on "one"; at_least "zero" "1"]), (at_least "zero" "1").
  split; [apply house_system|]. split; [apply forth_any|]. split; [apply (bool_decide_eq_true_1 _); reflexivity|]. split; [exact E|].
  split; [split; vm_compute; reflexivity|]. split; [right; left; reflexivity|]. split; [reflexivity|]. split; [apply (sat_true _ _ house_system); vm_compute; reflexivity|].
  exists [], ["three"], []. reflexivity.
Qed.
Print Assumptions C14_requested_pair_refuted.
(** The same for a package that is only dragged along: it is placed before one of the
    packages that drag it, not before the others. *)
Theorem C14_dragged_along_refuted : exists s it A g order x y p d,
  system s /\ any_order it /\ NoDup A /\ plan_remove s it A = Ok (g, order) /\ ~ In x A /\
  present s x p /\ In d (p_deps p) /\ dep_package d = y /\ met s d /\
  comes_before order y x.
Proof.
  destruct (plan_of (plan_remove house forth ["one"; "zero"]) ["zero"; "three"; "two"; "one"]) as [g E]; [vm_compute; reflexivity|].
  exists house, forth, ["one"; "zero"], g, ["zero"; "three"; "two"; "one"], "two", "zero", (v_pkg "two" "1" "1" [dep_on "one"; at_least "zero" "1"]), (at_least "zero" "1").
  split; [apply house_system|]. split; [apply forth_any|]. split; [apply (bool_decide_eq_true_1 _); reflexivity|]. split; [exact E|]. split; [intros [K|[K|[]]]; discriminate K|].
  split; [split; vm_compute; reflexivity|]. split; [right; left; reflexivity|]. split; [reflexivity|]. split; [apply (sat_true _ _ house_system); vm_compute; reflexivity|].
  exists [], ["three"], ["one"]. reflexivity.
Qed.
Print Assumptions C14_dragged_along_refuted.
(** What holds: a package that was not requested goes before some package of the plan that
    it relies on.  Missing: before every one, and for requested packages. *)
Theorem C14_before_some_partial s it A g order : system s -> any_order it -> NoDup A -> plan_remove s it A = Ok (g, order) ->
  forall x, In x order -> ~ In x A -> exists y, In y order /\ relies_on s y x /\ comes_before order x y.
Proof. exact (remove_order s it A g order). Qed.
Print Assumptions C14_before_some_partial.
(** In particular the property holds if no package relies on two packages of the plan and
    no requested package relies on another. *)
Theorem C14_simple_plans_partial s it A g order : system s -> any_order it -> NoDup A -> plan_remove s it A = Ok (g, order) ->
  (forall x, In x A -> forall y, In y order -> ~ relies_on s y x) ->
  (forall x y z, In y order -> In z order -> relies_on s y x -> relies_on s z x -> y = z) ->
  forall x y, In x order -> In y order -> relies_on s y x -> comes_before order x y.
Proof. exact (remove_order_simple s it A g order). Qed.
Print Assumptions C14_simple_plans_partial.
Example C14_nontrivial : system house /\ order_of_plan (plan_remove house back ["one"]) = Ok ["three"; "two"; "one"].
Proof. split; [apply house_system|vm_compute; reflexivity]. Qed.

(** ** C16 *)
(** False as stated.  x 2 is offered and r, installed, depends on exactly x 1: the upgrade
    of x is planned and r is left with a dependency that nothing satisfies. *)
Definition left_behind : sys := with_repo [v_pkg "x" "2" "2" []; v_pkg "r" "1" "1" [exactly "x" "1"]]
  [YInstall (v_pkg "x" "1" "1" []) [] false; YInstall (v_pkg "r" "1" "1" [exactly "x" "1"]) [] false].
Lemma left_behind_system : system left_behind.
Proof. apply with_repo_system. intros d K. repeat (destruct K as [K|K]; [discriminate K|]). destruct K. Qed.
Theorem C16_dependents_refuted : exists s it A g order y q d,
  system s /\ any_order it /\ NoDup A /\ plan_upgrade s it false A = Ok (g, order) /\
  present s y q /\ ~ In y order /\ In d (p_deps q) /\ met s d /\ In (dep_package d) order /\ ~ repo_meets s d.
Proof.
  destruct (plan_of (plan_upgrade left_behind forth false ["x"]) ["x"]) as [g E]; [vm_compute; reflexivity|].
  exists left_behind, forth, ["x"], g, ["x"], "r", (v_pkg "r" "1" "1" [exactly "x" "1"]), (exactly "x" "1").
  split; [apply left_behind_system|]. split; [apply forth_any|]. split; [apply (bool_decide_eq_true_1 _); reflexivity|]. split; [exact E|].
  split; [split; vm_compute; reflexivity|]. split; [intros [K|[]]; discriminate K|]. split; [left; reflexivity|]. split; [apply (sat_true _ _ left_behind_system); vm_compute; reflexivity|]. split; [left; reflexivity|].
  pose proof (repo_sat_spec left_behind (exactly "x" "1") left_behind_system) as R. assert (R' : repo_satisfies_dep left_behind (exactly "x" "1") = Ok false) by (vm_compute; reflexivity).
  rewrite R' in R. intros K. apply R in K. discriminate K.
Qed.
Print Assumptions C16_dependents_refuted.
(** A package that is taken along is not examined for its own dependencies: r 2 needs z,
    which is neither installed nor planned. *)
Definition taken_blindly : sys := with_repo [v_pkg "x" "2" "2" []; v_pkg "r" "2" "2" [exactly "x" "2"; dep_on "z"]; v_pkg "z" "1" "1" []]
  [YInstall (v_pkg "x" "1" "1" []) [] false; YInstall (v_pkg "r" "1" "1" [exactly "x" "1"]) [] false].
Lemma taken_blindly_system : system taken_blindly.
Proof. apply with_repo_system. intros d K. repeat (destruct K as [K|K]; [discriminate K|]). destruct K. Qed.
Theorem C16_taken_along_refuted : exists s it A g order y q d,
  system s /\ any_order it /\ NoDup A /\ plan_upgrade s it false A = Ok (g, order) /\
  In y order /\ offered s y q /\ In d (p_deps q) /\ ~ met s d /\ ~ In (dep_package d) order.
Proof.
  destruct (plan_of (plan_upgrade taken_blindly forth false ["x"]) ["x"; "r"]) as [g E]; [vm_compute; reflexivity|].
  exists taken_blindly, forth, ["x"], g, ["x"; "r"], "r", (v_pkg "r" "2" "2" [exactly "x" "2"; dep_on "z"]), (dep_on "z").
  split; [apply taken_blindly_system|]. split; [apply forth_any|]. split; [apply (bool_decide_eq_true_1 _); reflexivity|]. split; [exact E|].
  split; [right; left; reflexivity|]. split; [vm_compute; reflexivity|]. split; [right; left; reflexivity|]. split; [|intros [K|[K|[]]]; discriminate K].
  intros K. apply (sat_true _ _ taken_blindly_system) in K. assert (R' : installed_satisfies_dep taken_blindly (dep_on "z") = Ok false) by (vm_compute; reflexivity). congruence.
Qed.
Print Assumptions C16_taken_along_refuted.
(** What holds: the dependencies of requested packages and of what they need are all
    satisfied by the repositories and, unless left as they are, planned earlier; from
    requested packages and those taken along, every dependent (according to the index of
    the repositories) that the present system leaves unsatisfied is taken along.
    Missing: the dependencies of packages taken along, the dependents of needed packages,
    and dependents that only the upgrade breaks. *)
Theorem C16_upgrade_plan_partial s it eager A g order : system s -> any_order it -> NoDup A -> plan_upgrade s it eager A = Ok (g, order) ->
  NoDup order /\
  (forall x, In x A -> In x order) /\
  (forall x p d, upgrade_needed s eager A x -> offered s x p -> In d (p_deps p) ->
     In x order /\ repo_meets s d /\ (left_alone s eager d \/ comes_before order (dep_package d) x)) /\
  (forall x y, In x order -> (In x A \/ ~ upgrade_needed s eager A x) -> taken_along s eager x y -> In y order) /\
  (forall x l y d, In x order -> (In x A \/ ~ upgrade_needed s eager A x) -> eager = false ->
     get_rev_deps (y_db s) x RRepos = Ok l -> In (y, d) l -> is_installed (y_inst s) y = true -> met s d \/ repo_meets s d) /\
  (forall y, In y order -> upgrade_needed s eager A y \/
     exists x, In x order /\ taken_along s eager x y /\ comes_before order x y) /\
  (forall y, In y order -> exists p, offered s y p).
Proof. exact (plan_upgrade_ok s it eager A g order). Qed.
Print Assumptions C16_upgrade_plan_partial.
Example C16_nontrivial : system taken_blindly /\ order_of_plan (plan_upgrade taken_blindly forth false ["r"]) = Ok ["x"; "z"; "r"].
Proof. split; [apply taken_blindly_system|vm_compute; reflexivity]. Qed.

(** ** C37 *)
(** A package counts as upgradable exactly when an upgrade is due; the question has no
    answer only when a release cannot be read. *)
Theorem C37_upgradable_iff_newer s n ign : system s ->
  match is_upgradable s n ign with
  | Ok b => b = true <-> upgrade_due s ign n
  | Err e => e = EValue /\ ~ upgrade_due s ign n /\
      exists v r b p, is_installed (y_inst s) n = true /\ get_version (y_inst s) n = Ok (v, r, b) /\
        offered s n p /\ (~ readable r \/ ~ readable (p_release p))
  end.
Proof. exact (is_upgradable_spec s n ign). Qed.
Print Assumptions C37_upgradable_iff_newer.
Definition built_pkg (name version release : string) (b : option Z) : package :=
  mkPackage name version release b [] [] [] (Some "misc") [] [] [] false "".
Definition builds : sys := with_repo [built_pkg "a" "1" "3" (Some 7%Z); built_pkg "b" "1" "3" (Some 5%Z); built_pkg "c" "1" "3" None]
  [YInstall (built_pkg "a" "1" "3" (Some 6%Z)) [] false; YInstall (built_pkg "b" "1" "2" (Some 6%Z)) [] false; YInstall (built_pkg "c" "1" "2" (Some 6%Z)) [] false; YInstall (built_pkg "d" "1" "2" None) [] false].
Example C37_nontrivial : system builds /\ map (fun n => (is_upgradable builds n false, is_upgradable builds n true)) ["a"; "b"; "c"; "d"; "e"]
  = [(Ok true, Ok false); (Ok false, Ok true); (Ok true, Ok true); (Ok false, Ok false); (Ok false, Ok false)].
Proof. split; [|vm_compute; reflexivity]. apply with_repo_system. intros d K. repeat (destruct K as [K|K]; [discriminate K|]). destruct K. Qed.

