(** * Vocabulary for "a build starts only when it can" *)
From Coq Require Import String Ascii ZArith List.
From stdpp Require Import gmap strings.
From Verif Require Import Model.Py Model.ItemByRepo Model.Dependency Model.Package Model.ComponentDB Model.Databases Model.InstallDB Model.System Model.BuildStart.
From Verif Require Import Spec.DatabaseSpec Spec.SystemSpec Spec.PlanSpec.
Open Scope string_scope.

(** Sets are gone through in some order *)
Definition some_order (elems : gset string -> list string) : Prop := forall X x, In x (elems X) <-> x ∈ X.

(** The development tools: what the first repository that has a component system.devel puts in it *)
Definition tool (s : sys) (x : string) : Prop :=
  exists before repo after, order_of (y_db s) = (before ++ repo :: after)%list /\
    lists_package (y_db s) "system.devel" (RName repo) x /\
    forall r c, In r before -> get_component (order_of (y_db s)) (db_comp (y_db s)) "system.devel" (RName r) <> Ok c.
(** ... and what any repository puts in it *)
Definition any_tool (s : sys) (x : string) : Prop :=
  exists repo, In repo (order_of (y_db s)) /\ lists_package (y_db s) "system.devel" (RName repo) x.

(** All that the build needs is installed *)
Definition equipped (s : sys) (tools : string -> Prop) (deps : list dependency) : Prop :=
  (forall d, In d deps -> met s d) /\ (forall x, tools x -> is_installed (y_inst s) x = true).
(** What would have to be installed: unmet dependencies, and tools the dependencies do not name *)
Definition any_version (x : string) : dependency := mkDep x None None None None None None.
Definition wanting (s : sys) (tools : string -> Prop) (deps : list dependency) (d : dependency) : Prop :=
  (In d deps /\ ~ met s d) \/
  exists x, d = any_version x /\ tools x /\ is_installed (y_inst s) x = false /\ ~ In x (map dep_package deps).

(** The tools that count, unless the safety switch is off *)
Definition required_tool (s : sys) (bo : build_opts) (x : string) : Prop := b_bypass_safety bo = false /\ tool s x.
(** The action script can be run, the patches are there, and all that is needed is installed -
    or dependencies are ignored *)
Definition ready (s : sys) (bo : build_opts) (script : res unit) (access : string -> bool) (patches : list string) (deps : list dependency) : Prop :=
  script = Ok tt /\ (forall p, In p patches -> access p = true) /\
  (equipped s (required_tool s bo) deps \/
   (b_ignore_dependency bo = true /\ b_no_install bo = false /\ forall d, In d deps -> answerable s d)).
