(** * What planning an emerge means *)
From Coq Require Import String List ZArith.
From stdpp Require Import gmap strings relations.
From Verif Require Import Model.Py Model.ItemByRepo Model.Dependency Model.Package Model.Databases
  Model.InstallDB Model.System Model.Graph Model.Plan Spec.GraphSpec Spec.PlanSpec.
Open Scope string_scope.

(** The source the repositories have under a name; the source recorded as the one a package
    is built from. *)
Definition source_of_name (s : sys) (n : string) (sp : spec) : Prop :=
  get_item (order_of (y_db s)) (db_src (y_db s)) n RRepos = Ok sp.
Definition built_from (s : sys) (pkg src : string) : Prop :=
  get_item (order_of (y_db s)) (db_p2s (y_db s)) pkg RRepos = Ok src.

(** A dependency of a source: needed for building it, or by one of its packages. *)
Definition source_dep (sp : spec) (d : dependency) : Prop :=
  In d (sp_buildDeps sp) \/ exists p, In p (sp_packages sp) /\ In d (p_deps p).

(** Source [x] has a dependency that the system does not satisfy: to be had from a
    repository, or to be built from source [y]. *)
Definition wants_package (s : sys) (x pkg : string) : Prop :=
  exists sp d, source_of_name s x sp /\ source_dep sp d /\ dep_package d = pkg /\ ~ met s d /\ repo_meets s d.
Definition wants_source (s : sys) (x y : string) : Prop :=
  exists sp d, source_of_name s x sp /\ source_dep sp d /\ ~ met s d /\ ~ repo_meets s d /\
    built_from s (dep_package d) y.
(** Requested, or wanted by something to be built. *)
Definition to_build (s : sys) (A : list string) (x : string) : Prop :=
  exists a, In a A /\ rtc (wants_source s) a x.
Definition to_install (s : sys) (A : list string) (pkg : string) : Prop :=
  exists x, to_build s A x /\ wants_package s x pkg.
