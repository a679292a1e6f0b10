(** * What installing package files means *)
From Coq Require Import String List.
From stdpp Require Import gmap strings relations.
From Verif Require Import Model.Py Model.Dependency Model.Package Model.Databases Model.InstallDB Model.System Model.Graph Model.Plan
  Model.Path Model.Fs Model.Ops Spec.DependencySpec Spec.SystemSpec Spec.GraphSpec Spec.PlanSpec Spec.OpsSpec.
Open Scope string_scope.

(** What the files given hold under the name [n]: the last of them counts. *)
Definition holds (h : host) (uris : list string) (n : string) (k : pkgfile) : Prop :=
  exists pre u post, uris = (pre ++ u :: post)%list /\ h_open h u = Ok k /\ p_name (k_pkg k) = n /\
    forall v k', In v post -> h_open h v = Ok k' -> p_name (k_pkg k') <> n.

(** The dependency [d] is satisfied by one of the files. *)
Definition met_by_files (h : host) (uris : list string) (d : dependency) : Prop :=
  exists k, holds h uris (dep_package d) k /\ within d (k_pkg k).
(** Among the files, [x] has a dependency which [y] satisfies. *)
Definition file_needs (h : host) (uris : list string) (x y : string) : Prop :=
  exists k d, holds h uris x k /\ In d (p_deps (k_pkg k)) /\ dep_package d = y /\ met_by_files h uris d.

(** The packages installed, oldest first, according to a list of events, latest first. *)
Definition installations (new : list event) : list string :=
  rev (omap (fun e => match e with EvInstalled n => Some n | _ => None end) new).

(** Every dependency of the files is satisfied by one of them, or by an installed package
    that none of them replaces. *)
Definition settled (h : host) (s : sys) (uris : list string) : Prop :=
  forall n k d, holds h uris n k -> In d (p_deps (k_pkg k)) ->
    met_by_files h uris d \/ (met s d /\ forall k', ~ holds h uris (dep_package d) k').

(** The names found in the files, each once, every package after those it needs. *)
Definition in_need_order (h : host) (uris : list string) (order : list string) : Prop :=
  List.NoDup order /\ (forall n, In n order <-> exists k, holds h uris n k) /\ (forall x y, file_needs h uris x y -> comes_before order y x).
