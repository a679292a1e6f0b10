(** * Vocabulary for security upgrades *)
From Coq Require Import String List.
From stdpp Require Import gmap strings.
From Verif Require Import Model.Py Model.ItemByRepo Model.Package Model.Databases Model.InstallDB Model.System Model.Security
  Spec.VersionSpec Spec.DependencySpec Spec.DatabaseSpec Spec.SystemSpec Spec.PlanSpec.
Open Scope string_scope.

(** The installed package [n] can be upgraded, and the history of what is offered has a security
    update of a later release than the one installed. *)
Definition security_due (s : sys) (history : package -> list update) (ignore_build : bool) (n : string) : Prop :=
  exists v r b p u, is_installed (y_inst s) n = true /\ get_version (y_inst s) n = Ok (v, r, b) /\ offered s n p /\
    newer ignore_build r b p /\ In u (history p) /\ u_type u = Some "security" /\ text_before r (u_release u).

(** A release of [n], installed, offered or in the history, is not a release *)
Definition bad_release (s : sys) (history : package -> list update) (n : string) : Prop :=
  exists v r b p, is_installed (y_inst s) n = true /\ get_version (y_inst s) n = Ok (v, r, b) /\ offered s n p /\
    (~ readable r \/ ~ readable (p_release p) \/ exists u, In u (history p) /\ ~ readable (u_release u)).

(** No package of a repository has ", ver=" in its name *)
Definition plain_names (s : sys) : Prop := forall n p, offered s n p -> ~ exists a b, n = a ++ ", ver=" ++ b.
