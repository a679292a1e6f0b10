(** * C05: dependency windows *)
From Coq Require Import String Ascii List Bool ZArith.
From Verif Require Import Model.Py Model.Version Model.Dependency Spec.VersionSpec Spec.DependencySpec
  Proof.DependencyFacts.
Import ListNotations.
Open Scope string_scope.

Theorem C05_satisfied : forall d name version release,
  satisfies d name version release = Ok true <->
  window_readable d version release /\ in_window d version release.
Proof. exact satisfies_true. Qed.
Print Assumptions C05_satisfied.

Theorem C05_not_satisfied : forall d name version release,
  satisfies d name version release = Ok false <->
  window_readable d version release /\ ~ in_window d version release.
Proof. exact satisfies_false. Qed.
Print Assumptions C05_not_satisfied.

(** The only failure is a ValueError for a text that is no version. *)
Theorem C05_fails_only_on_bad_texts : forall d name version release e,
  satisfies d name version release = Err e <-> e = EValue /\ ~ window_readable d version release.
Proof. exact satisfies_err. Qed.
Print Assumptions C05_fails_only_on_bad_texts.

(** Between two satisfying versions (and releases) everything satisfies a dependency that
    uses only from/to bounds. *)
Theorem C05_convex : forall d name v1 v2 v3 r1 r2 r3 a1 a2 a3 b1 b2 b3,
  (forall b, ~ given (dep_version d) b) /\ (forall b, ~ given (dep_release d) b) ->
  version_syntax v1 a1 -> version_syntax v2 a2 -> version_syntax v3 a3 ->
  version_syntax r1 b1 -> version_syntax r2 b2 -> version_syntax r3 b3 ->
  ~ ver_before a2 a1 -> ~ ver_before a3 a2 -> ~ ver_before b2 b1 -> ~ ver_before b3 b2 ->
  satisfies d name v1 r1 = Ok true -> satisfies d name v3 r3 = Ok true ->
  satisfies d name v2 r2 = Ok true.
Proof. exact window_convex. Qed.
Print Assumptions C05_convex.

Example C05_nontrivial :
  let d := mkDep "glibc" None (Some "2.3.5") (Some "2.4_rc9") None (Some "3") (Some "") in
  satisfies d "glibc" "2.3.6a" "10" = Ok true /\ satisfies d "glibc" "2.4" "10" = Ok false /\
  satisfies d "glibc" "2.3.5.0" "3" = Ok true /\ satisfies d "glibc" "2.3.6" "2" = Ok false /\
  satisfies d "glibc" "2.x" "2" = Err EValue.
Proof. vm_compute. auto. Qed.
