(** * What a dependency's version window means *)
From Coq Require Import String List.
From Verif Require Import Model.Version Model.Dependency Spec.VersionSpec.
Import ListNotations.
Open Scope string_scope.

(** A bound is given when the attribute is present and not empty. *)
Definition given (b : option string) (s : string) : Prop := b = Some s /\ s <> "".

(** The version text [s] denotes a version equal to / not before / not after the bound. *)
Definition text_eq (s b : string) : Prop :=
  exists v w, version_syntax s v /\ version_syntax b w /\ ver_same v w.
Definition text_ge (s b : string) : Prop :=
  exists v w, version_syntax s v /\ version_syntax b w /\ ~ ver_before v w.
Definition text_le (s b : string) : Prop :=
  exists v w, version_syntax s v /\ version_syntax b w /\ ~ ver_before w v.

(** Every given constraint holds. *)
Definition in_window (d : dependency) (version release : string) : Prop :=
  (forall b, given (dep_version d) b -> text_eq version b) /\
  (forall b, given (dep_versionFrom d) b -> text_ge version b) /\
  (forall b, given (dep_versionTo d) b -> text_le version b) /\
  (forall b, given (dep_release d) b -> text_eq release b) /\
  (forall b, given (dep_releaseFrom d) b -> text_ge release b) /\
  (forall b, given (dep_releaseTo d) b -> text_le release b).

(** Every text involved is a version at all. *)
Definition readable (s : string) : Prop := exists v, version_syntax s v.
Definition window_readable (d : dependency) (version release : string) : Prop :=
  readable version /\ readable release /\
  forall f b, In f [dep_version; dep_versionFrom; dep_versionTo; dep_release; dep_releaseFrom; dep_releaseTo] ->
    given (f d) b -> readable b.
