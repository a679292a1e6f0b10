(** * The caches, as users see them *)
From Coq Require Import String List Bool.
From stdpp Require Import gmap strings.
From Verif Require Import Model.Py Model.InstallDB Model.Path Model.Fs Model.Trace Spec.PathSpec Spec.FsSpec Spec.ActionsSpec Spec.ArchiveSpec.
Import ListNotations.
Open Scope string_scope.

(** A directory, or the place of one, in a directory that is there *)
Definition cache_place (f : fs) (D : string) : Prop :=
  placed f D /\ ~ ends_blank D /\ (f !! D = Some NDir \/ forall q, at_or_in D q -> f !! q = None).
(** Neither is the other or in it. *)
Definition apart (D E : string) : Prop := ~ at_or_in D E /\ ~ at_or_in E D.
(** [g] is [f] without what is in the directories, and without them *)
Definition emptied_of (Ds : list string) (f g : fs) : Prop :=
  (forall D q, In D Ds -> at_or_in D q -> g !! q = None) /\ same_but (fun q => exists D, In D Ds /\ at_or_in D q) f g.
