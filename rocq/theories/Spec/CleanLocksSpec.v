(** * Locks in a directory, as users see them *)
From Coq Require Import String List Bool.
From stdpp Require Import gmap strings.
From Verif Require Import Model.Py Model.InstallDB Model.Path Model.Fs.
Open Scope string_scope.

(** In the directory [d], or in a directory in it, and so on; links are not followed. *)
Inductive lies_in (f : fs) : string -> string -> Prop :=
  | lies_here d q : f !! q <> None -> dirname q = d -> lies_in f d q
  | lies_deeper d e q : f !! e = Some NDir -> dirname e = d -> lies_in f e q -> lies_in f d q.
(** A file, or a link to no directory, whose name ends in .lock *)
Definition a_lock (f : fs) (q : string) : Prop := (exists s, basename q = s +:+ ".lock") /\ stat f q <> Some NDir.
(** [g] is [f] without the locks in [d]. *)
Definition without_locks (d : string) (f g : fs) : Prop :=
  (forall q, lies_in f d q -> a_lock f q -> g !! q = None) /\
  forall q, ~ (lies_in f d q /\ a_lock f q) -> g !! q = f !! q.
