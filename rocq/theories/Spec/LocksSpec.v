(** * One instance at a time, as users mean it *)
From Coq Require Import String List Bool Arith.
From stdpp Require Import gmap strings.
From Verif Require Import Model.Locks.
Import ListNotations.
Open Scope list_scope.

(** Everything that can come about, whatever the instances and the order of their actions *)
Definition possible (s : system) : Prop := exists l, happen start l = Some s.

(** An instance is at work from the moment it has the lock of the directory to the moment it gives
    it back: it will give it back before taking it again *)
Definition at_work (P : proc) : Prop := exists pre post, p_todo P = pre ++ Close "dbenv.lock" :: post /\ ~ In (Flock "dbenv.lock") pre.
(** Its next action changes a database, takes or removes the lock file of one *)
Definition changes_now (P : proc) : Prop := exists a rest, p_todo P = a :: rest /\
  ((exists d, a = Modify d) \/ (exists d, a = Flock (d ++ ".bdb.lock")%string) \/ exists f, a = Unlink f).
(** It is about to ask for the lock of the directory and is refused *)
Definition refused (s : system) (p : nat) (P : proc) : Prop :=
  s_procs s !! p = Some P /\ (exists rest, p_todo P = Flock "dbenv.lock" :: rest) /\ happens s (Goes p) = None.
