(** * C108: cleaning stale locks *)
From Coq Require Import String Ascii List Bool.
From stdpp Require Import gmap strings.
From Verif Require Import Model.Py Model.InstallDB Model.Path Model.Fs Model.Trace Model.CleanLocks
  Spec.PathSpec Spec.FsSpec Spec.CleanLocksSpec Proof.FsChecks Proof.CleanLocksFacts.
Import ListNotations.
Open Scope string_scope.

(** What the command does: the files whose names end in .lock in the current directory, at any depth, are removed;
    nothing else is changed, wherever it is stopped. *)
Theorem C108_clean_partial (f : fs) (cwd : string) :
  tree f -> node_at f cwd = Some NDir ->
  result (clean_locks cwd) f = Ok tt /\ without_locks cwd f (final (clean_locks cwd) f) /\
  forall s q, In s (states (clean_locks cwd) f) -> ~ (lies_in f cwd q /\ a_lock f q) -> s !! q = f !! q.
Proof. intros T. exact (clean_locks_did f T cwd). Qed.
Print Assumptions C108_clean_partial.

(** The locks of the database stay, unless the current directory is the one of the database or above it. *)
Theorem C108_database_refuted (f : fs) (cwd lock : string) :
  tree f -> node_at f cwd = Some NDir -> ~ lies_in f cwd lock -> final (clean_locks cwd) f !! lock = f !! lock.
Proof. intros T D N. destruct (clean_locks_did f T cwd D) as (_ & (_ & K) & _). apply K. intros [A _]. contradiction. Qed.
Print Assumptions C108_database_refuted.

(** ** A small system *)
Definition home : fs :=
  {[ "/var" := NDir; "/var/db" := NDir; "/var/db/pisi" := NDir; "/var/db/pisi/dbenv.lock" := NFile ""; "/var/db/pisi/files.bdb" := NFile "f"; "/u" := NDir; "/u/w" := NDir; "/u/w/deps.lock" := NFile "pinned";
     "/u/d.lock" := NDir; "/u/d.lock/x" := NFile "x"; "/u/k.lock" := NLink "/var/db/pisi"; "/u/.lock" := NLink "/gone" ]}.
Lemma home_tree : tree home.
Proof. apply tree_check_ok. vm_compute. reflexivity. Qed.

(** Files of others are removed instead. *)
Theorem C108_others_refuted :
  result (clean_locks "/u") home = Ok tt /\ home !! "/u/w/deps.lock" = Some (NFile "pinned") /\ final (clean_locks "/u") home !! "/u/w/deps.lock" = None /\
  final (clean_locks "/u") home !! "/var/db/pisi/dbenv.lock" = Some (NFile "").
Proof. vm_compute. repeat split. Qed.
Print Assumptions C108_others_refuted.

(** ** The hypotheses are met *)
Example C108_nontrivial :
  tree home /\ node_at home "/u" = Some NDir /\ node_at home "/var/db/pisi" = Some NDir /\
  lies_in home "/u" "/u/w/deps.lock" /\ a_lock home "/u/w/deps.lock" /\ a_lock home "/u/.lock" /\ ~ a_lock home "/u/d.lock" /\ ~ a_lock home "/u/k.lock" /\
  final (clean_locks "/u") home !! "/u/.lock" = None /\ final (clean_locks "/u") home !! "/u/k.lock" = Some (NLink "/var/db/pisi") /\ final (clean_locks "/u") home !! "/u/d.lock/x" = Some (NFile "x") /\
  final (clean_locks "/var/db/pisi") home !! "/var/db/pisi/dbenv.lock" = None /\ final (clean_locks "/var/db/pisi") home !! "/var/db/pisi/files.bdb" = Some (NFile "f").
Proof.
  split; [exact home_tree|]. split; [vm_compute; reflexivity|]. split; [vm_compute; reflexivity|].
  split; [apply (lies_deeper _ _ "/u/w"); [vm_compute; reflexivity|reflexivity|apply lies_here; [vm_compute; discriminate|reflexivity]]|].
  split; [split; [now exists "deps"|vm_compute; discriminate]|]. split; [split; [now exists ""|vm_compute; discriminate]|].
  split; [intros [_ K]; apply K; vm_compute; reflexivity|]. split; [intros [_ K]; apply K; vm_compute; reflexivity|].
  vm_compute. repeat split.
Qed.
