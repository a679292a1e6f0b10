(** * C93: one instance at a time changes the databases *)
From Coq Require Import String List Bool Arith.
From stdpp Require Import gmap strings.
From Verif Require Import Model.Locks Spec.LocksSpec Proof.LocksFacts.
Import ListNotations.
Open Scope string_scope.
Open Scope list_scope.

(** However the actions of any number of instances, and of processes they have started, follow each
    other, and whenever any of them is killed: at most one instance is at work *)
Theorem C93_exclusive (s : system) (p q : nat) (P Q : proc) : possible s -> s_procs s !! p = Some P -> s_procs s !! q = Some Q -> at_work P -> at_work Q -> p = q.
Proof. exact (one_at_work s p q P Q). Qed.
(** and only one at work changes a database or the lock file of one *)
Theorem C93_changes_at_work (s : system) (p : nat) (P : proc) : possible s -> s_procs s !! p = Some P -> changes_now P -> at_work P.
Proof. exact (changer_at_work s p P). Qed.
(** The lock is refused exactly if another instance is at work, or some process has kept the locked
    file open it inherited *)
Theorem C93_refused_exactly (s : system) (p : nat) (P : proc) (rest : list act) : possible s -> s_procs s !! p = Some P -> p_todo P = Flock "dbenv.lock" :: rest ->
  (happens s (Goes p) = None <->
   (exists q Q, q <> p /\ s_procs s !! q = Some Q /\ at_work Q) \/
   (exists q Q o i, s_procs s !! q = Some Q /\ In o (p_kept Q) /\ s_dir s !! "dbenv.lock" = Some i /\ s_locks s !! i = Some o)).
Proof. exact (refused_iff s p P rest). Qed.
(** A command of one session which is refused has changed no database: it has at most written
    version files *)
Theorem C93_refused_unchanged_partial (s : system) (p : nat) (P : proc) (x : session) : possible s -> refused s p P -> p_done P ++ p_todo P = command [x] ->
  forall a, In a (p_done P) -> (exists f, a = Stamp f /\ In f (ss_stamps x)) \/ a = Open "dbenv.lock".
Proof. intros _ (_ & [rest T] & _) E. rewrite T in E. exact (first_session x (p_done P) rest E). Qed.
(** Instances do nothing but commands *)
Theorem C93_history (s : system) (p : nat) (P : proc) : possible s -> s_procs s !! p = Some P -> exists l, p_done P ++ p_todo P = command l.
Proof. exact (history s p P). Qed.
Print Assumptions C93_exclusive.
Print Assumptions C93_changes_at_work.
Print Assumptions C93_refused_exactly.
Print Assumptions C93_refused_unchanged_partial.
Print Assumptions C93_history.

(** ** Cases *)
Definition install : session := mkSession [] ["repo"; "install"] ["install"; "repo"] ["install"; "repo"].
Definition goes (n p : nat) : list event := repeat (Goes p) n.
Definition after (l : list event) : system := default start (happen start l).
Definition todo_of (s : system) (p : nat) : list act := match s_procs s !! p with Some P => p_todo P | None => [] end.
Definition done_of (s : system) (p : nat) : list act := match s_procs s !! p with Some P => p_done P | None => [] end.
Lemma after_possible l : match happen start l with Some _ => true | None => false end = true -> possible (after l).
Proof. intros H. exists l. unfold after. destruct (happen start l); [reflexivity|discriminate H]. Qed.

(** "An instance is refused only while another one is at work": not if a process started by an
    earlier one, such as a daemon started by a package, is still there *)
Definition daemon : list event := [Starts 1 [install]] ++ goes 5 1 ++ [Spawns 1 2 []] ++ goes 10 1 ++ [Ends 1; Starts 3 [install]; Goes 3].
Theorem C93_available_refuted : ~ (forall s p P, possible s -> refused s p P -> exists q Q, q <> p /\ s_procs s !! q = Some Q /\ at_work Q).
Proof.
  intros H. destruct (s_procs (after daemon) !! 3) as [P|] eqn:E.
  - destruct (H (after daemon) 3 P) as (q & Q & N & HQ & pre & post & T & _).
    + apply after_possible. vm_compute. reflexivity.
    + split; [exact E|]. split.
      * assert (todo_of (after daemon) 3 = Flock env :: tl (todo_of (after daemon) 3)) as K by (vm_compute; reflexivity). unfold todo_of in K at 1. rewrite E in K. eauto.
      * vm_compute. reflexivity.
    + assert (K : forallb (fun x => Nat.eqb (fst x) 3 || match p_todo (snd x) with [] => true | _ => false end) (map_to_list (s_procs (after daemon))) = true) by (vm_compute; reflexivity).
      clear H E. generalize dependent (s_procs (after daemon)). intros m HQ K.
      assert (I : In (q, Q) (map_to_list m)) by (apply elem_of_list_In, elem_of_map_to_list; exact HQ).
      pose proof (proj1 (forallb_forall _ _) K (q, Q) I) as G. cbn [fst snd] in G. rewrite T in G. apply Nat.eqb_neq in N. rewrite N in G. now destruct pre.
  - assert (K : match s_procs (after daemon) !! 3 with Some _ => true | None => false end = true) by (vm_compute; reflexivity). rewrite E in K. discriminate K.
Qed.
Print Assumptions C93_available_refuted.

(** "A refused command has changed no database": rebuild-db removes them, gives the lock back and
    asks for it again.  Another instance can be faster. *)
Definition faster : list event := [Starts 1 (rebuild ["install"; "repo"] install)] ++ goes 7 1 ++ [Starts 2 [install]] ++ goes 4 2 ++ goes 1 1.
Theorem C93_refused_unchanged_refuted : ~ (forall s p P, possible s -> refused s p P -> forall d, ~ In (Modify d) (p_done P)).
Proof.
  intros H. destruct (s_procs (after faster) !! 1) as [P|] eqn:E.
  - apply (H (after faster) 1 P) with "repo".
    + apply after_possible. vm_compute. reflexivity.
    + split; [exact E|]. split.
      * assert (todo_of (after faster) 1 = Flock env :: tl (todo_of (after faster) 1)) as K by (vm_compute; reflexivity). unfold todo_of in K at 1. rewrite E in K. eauto.
      * vm_compute. reflexivity.
    + assert (K : In (Modify "repo") (done_of (after faster) 1)) by (vm_compute; auto 10). unfold done_of in K. rewrite E in K. exact K.
  - assert (K : match s_procs (after faster) !! 1 with Some _ => true | None => false end = true) by (vm_compute; reflexivity). rewrite E in K. discriminate K.
Qed.
Print Assumptions C93_refused_unchanged_refuted.

(** "Only an instance at work writes the version files": they are written before the lock is asked
    for, so by one that is then refused, while another one is at work *)
Definition stamped : list event := [Starts 1 [install]] ++ goes 4 1 ++ [Starts 2 (rebuild ["repo"] install)].
Theorem C93_stamps_refuted : ~ (forall s p P f rest, possible s -> s_procs s !! p = Some P -> p_todo P = Stamp f :: rest -> forall q Q, q <> p -> s_procs s !! q = Some Q -> ~ at_work Q).
Proof.
  intros H. destruct (s_procs (after stamped) !! 2) as [P|] eqn:E; [destruct (s_procs (after stamped) !! 1) as [Q|] eqn:E'|].
  - apply (H (after stamped) 2 P "dbversion" (tl (todo_of (after stamped) 2))) with 1 Q; auto.
    + apply after_possible. vm_compute. reflexivity.
    + assert (todo_of (after stamped) 2 = Stamp "dbversion" :: tl (todo_of (after stamped) 2)) as K by (vm_compute; reflexivity). unfold todo_of in K at 1. rewrite E in K. exact K.
    + exists (removelast (todo_of (after stamped) 1)), []. assert (todo_of (after stamped) 1 = removelast (todo_of (after stamped) 1) ++ [Close env]) as K by (vm_compute; reflexivity). unfold todo_of in K at 1. rewrite E' in K. split; [exact K|].
      assert (G : existsb (fun a => match a with Flock f => String.eqb f env | _ => false end) (removelast (todo_of (after stamped) 1)) = false) by (vm_compute; reflexivity). intros I.
      assert (existsb (fun a => match a with Flock f => String.eqb f env | _ => false end) (removelast (todo_of (after stamped) 1)) = true) by (apply existsb_exists; exists (Flock "dbenv.lock"); split; [exact I|reflexivity]). congruence.
  - assert (K : match s_procs (after stamped) !! 1 with Some _ => true | None => false end = true) by (vm_compute; reflexivity). rewrite E' in K. discriminate K.
  - assert (K : match s_procs (after stamped) !! 2 with Some _ => true | None => false end = true) by (vm_compute; reflexivity). rewrite E in K. discriminate K.
Qed.
Print Assumptions C93_stamps_refuted.

(** One instance at work and one refused; once the first has ended, or has been killed, the second
    gets its turn *)
Example C93_nontrivial :
  let one := [Starts 1 [install]; Starts 2 [install]] ++ goes 5 1 ++ goes 1 2 in
  todo_of (after one) 1 = [Open "install.bdb.lock"; Flock "install.bdb.lock"; Modify "install"; Modify "install"; Modify "repo"; Close "install.bdb.lock"; Unlink "install.bdb.lock"; Close "repo.bdb.lock"; Unlink "repo.bdb.lock"; Close "dbenv.lock"] /\
  hd_error (todo_of (after one) 2) = Some (Flock "dbenv.lock") /\ happens (after one) (Goes 2) = None /\
  match happens (after (one ++ [Ends 1])) (Goes 2) with Some _ => true | None => false end = true /\
  todo_of (after (one ++ goes 10 1 ++ goes 14 2)) 2 = [] /\ todo_of (after (one ++ goes 10 1 ++ goes 13 2)) 2 = [Close "dbenv.lock"].
Proof. cbv zeta. repeat (split; [vm_compute; reflexivity|]). vm_compute. reflexivity. Qed.
