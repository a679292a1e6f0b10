(** * C26 (the repository list) and C36 (transactions) *)
From Coq Require Import String List.
From stdpp Require Import gmap strings.
From Verif Require Import Model.Py Model.Txn Spec.TxnSpec Proof.TxnFacts.
Open Scope string_scope.

(** ** C36 *)

(** A procedure run through txn_proc either completes, and then the database is what the
    procedure alone would have made of it, or raises, and then nothing has changed. *)
Theorem C36_all_or_nothing : forall V A (p : proc V A) e t e' r,
  idle e -> txn_proc p e = (t, e', r) ->
  idle e' /\
  match r with
  | Ok a => exec p (e_store e) = (e_store e', Ok a)
  | Err x => e' = e /\ exists s, exec p (e_store e) = (s, Err x)
  end.
Proof. exact @txn_proc_all_or_nothing. Qed.
Print Assumptions C36_all_or_nothing.

(** Whatever point the process dies at, recovery gives the old contents, or the new ones
    of a procedure that completed. *)
Theorem C36_every_crash_point : forall V A (p : proc V A) e t e' r,
  idle e -> txn_proc p e = (t, e', r) ->
  Forall (fun c => recover c = e_store e \/ (is_ok r = true /\ recover c = e_store e')) t.
Proof. exact @txn_proc_crash. Qed.
Print Assumptions C36_every_crash_point.

(** A nested procedure, given the outer transaction, has no effect if the outer one raises,
    even when the nested one itself completed. *)
Theorem C36_nested : forall V A B (q : proc V B) (f : B -> proc V A) e t e' x,
  idle e -> txn_proc (PSub q f) e = (t, e', Err x) -> e' = e.
Proof. exact @nested_outer. Qed.
Print Assumptions C36_nested.

(** pisi.context.txn_proc: same effects (the abort happens when the handle is collected),
    but the caller gets a NameError instead of the exception that was raised. *)
Theorem C36_context_txn_proc : forall V A (p : proc V A) e t e' r,
  idle e -> ctx_txn_proc p e = (t, e', r) ->
  match r with
  | Ok a => idle e' /\ exec p (e_store e) = (e_store e', Ok a)
  | Err x => x = EName /\ collect e' = e /\ exists s y, exec p (e_store e) = (s, Err y)
  end /\
  Forall (fun c => recover c = e_store e \/ (is_ok r = true /\ recover c = e_store e')) t.
Proof. exact @ctx_txn_proc_effect. Qed.
Print Assumptions C36_context_txn_proc.

(** Two puts, a nested delete, then an exception; and the same without the exception. *)
Example C36_nontrivial :
  let k := ("db", "k") in let k' := ("db", "k'") in
  let body (last : proc nat unit) := PPut k 1 (PPut k 2 (PSub (PDel k' (PRet tt)) (fun _ => last))) in
  let e := mkEnv (<[k' := 7]> (∅ : gmap (string * string) nat)) None in
  let '(t, e1, r1) := txn_proc (body (PRaise EError)) e in
  let '(_, e2, r2) := txn_proc (body (PRet tt)) e in
  bool_decide (e_store e1 = e_store e) = true /\ r1 = Err EError /\ length t = 7 /\
  e_store e2 !! k = Some 2 /\ e_store e2 !! k' = None /\ r2 = Ok tt.
Proof. vm_compute. repeat split. Qed.

(** ** C26 *)

Theorem C26_consistent : forall e, repo_history e ->
  exists l, repo_list e = Ok l /\ NoDup l /\
    forall n, exists b, repo_has e n = Ok b /\ (b = true <-> In n l).
Proof. exact repo_consistent. Qed.
Print Assumptions C26_consistent.

Theorem C26_add_succeeds_exactly_when : forall e l n uri position,
  repo_history e -> repo_list e = Ok l ->
  (snd (call (CallAdd n uri position) e) = Ok tt <->
   ~ In n l /\ match position with None => True | Some z => (0 <= z <= Z.of_nat (length l))%Z end).
Proof. exact repo_add_possible. Qed.
Print Assumptions C26_add_succeeds_exactly_when.

Theorem C26_add : forall e l n uri position e',
  repo_history e -> repo_list e = Ok l -> call (CallAdd n uri position) e = (e', Ok tt) ->
  ~ In n l /\ repo_uri e' n = Some (RInfo uri) /\ (forall m, m <> n -> repo_uri e' m = repo_uri e m) /\
  match position with
  | None => repo_list e' = Ok (l ++ [n])%list
  | Some z => exists pre post, l = (pre ++ post)%list /\ z = Z.of_nat (length pre) /\
                               repo_list e' = Ok (pre ++ n :: post)%list
  end.
Proof. exact repo_add_ok. Qed.
Print Assumptions C26_add.

Theorem C26_remove : forall e l n e' r,
  repo_history e -> repo_list e = Ok l -> call (CallRemove n) e = (e', r) ->
  (r = Ok tt <-> In n l) /\
  (r = Ok tt -> repo_uri e' n = None /\ (forall m, m <> n -> repo_uri e' m = repo_uri e m) /\
     exists pre post, l = (pre ++ n :: post)%list /\ repo_list e' = Ok (pre ++ post)%list).
Proof. exact repo_remove_ok. Qed.
Print Assumptions C26_remove.

Theorem C26_failure_changes_nothing : forall e c e' x,
  repo_history e -> call c e = (e', Err x) -> e' = e.
Proof. exact repo_fail. Qed.
Print Assumptions C26_failure_changes_nothing.

(** add a, add b in front, try to add c at position 9 (fails after having written c's
    record), remove a. *)
Example C26_nontrivial :
  let e0 := snd (fst (txn_proc rp_init (mkEnv ∅ None))) in
  let e1 := fst (call (CallAdd "a" "u1" None) e0) in
  let e2 := fst (call (CallAdd "b" "u2" (Some 0%Z)) e1) in
  let e3 := fst (call (CallAdd "c" "u3" (Some 9%Z)) e2) in
  repo_list e2 = Ok ["b"; "a"] /\ repo_list e3 = Ok ["b"; "a"] /\
  repo_list (fst (call (CallRemove "a") e3)) = Ok ["b"] /\
  snd (call (CallRemove "c") e3) = Err EDB /\ repo_has e3 "c" = Ok false.
Proof. vm_compute. repeat split. Qed.
