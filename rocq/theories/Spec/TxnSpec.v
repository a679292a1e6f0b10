(** * What transactions should do, without logs *)
From Coq Require Import String List.
From stdpp Require Import gmap strings.
From Verif Require Import Model.Py Model.Txn.
Open Scope string_scope.

(** The effect of a procedure run alone on a plain database, no transaction machinery. *)
Fixpoint exec {V A} (p : proc V A) (s : gmap (string * string) V) {struct p} : gmap (string * string) V * res A :=
  match p with
  | PRet a => (s, Ok a)
  | PRaise x => (s, Err x)
  | PGet k f => exec (f (s !! k)) s
  | PKeys db f => exec (f (keys_of db s)) s
  | PPut k v p => exec p (<[k := v]> s)
  | PDel k p => match s !! k with None => (s, Err EDB) | Some _ => exec p (delete k s) end
  | PSub q f => match exec q s with (s', Ok b) => exec (f b) s' | (s', Err x) => (s', Err x) end
  | PTry q h f =>
      match exec q s with
      | (s', Ok b) => exec (f b) s'
      | (s', Err x) => match exec (h x) s' with (s1, Ok b) => exec (f b) s1 | (s1, Err y) => (s1, Err y) end
      end
  end.

(** No transaction is open. *)
Definition idle {V} (e : env V) : Prop := e_log e = None.

(** ** The repository list *)
Inductive repo_call :=
| CallAdd (name uri : string) (position : option Z)
| CallRemove (name : string)
| CallSwap (x y : Z).
Definition repo_proc (c : repo_call) : proc rval unit :=
  match c with
  | CallAdd n u p => rp_add n u p
  | CallRemove n => rp_remove n
  | CallSwap x y => rp_swap x y
  end.
(** environment after the call, and its outcome *)
Definition call (c : repo_call) (e : env rval) : env rval * res unit :=
  let '(_, e', r) := txn_proc (repo_proc c) e in (e', r).

(** Every environment that calls, successful or not, can lead to. *)
Inductive repo_history : env rval -> Prop :=
| rh_start t e : txn_proc rp_init (mkEnv ∅ None) = (t, e, Ok tt) -> repo_history e
| rh_call e c e' r : repo_history e -> call c e = (e', r) -> repo_history e'.

(** What a user sees. *)
Definition repo_list (e : env rval) : res (list string) := snd (run rp_list e).
Definition repo_has (e : env rval) (n : string) : res bool := snd (run (rp_has n) e).
Definition repo_uri (e : env rval) (n : string) : option rval := e_store e !! rkey n.
