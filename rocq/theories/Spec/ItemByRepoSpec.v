(** * Vocabulary for the per-repository databases *)
From stdpp Require Import gmap strings.
From Verif Require Import Model.Py Model.ItemByRepo.
Open Scope string_scope.

(** The places an item can be recorded in: installed, third party, or one repository. *)
Definition place (r : rarg) : Prop := r <> RRepos /\ r <> RAll.

(** [found o] : the lookup succeeded, [missing o] : it raised. *)
Definition missing {A} (x : res A) : Prop := exists e, x = Err e.

(** One change to a database. *)
Inductive change (A : Type) : Type :=
| CAdd (name : string) (x : A) (r : rarg)       (* add_item *)
| CRemove (name : string) (r : rarg)            (* remove_item, possibly with a wildcard *)
| CRemoveRepo (r : rarg).                       (* remove_repo *)
Arguments CAdd {A}. Arguments CRemove {A}. Arguments CRemoveRepo {A}.

Definition apply_change {A} (order : list string) (d : shelf A) (c : change A) : res (shelf A) :=
  match c with
  | CAdd n x r => add_item d n x r
  | CRemove n r => remove_item order d n r
  | CRemoveRepo r => remove_repo_items d r
  end.

(** Histories: any number of changes, with any repository order at each moment; a change
    that raises leaves the database as it was. *)
Inductive history {A} : shelf A -> Prop :=
| h_empty : history ∅
| h_ok order d c d' : history d -> apply_change order d c = Ok d' -> history d'.

(** Everything recorded is recorded under a tracking place or a listed repository. *)
Definition listed {A} (order : list string) (d : shelf A) : Prop :=
  forall n r, has_key d n (RName r) = Ok true -> In r order.
