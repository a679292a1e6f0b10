(** * Programs that change a disk step by step

    A program gives the disk states it passes through, oldest first, and its result.  A crash
    leaves any of these states. *)
From Coq Require Import List.
From Verif Require Import Model.Py.
Import ListNotations.

Definition prog (S A : Type) := S -> list S * res A.
Definition final {S A} (p : prog S A) (s : S) : S := List.last (fst (p s)) s.
Definition result {S A} (p : prog S A) (s : S) : res A := snd (p s).
Definition states {S A} (p : prog S A) (s : S) : list S := s :: fst (p s).
Definition ret {S A} (a : A) : prog S A := fun _ => ([], Ok a).
Definition raise {S A} (e : exn) : prog S A := fun _ => ([], Err e).
Definition ask {S A} (f : S -> A) : prog S A := fun s => ([], Ok (f s)).
Definition change {S} (f : S -> S) : prog S unit := fun s => ([f s], Ok tt).
Definition andthen {S A B} (p : prog S A) (q : A -> prog S B) : prog S B :=
  fun s =>
    match p s with
    | (t, Err e) => (t, Err e)
    | (t, Ok a) => let '(t', r) := q a (List.last t s) in ((t ++ t')%list, r)
    end.
(** try: p except e (where [caught e]): q *)
Definition try_except {S A} (p : prog S A) (caught : exn -> bool) (q : prog S A) : prog S A :=
  fun s =>
    match p s with
    | (t, Ok a) => (t, Ok a)
    | (t, Err e) =>
        if caught e then let '(t', r) := q (List.last t s) in ((t ++ t')%list, r) else (t, Err e)
    end.
Fixpoint each {S A} (f : A -> prog S unit) (l : list A) : prog S unit :=
  match l with
  | [] => ret tt
  | x :: l => andthen (f x) (fun _ => each f l)
  end.

Declare Scope prog_scope.
Delimit Scope prog_scope with prog.
Notation "x <~ p ;; q" := (andthen p (fun x => q)) (at level 100, p at next level, right associativity) : prog_scope.
