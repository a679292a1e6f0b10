(** * Lines, order, repetition *)
From Coq Require Import String Ascii List Bool Sorting.Sorted Sorting.Permutation.
From Verif Require Import Model.Py Spec.PathSpec.
Import ListNotations.
Open Scope string_scope.

(** A line, and one at the end of a file without the newline character *)
Definition whole_line (l : string) : Prop := exists t, l = t ++ String "010" "" /\ free_of "010" t.
Definition rest_line (l : string) : Prop := l <> "" /\ free_of "010" l.
(** Byte order: a proper beginning is smaller, otherwise the first difference decides *)
Definition smaller (a b : string) : Prop :=
  (exists c t, b = a ++ String c t) \/
  (exists p c a' d b', a = p ++ String c a' /\ b = p ++ String d b' /\ (nat_of_ascii c < nat_of_ascii d)%nat).
(** [out] are the lines of [input] for which P is true, in their order *)
Inductive those {A} (P : A -> Prop) : list A -> list A -> Prop :=
| those_none : those P [] []
| those_yes x l out : P x -> those P l out -> those P (x :: l) (x :: out)
| those_no x l out : ~ P x -> those P l out -> those P (x :: l) out.
(** Runs of one line: the line and how often it is repeated *)
Fixpoint spread (runs : list (string * nat)) : list string :=
  match runs with [] => [] | (x, n) :: runs => (repeat x (S n) ++ spread runs)%list end.
Inductive changing : list string -> Prop :=
| changing_none : changing []
| changing_one x : changing [x]
| changing_more x y l : x <> y -> changing (y :: l) -> changing (x :: y :: l).
