(** * C101: pipes in action scripts *)
From Coq Require Import String Ascii List Bool Sorting.Sorted Sorting.Permutation.
From Verif Require Import Model.Py Spec.PathSpec Model.Pipes Spec.PipesSpec Proof.PipesFacts.
Import ListNotations.
Open Scope string_scope.

(** cat gives the lines of a file, none lost: each ends in its only newline character, but for a
    last one without. *)
Theorem C101_cat contents : join (cat contents) = contents /\
  exists ls r, cat contents = (ls ++ r)%list /\ (forall l, In l ls -> whole_line l) /\ (r = [] \/ exists x, r = [x] /\ rest_line x).
Proof. exact (cat_lines contents). Qed.
Print Assumptions C101_cat.
(** grep gives those that match, in their order. *)
Theorem C101_grep matches input out : grep matches input = out <-> those (fun x => matches x = true) input out.
Proof. exact (grep_iff matches input out). Qed.
Print Assumptions C101_grep.
(** sort gives the same lines, in the order of their bytes. *)
Theorem C101_sort input out : sort input = out <-> StronglySorted (fun a b => a = b \/ smaller a b) out /\ Permutation out input.
Proof. exact (sort_iff input out). Qed.
Print Assumptions C101_sort.
(** uniq gives one line for each run of equal lines. *)
Theorem C101_uniq input out : uniq input = out <-> exists runs, input = spread runs /\ out = map fst runs /\ changing out.
Proof. exact (uniq_iff input out). Qed.
Print Assumptions C101_uniq.
(** sort | uniq gives every line once, in order. *)
Theorem C101_sort_uniq input : StronglySorted smaller (uniq (sort input)) /\ forall x, In x (uniq (sort input)) <-> In x input.
Proof. exact (sort_uniq input). Qed.
Print Assumptions C101_sort_uniq.
(** enum numbers from 0. *)
Theorem C101_enum A (input : list A) n x : In (n, x) (enum input) <-> nth_error input n = Some x.
Proof. exact (enum_is input n x). Qed.
Print Assumptions C101_enum.

Definition n1 : string := String nl "".
Example C101_nontrivial : cat ("b" ++ n1 ++ "a" ++ n1 ++ "b" ++ n1) = ["b" ++ n1; "a" ++ n1; "b" ++ n1] /\
  uniq (sort (cat ("b" ++ n1 ++ "a" ++ n1 ++ "b" ++ n1))) = ["a" ++ n1; "b" ++ n1] /\ uniq ["a"; "a"; "b"; "a"] = ["a"; "b"; "a"] /\ grep (fun l => py_startswith l "ab") ["abc"; "b"; "cab"; "ab"] = ["abc"; "ab"].
Proof. repeat split. Qed.

(** What cat read, printed, is not what was there: every line is followed by an empty one. *)
Theorem C101_print_refuted : ~ forall contents, printto (cat contents) = contents.
Proof. intros H. specialize (H n1). discriminate H. Qed.
Print Assumptions C101_print_refuted.
(** A last line without newline character is not the same as one with. *)
Theorem C101_last_line_refuted : ~ forall contents, List.NoDup (map (fun l => hd "" (py_split nl l)) (uniq (sort (cat contents)))).
Proof. intros H. specialize (H ("a" ++ n1 ++ "a")). vm_compute in H. inversion H as [|? ? N _]. apply N. now left. Qed.
Print Assumptions C101_last_line_refuted.
(** tr changes each element, and nothing else. *)
Theorem C101_tr A B (t : A -> B) input out : tr t input = out <-> Forall2 (fun x y => y = t x) input out.
Proof. exact (tr_is t input out). Qed.
Print Assumptions C101_tr.
(** Texts without newline characters are printed one to a line, in their order. *)
Theorem C101_print_partial ls : (forall l, In l ls -> free_of nl l) -> cat (printto ls) = map (fun l => l ++ String nl "") ls.
Proof. exact (print_cat ls). Qed.
Print Assumptions C101_print_partial.
Example C101_print_nontrivial : cat (printto ["b"; ""; "a"]) = ["b" ++ n1; n1; "a" ++ n1].
Proof. reflexivity. Qed.
