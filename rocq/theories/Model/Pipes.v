(** * Pipes for action scripts: pisi/actionsapi/coreutils.py

    A sequence is the list of what the iterator gives.  Texts are byte strings. *)
From Coq Require Import String Ascii List Bool.
From Verif Require Import Model.Py.
Import ListNotations.
Open Scope string_scope.

Definition nl : ascii := "010".
(** coreutils.py 26-27: file.xreadlines: up to and including each newline character *)
Fixpoint lines_from (cur s : string) : list string :=
  match s with
  | EmptyString => if String.eqb cur "" then [] else [cur]
  | String c s => if Ascii.eqb c nl then (cur ++ String c "") :: lines_from "" s else lines_from (cur ++ String c "") s
  end.
Definition cat (contents : string) : list string := lines_from "" contents.
(** coreutils.py 29-34; [matches] is re.compile(pat, flags).match, which looks at the beginning *)
Definition grep (matches : string -> bool) (input : list string) : list string := filter matches input.
(** coreutils.py 36-41 *)
Definition tr {A B} (transform : A -> B) (input : list A) : list B := map transform input.
(** coreutils.py 43-49: [print >> out, line] *)
Definition printto (input : list string) : string := fold_left (fun out line => out ++ line ++ String nl "") input "".
(** coreutils.py 53-63: terminator; ''.join, enumerate *)
Definition join (input : list string) : string := fold_left append input "".
Fixpoint enum_from {A} (n : nat) (input : list A) : list (nat * A) :=
  match input with [] => [] | x :: input => (n, x) :: enum_from (S n) input end.
Definition enum {A} (input : list A) : list (nat * A) := enum_from 0 input.
(** coreutils.py 65-70: list.sort of strings.  Any sorting gives the same list of strings. *)
Fixpoint put_in (x : string) (l : list string) : list string :=
  match l with [] => [x] | y :: l' => if String.leb x y then x :: l else y :: put_in x l' end.
Definition sort (input : list string) : list string := fold_left (fun l x => put_in x l) input [].
(** coreutils.py 72-82: [prev] has no value at first: an UnboundLocalError, which is a NameError *)
Fixpoint uniq_from (prev : option string) (input : list string) : list string :=
  match input with
  | [] => []
  | i :: input =>
      if match prev with Some p => String.eqb i p | None => false end then uniq_from prev input
      else i :: uniq_from (Some i) input
  end.
Definition uniq (input : list string) : list string := uniq_from None input.
