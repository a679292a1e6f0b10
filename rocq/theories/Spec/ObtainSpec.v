(** * Getting hold of a package, as users see it *)
From Coq Require Import String Ascii ZArith List Bool.
From stdpp Require Import gmap strings.
From Verif Require Import Model.Py Model.Path Model.Trace Model.Fetch Model.Obtain Spec.FetchSpec.
Import ListNotations.
Open Scope string_scope.

(** Opening a package again and again, each time with other luck, each time stopped anywhere, without
    deltas; what the server holds does not change *)
Inductive openings (server : string -> option string) (parse : string -> uri) (mirrors : string -> list string)
    (u : uri) (dest : string) (f0 : files) : files -> Prop :=
| openings_none : openings server parse mirrors u dest f0 f0
| openings_more f f' net authinfo dir_writable writable patch progress installed fetcher fuel :
    openings server parse mirrors u dest f0 f ->
    In f' (states (open_package server net parse mirrors authinfo dir_writable writable patch progress installed false dest fetcher fuel u) f) ->
    openings server parse mirrors u dest f0 f'.

(** [s] ends in a digit *)
Definition ends_in_digit (s : string) : Prop := exists a c, s = a ++ String c "" /\ is_digit c = true.
