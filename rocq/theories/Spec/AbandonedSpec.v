(** * Vocabulary for "which files are reported as abandoned" *)
From Coq Require Import String Ascii List.
From Verif Require Import Model.Contents Spec.PathSpec Spec.ContentsSpec.
Import ListNotations.
Open Scope string_scope.

(** A file, or a link that does not lead to a directory *)
Definition is_file (x : node) : Prop :=
  (exists c, x = NFile c) \/ (exists g c, x = NLink g (ToFile c)) \/ (exists g, x = NLink g Nowhere).
(** What some listed path stands for, and is there *)
Definition collected (t : node) (pkgs : list (list pathinfo)) (q : list string) : Prop :=
  (exists i, found_under pkgs i q) /\ exists z, lies_at t q z.
(** /usr/bin/foobar begins like /usr/bin/foo *)
Definition begins_like (f q : list string) : Prop := exists rest, text f = text q ++ rest.
