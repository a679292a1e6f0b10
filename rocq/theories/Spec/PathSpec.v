(** * Paths and package names, as users see them *)
From Coq Require Import String Ascii List Bool ZArith.
From Verif Require Import Model.Py Model.Path.
Import ListNotations.
Open Scope string_scope.

Definition ends_in_slash (s : string) : Prop := exists t, s = t ++ "/".
Definition free_of (c : ascii) (s : string) : Prop := ~ In c (list_ascii_of_string s).

(** usr/lib/libz.so: one or more names, separated by single slashes *)
Inductive relative_path : string -> Prop :=
| rel_name n : n <> "" -> free_of "/" n -> relative_path n
| rel_under n p : n <> "" -> free_of "/" n -> relative_path p -> relative_path (n ++ "/" ++ p).

(** kdelibs-devel: the first word is anything, the others are not empty and do not start
    with a digit *)
Definition digit_first (s : string) : Prop := exists c t, s = String c t /\ is_digit c = true.
Inductive plain_words : string -> Prop :=
| words_nil : plain_words ""
| words_cons w s : w <> "" -> free_of "-" w -> ~ digit_first w -> plain_words s -> plain_words ("-" ++ w ++ s).
Definition plain_name (n : string) : Prop :=
  exists w s, free_of "-" w /\ plain_words s /\ n = w ++ s.

(** The build number as it shows in file names: none if absent or 0 *)
Definition build_shown (b : option Z) : string :=
  match b with
  | None => ""
  | Some 0%Z => ""
  | Some z => "-" ++ str_of_Z z
  end.
