(** * Database stamps and package directories, as users see them *)
From Coq Require Import String Ascii ZArith List Bool.
From stdpp Require Import gmap strings.
From Verif Require Import Model.Py Model.Rebuild Spec.VersionSpec Spec.PathSpec.
Import ListNotations.
Open Scope string_scope.

(** A package directory: name-1.0-5, or a name without a version (such as "scripts") *)
Inductive directory_of : string -> string -> string -> Prop :=
| dir_versioned n v : plain_name n -> digit_first v -> directory_of (n ++ "-" ++ v) n v
| dir_bare n : plain_name n -> directory_of n n "".

(** Text [a] is a newer version than text [b] *)
Definition newer (a b : string) : Prop :=
  exists va vb, version_syntax a va /\ version_syntax b vb /\ ver_before vb va.
Definition readable_version (a : string) : Prop := exists v, version_syntax a v.

(** What the version file says: its first line, with the line end if there is one *)
Inductive says : string -> string -> Prop :=
| says_line a rest : ~ In newline (list_ascii_of_string a) -> says (a ++ String newline rest) (a ++ String newline "")
| says_all a : a <> "" -> ~ In newline (list_ascii_of_string a) -> says a a.

(** A stamp compared with the version of the program *)
Definition stamp_older (c ver : string) : Prop := exists l, says c l /\ newer ver l.
Definition stamp_newer (c ver : string) : Prop := exists l, says c l /\ newer l ver.
Definition stamp_same (c ver : string) : Prop :=
  exists l a b, says c l /\ version_syntax l a /\ version_syntax ver b /\ ver_same a b.
Definition stamp_unreadable (c : string) : Prop := exists l, says c l /\ ~ readable_version l.

(** A stamp this version of the program accepts when opening in this mode *)
Definition acceptable (ver : string) (write update : bool) (writable : bool) (s : option string) : Prop :=
  (exists c, s = Some c /\ stamp_same c ver /\ update = false) \/
  (write = true /\ writable = true /\
   (s = None \/ exists c, s = Some c /\ update = true /\ (stamp_older c ver \/ stamp_same c ver))).
