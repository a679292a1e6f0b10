(** * What an index should hold *)
From Coq Require Import String Ascii List Bool.
From stdpp Require Import gmap strings.
From Verif Require Import Model.Py Model.Package Model.ComponentDB Model.Databases Model.Index Spec.PathSpec.
Open Scope string_scope.

(** The file [c] lies in [t] under the directories and the name [path]. *)
Inductive file_at : tree -> list string -> content -> Prop :=
| at_top files subs f c : In (f, c) files -> file_at (Dir files subs) [f] c
| at_sub files subs d t path c : In (d, t) subs -> file_at t path c -> file_at (Dir files subs) (d :: path) c.

(** Names of files and directories are not empty and contain no slash. *)
Inductive well_named : tree -> Prop :=
| wn files subs : (forall f c, In (f, c) files -> f <> "" /\ free_of "/" f) ->
    (forall d t, In (d, t) subs -> d <> "" /\ free_of "/" d /\ well_named t) -> well_named (Dir files subs).
(** No two files, and no two directories, of one directory have the same name. *)
Inductive told_apart : tree -> Prop :=
| ta files subs : List.NoDup (map fst files) -> List.NoDup (map fst subs) -> (forall d t, In (d, t) subs -> told_apart t) ->
    told_apart (Dir files subs).

Definition relative_name (path : list string) : string := String.concat "/" path.
Definition ends_with (s t : string) : Prop := exists r, s = r +:+ t.
Definition file_name (path : list string) : string := List.last path "".

(** The files the command looks at *)
Definition looked_at (non_recursive : bool) (t : tree) (path : list string) (c : content) : Prop :=
  file_at t path c /\ (non_recursive = true -> length path = 1%nat).
(** ... and can make something of *)
Definition readable_file (skip_sources : bool) (path : list string) (c : content) : Prop :=
  (ends_with (file_name path) ".pisi" -> exists md, f_package c = Ok md) /\
  (file_name path = "component.xml" -> exists x, f_component c = Ok x) /\
  (file_name path = "pspec.xml" -> skip_sources = false -> exists x, f_spec c = Ok x) /\
  (file_name path = "distribution.xml" -> exists x, f_distro c = Ok x).

(** [full] is the name of the file under the directory [d]. *)
Definition stands_at (d : string) (path : list string) (full : string) : Prop :=
  (ends_in_slash d -> full = d +:+ relative_name path) /\ (~ ends_in_slash d -> full = d +:+ "/" +:+ relative_name path).
(** The directories the command goes through *)
Definition gone_through (dirs : list string) (d : string) : Prop := In d dirs \/ (dirs = [] /\ d = ".").
(** The address by which the index names a file: relative to its directory, or, with
    --absolute-uris, its full name with the links resolved. *)
Definition addressed (absolute : option (string -> string)) (d : string) (path : list string) (uri : string) : Prop :=
  match absolute with
  | None => uri = relative_name path
  | Some realpath => exists full, stands_at d path full /\ uri = realpath full
  end.

(** What the command should collect *)
Definition package_found (absolute : option (string -> string)) (non_recursive : bool) (at_ : string -> tree) (dirs : list string) (p : package) (uri : string) : Prop :=
  exists d path c, gone_through dirs d /\ looked_at non_recursive (at_ d) path c /\ ends_with (file_name path) ".pisi" /\
    f_package c = Ok (p, true) /\ addressed absolute d path uri.
Definition component_found (non_recursive : bool) (at_ : string -> tree) (dirs : list string) (x : component) : Prop :=
  exists d path c, gone_through dirs d /\ looked_at non_recursive (at_ d) path c /\ file_name path = "component.xml" /\ f_component c = Ok x.
Definition source_found (absolute : option (string -> string)) (non_recursive : bool) (at_ : string -> tree) (dirs : list string) (x : spec) (uri : string) : Prop :=
  exists d path c, gone_through dirs d /\ looked_at non_recursive (at_ d) path c /\ file_name path = "pspec.xml" /\
    f_spec c = Ok x /\ addressed absolute d path uri.

(** The last of the list that has the name *)
Definition listed_last (n : string) (p : package) (ps : list package) : Prop :=
  exists a b, ps = (a ++ p :: b)%list /\ p_name p = n /\ forall q, In q b -> p_name q <> n.
