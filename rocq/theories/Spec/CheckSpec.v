(** * Verifying installed files: what users expect *)
From Coq Require Import String Ascii List ZArith.
From stdpp Require Import gmap strings.
From Verif Require Import Model.Py Model.InstallDB Model.Path Model.Fs Model.System Model.Ops Spec.PathSpec Spec.FsSpec.
Open Scope string_scope.

(** A hash was recorded, and it is not a configuration file. *)
Definition to_verify (fi : finfo) : Prop := (exists x, f_hash fi = Some x /\ x <> "") /\ ~ is_config fi.
(** A symbolic link is at its place *)
Definition a_link (f : fs) (p : string) : Prop := exists t, f !! p = Some (NLink t).
(** No regular file, and no link, is at its place: missing, a directory, a device. *)
Definition unreadable (f : fs) (p : string) : Prop := ~ a_link f p /\ forall c, f !! p <> Some (NFile c).
(** A regular file with another hash *)
Definition altered (sha1 : string -> string) (f : fs) (p : string) (fi : finfo) : Prop :=
  exists c, f !! p = Some (NFile c) /\ f_hash fi <> Some (sha1 c).
(** Changed in any way *)
Definition changed_in_any_way (sha1 : string -> string) (f : fs) (p : string) (fi : finfo) : Prop :=
  forall c, f !! p = Some (NFile c) -> f_hash fi <> Some (sha1 c).

(** The list of a package tells the truth about its archive: what has a hash, and is not a
    configuration file, is in it as a file with that hash or as a link. *)
Definition truthful (sha1 : string -> string) (k : pkgfile) : Prop :=
  forall fi, In fi (k_files k) -> to_verify fi ->
    (exists c, In (f_path fi, AFile c) (k_data k) /\ f_hash fi = Some (sha1 c)) \/
    (exists t, In (f_path fi, ALink t) (k_data k)).
