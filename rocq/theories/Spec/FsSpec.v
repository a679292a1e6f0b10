(** * File systems, as users see them *)
From Coq Require Import String Ascii List ZArith.
From stdpp Require Import gmap strings.
From Verif Require Import Model.Py Model.InstallDB Model.Path Model.Fs Spec.PathSpec.
Open Scope string_scope.

(** /usr/lib/libz.so *)
Definition absolute (p : string) : Prop := exists r, relative_path r /\ p = "/" +:+ r.

(** A file system: only absolute paths, and whatever exists is in a directory that exists. *)
Definition tree (f : fs) : Prop :=
  forall p n, f !! p = Some n -> absolute p /\ node_at f (dirname p) = Some NDir.

(** Where a file listed as [path] is installed below the destination directory *)
Definition located (dest path : string) : string :=
  if String.eqb dest "/" then "/" +:+ path else dest +:+ "/" +:+ path.
Definition destination (dest : string) : Prop := dest = "/" \/ absolute dest.

(** What lies in directory [d] *)
Definition inside (f : fs) (d q : string) : Prop := is_Some (f !! q) /\ dirname q = d.
Definition empty_dir (f : fs) (d : string) : Prop := f !! d = Some NDir /\ forall q, ~ inside f d q.

(** A regular file, perhaps through symbolic links, with this content *)
Definition reads (f : fs) (p c : string) : Prop := stat f p = Some (NFile c).
(** A file or a link, but not a directory or a device *)
Definition file_or_link (f : fs) (p : string) : Prop :=
  (exists c, reads f p c) \/ exists t, f !! p = Some (NLink t).

(** ** Removing: the policy for one listed file *)
Definition marked_permanent (fi : finfo) : Prop := exists s, f_permanent fi = Some s /\ s <> "".
Definition is_config (fi : finfo) : Prop := f_type fi = "config".
(** The user changed it: it is not readable as the packaged content *)
Definition config_changed (sha1 : string -> string) (f : fs) (p : string) (fi : finfo) : Prop :=
  is_config fi /\ forall c, reads f p c -> f_hash fi <> Some (sha1 c).
(** The table of owners names another package for the path as looked up *)
Definition owned_by_other (owners : filesdb) (p pkg : string) : Prop :=
  exists q fi, owners !! p = Some (q, fi) /\ q <> pkg.

(** [shrunk f f' P]: everything in [f'] was in [f]; what is missing satisfies [P] or is a
    directory that has become empty. *)
Definition shrunk (f f' : fs) (P : string -> Prop) : Prop :=
  forall q, f' !! q = f !! q \/
    (f' !! q = None /\ (P q \/ (f !! q = Some NDir /\ forall c, ~ inside f' q c))).

(** The policy deletes the file: no other package is named for the path, it is not
    permanent, and it is a configuration file as packaged, or something else that is a file,
    a link or an empty directory. *)
Definition deletes (sha1 : string -> string) (dest : string) (owners : filesdb) (pkg : string) (f : fs) (fi : finfo) : Prop :=
  ~ owned_by_other owners (located dest (f_path fi)) pkg /\ ~ marked_permanent fi /\
  ((is_config fi /\ exists c, reads f (located dest (f_path fi)) c /\ f_hash fi = Some (sha1 c)) \/
   (~ is_config fi /\ (file_or_link f (located dest (f_path fi)) \/ empty_dir f (located dest (f_path fi))))).

(** Listed entry [fi] is at [q], is not permanent, and the table of owners has no objection. *)
Definition may_go (dest : string) (owners : filesdb) (pkg : string) (fi : finfo) (q : string) : Prop :=
  q = located dest (f_path fi) /\ ~ marked_permanent fi /\ ~ owned_by_other owners q pkg.
