(** * What a package brings to a system *)
From Coq Require Import String ZArith NArith List Bool.
From stdpp Require Import gmap strings.
From Verif Require Import Model.Py Model.Fs Model.Trace Model.Actions Model.Archive Spec.FsSpec Spec.ActionsSpec Spec.ArchiveSpec.
Import ListNotations.
Open Scope string_scope.

(** The destination directory, "/" for no names: it is there, on a path without links. *)
Definition destined (f : fs) (rs : list string) : Prop :=
  (forall n, In n rs -> name n) /\ forall a b, rs = (a ++ b)%list -> a <> [] -> f !! below "/" a = Some NDir.

(** The build made these things in [I]: files, links and empty directories, at different places. *)
Definition things (d : disk) (I : string) (ls : list (list string)) : Prop :=
  List.NoDup ls /\ forall ns, In ns ls -> ns <> [] /\ (forall n, In n ns -> name n) /\
    match nodes d !! below I ns with
    | Some (NFile _) | Some (NLink _) => True
    | Some NDir => forall n, name n -> nodes d !! below I (ns ++ [n]) = None
    | _ => False
    end.

(** A thing like [x] can be put at the place [ns] of [T]: on the way there are only directories, or
    nothing yet; a file or a link may replace a file or a link, and a directory may be there
    already. *)
Definition welcome (f : fs) (T : string) (ns : list string) (x : option node) : Prop :=
  (forall a b, ns = (a ++ b)%list -> a <> [] -> b <> [] -> f !! below T a = None \/ f !! below T a = Some NDir) /\
  match f !! below T ns with
  | None => True
  | Some NDir => x = Some NDir
  | Some (NFile _) | Some (NLink _) => x <> Some NDir
  | Some NOther => False
  end.

(** [q] is a directory on the way to one of the places. *)
Definition on_the_way (T : string) (ls : list (list string)) (q : string) : Prop :=
  exists ns a b, In ns ls /\ ns = (a ++ b)%list /\ a <> [] /\ b <> [] /\ q = below T a.
(** A directory that was not there, with the permissions the umask leaves *)
Definition new_dir (umask : N) (e e' : disk) (q : string) : Prop :=
  nodes e !! q = None /\ nodes e' !! q = Some NDir /\ mode_of e' q = N.ldiff 0x1FF umask.
(** Nothing else has changed: only the places and new directories on the way to them. *)
Definition nothing_else (umask : N) (e e' : disk) (T : string) (ls : list (list string)) : Prop :=
  forall q, (forall ns, In ns ls -> q <> below T ns) -> same_at e e' q \/ (on_the_way T ls q /\ new_dir umask e e' q).
(** The things are at their places in [T] as they were in [I], with permissions as [file] and
    [dir] say. *)
Definition in_place (file dir : N -> N -> Prop) (d e' : disk) (I T : string) (ls : list (list string)) : Prop :=
  forall ns, In ns ls ->
    nodes e' !! below T ns = nodes d !! below I ns /\
    match nodes d !! below I ns with
    | Some (NFile _) => file (mode_of d (below I ns)) (mode_of e' (below T ns))
    | Some NDir => dir (mode_of d (below I ns)) (mode_of e' (below T ns))
    | _ => True
    end.
(** For the old format: no file or link goes directly into "/", and none into a directory whose
    name ends in white space. *)
Definition old_fits (d : disk) (I T : string) (ls : list (list string)) : Prop :=
  forall a n, In (a ++ [n])%list ls -> nodes d !! below I (a ++ [n]) <> Some NDir -> below T a <> "/" /\ ~ ends_blank (below T a).
(** The permissions of the directories of a package: those that were there keep theirs. *)
Definition old_dirs (d e e' : disk) (I T : string) (ls : list (list string)) : Prop :=
  forall ns, In ns ls -> nodes d !! below I ns = Some NDir ->
    if match nodes e !! below T ns with Some _ => true | None => false end
    then mode_of e' (below T ns) = mode_of e (below T ns)
    else zip_dir_keeps (mode_of d (below I ns)) (mode_of e' (below T ns)).
