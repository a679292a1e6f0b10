(** * Archives, as those who pack and unpack them see it *)
From Coq Require Import String Ascii ZArith NArith List Bool.
From stdpp Require Import gmap strings.
From Verif Require Import Model.Py Model.Path Model.Fs Model.Archive Spec.PathSpec Spec.ActionsSpec.
Import ListNotations.
Open Scope string_scope.

(** A file system has names for what it holds, and holds things in directories. *)
Definition real (f : fs) : Prop :=
  forall p x, f !! p = Some x -> exists ns, ns <> [] /\ (forall n, In n ns -> name n) /\ p = below "/" ns /\
    forall a b, ns = (a ++ b)%list -> a <> [] -> b <> [] -> f !! below "/" a = Some NDir.

(** Permissions: which of the twelve bits are set *)
Definition owner_reads : N := 8.
Definition setuid : N := 11.
Definition setgid : N := 10.
Definition sticky : N := 9.
(** The file can be read by its owner; the rest of read, write and execute, and setuid, are as
    they were; setgid and sticky are gone. *)
Definition zip_file_keeps (m m' : N) : Prop :=
  forall i, N.testbit m' i = (N.eqb i owner_reads || N.testbit m i && (N.ltb i 8 || N.eqb i setuid)).
Definition zip_dir_keeps (m m' : N) : Prop :=
  forall i, N.testbit m' i = (N.eqb i owner_reads || N.testbit m i && N.ltb i 12).
Definition all_bits (m m' : N) : Prop := forall i, N.testbit m' i = N.testbit m i && N.ltb i 12.

(** What is at [P] in [d], and in it, is at [Q] in [d'], with permissions kept in this way, and
    nothing else is there. *)
Definition copied (file_keeps dir_keeps : N -> N -> Prop) (d d' : disk) (P Q : string) : Prop :=
  forall u, u = "" \/ (exists v, u = "/" ++ v) ->
    nodes d' !! (Q ++ u) = nodes d !! (P ++ u) /\
    match nodes d !! (P ++ u) with
    | Some (NFile _) => file_keeps (mode_of d (P ++ u)) (mode_of d' (Q ++ u))
    | Some NDir => dir_keeps (mode_of d (P ++ u)) (mode_of d' (Q ++ u))
    | _ => True
    end.
(** The place is as it was. *)
Definition same_at (d d' : disk) (q : string) : Prop :=
  nodes d' !! q = nodes d !! q /\ (nodes d !! q <> None -> mode_of d' q = mode_of d q).
(** There is nothing at [P], nor in it. *)
Definition nothing_at (d : disk) (P : string) : Prop := forall q, at_or_in P q -> nodes d !! q = None.
(** Only files, directories and links are at [P] and in it. *)
Definition packable (d : disk) (P : string) : Prop :=
  nodes d !! P <> None /\ forall q, at_or_in P q -> nodes d !! q <> Some NOther.
(** A path whose last character is white space *)
Definition ends_blank (p : string) : Prop := exists s c, p = s ++ String c "" /\ is_space c = true.
(** The names of the directories at [P] and in it do not end in white space. *)
Definition tidy (d : disk) (P : string) : Prop := forall q, at_or_in P q -> nodes d !! q = Some NDir -> ~ ends_blank q.
(** os.listdir gives each name once, in any order. *)
Definition any_listing (order : string -> list string -> list string) : Prop :=
  forall q l, Permutation (order q l) l.
(** No path is longer. *)
Definition paths_shorter (d : disk) (n : nat) : Prop := forall q, nodes d !! q <> None -> String.length q < n.

(** ** Names in an archive *)
(** The member called [text] goes to this place in the target directory ("usr/lib/" to
    [usr; lib]). *)
Definition member_at (text : string) (ns : list string) : Prop :=
  ns <> [] /\ (forall n, In n ns -> name n) /\ (text = String.concat "/" ns \/ text = String.concat "/" ns ++ "/").

(** ** The directory things are unpacked to *)
(** [T] is in a directory that is there, on a path without symbolic links. *)
Definition placed (f : fs) (T : string) : Prop := exists P t, stands f P /\ name t /\ T = P ++ "/" ++ t.
(** The things called [xs] in the directory [C] of [d] are in the directory [T] of [e']. *)
Definition all_copied (file_keeps dir_keeps : N -> N -> Prop) (d e' : disk) (C T : string) (xs : list string) : Prop :=
  forall x, In x xs -> copied file_keeps dir_keeps d e' (C ++ "/" ++ x) (T ++ "/" ++ x).
(** Places that are not those of [xs] in [T] are as they were. *)
Definition only_in (e e' : disk) (T : string) (xs : list string) : Prop :=
  forall q, (forall x, In x xs -> ~ at_or_in (T ++ "/" ++ x) q) -> same_at e e' q.
(** [T] is a directory with these things in it, and nothing else; outside it everything is as it
    was. *)
Definition new_directory (e e' : disk) (T : string) (xs : list string) : Prop :=
  nodes e' !! T = Some NDir /\
  (forall q, beneath T q -> nodes e' !! q <> None -> exists x, In x xs /\ at_or_in (T ++ "/" ++ x) q) /\
  forall q, ~ at_or_in T q -> same_at e e' q.
(** Things to be packed together: different names, of files, directories and links. *)
Definition to_pack (d : disk) (C : string) (xs : list string) : Prop :=
  List.NoDup xs /\ forall x, In x xs -> name x /\ packable d (C ++ "/" ++ x).
(** What is in the directory [P] *)
Definition content (d : disk) (P : string) (ys : list string) : Prop := forall y, In y ys <-> name y /\ nodes d !! (P ++ "/" ++ y) <> None.

(** ** Archives that stay in the directory they are unpacked to *)
Inductive shape := Directory | Regular | Symlink.
(** What the members stand for: the part of their name behind [pre] *)
Definition zip_at (pre : list string) (m : member) (ns : list string) (k : shape) : Prop :=
  (forall n, In n ns -> name n) /\
  match k with
  | Directory => m_name m = String.concat "/" (pre ++ ns) ++ "/"
  | Regular => ns <> [] /\ m_name m = String.concat "/" (pre ++ ns) /\ m_attr m <> symmagic
  | Symlink => ns <> [] /\ m_name m = String.concat "/" (pre ++ ns) /\ m_attr m = symmagic
  end.
Definition tar_at (m : tmember) (ns : list string) (k : shape) : Prop :=
  ns <> [] /\ (forall n, In n ns -> name n) /\ t_name m = String.concat "/" ns /\
  match t_what m with ADir => k = Directory | AFile _ => k = Regular | ALink _ => k = Symlink end.
(** The places the members of an archive stand for *)
Definition zip_places (pre : list string) (ms : list member) (ns : list string) (k : shape) : Prop := exists m, In m ms /\ zip_at pre m ns k.
Definition tar_places (ms : list tmember) (ns : list string) (k : shape) : Prop := exists m, In m ms /\ tar_at m ns k.
(** The places a member is reached through: those above it, its own if it is a directory, and
    also if it is a file and links are written through ([over] says that they are replaced). *)
Definition way (at_ : list string -> shape -> Prop) (over : bool) (ns : list string) : Prop :=
  ns <> [] /\ exists b k, at_ (ns ++ b)%list k /\ (b <> [] \/ k = Directory \/ (k = Regular /\ over = false)).
(** No link is on the way, in the directory or in the archive. *)
Definition way_free (at_ : list string -> shape -> Prop) (over : bool) (f : fs) (T : string) : Prop :=
  forall ns, way at_ over ns -> no_link f (below T ns) /\ ~ at_ ns Symlink.
(** Nothing outside [T] has changed. *)
Definition unchanged_outside (e e' : disk) (T : string) : Prop := forall q, ~ beneath T q -> same_at e e' q.
