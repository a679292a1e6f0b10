(** * Action scripts, as packagers see them *)
From Coq Require Import String Ascii ZArith List Bool.
From stdpp Require Import gmap strings.
From Verif Require Import Model.Py Model.InstallDB Model.Path Model.Fs Model.Trace Spec.PathSpec.
Import ListNotations.
Open Scope string_scope.

(** ** Places *)
(** A name in a directory *)
Definition name (c : string) : Prop := c <> "" /\ c <> "." /\ c <> ".." /\ free_of "/" c.
(** /usr, [lib; libz.so] -> /usr/lib/libz.so *)
Fixpoint below (d : string) (ns : list string) : string :=
  match ns with
  | [] => d
  | n :: ns => below (if String.eqb d "/" then "/" ++ n else d ++ "/" ++ n) ns
  end.
(** The script writes "/usr/lib" or "usr/lib" and means [usr; lib]. *)
Definition means (text : string) (ns : list string) : Prop :=
  (forall n, In n ns -> name n) /\ exists s, (forall c, In c (list_ascii_of_string s) -> c = "/"%char) /\ text = s ++ String.concat "/" ns.
(** The directory [root] is there, at the end of a chain of directories. *)
Definition stands (f : fs) (root : string) : Prop :=
  exists rs, rs <> [] /\ (forall n, In n rs -> name n) /\ root = below "/" rs /\ forall a b, rs = (a ++ b)%list -> a <> [] -> f !! below "/" a = Some NDir.
(** There is no symbolic link on the way from [root] to the place, the place itself included or
    not. *)
Definition no_link (f : fs) (p : string) : Prop := forall t, f !! p <> Some (NLink t).
Definition clear_to (f : fs) (root : string) (ns : list string) : Prop :=
  forall a b, ns = (a ++ b)%list -> a <> [] -> b <> [] -> no_link f (below root a).
Definition clear (f : fs) (root : string) (ns : list string) : Prop :=
  forall a b, ns = (a ++ b)%list -> a <> [] -> no_link f (below root a).

(** ** What a program does to the files *)
(** The same outside [S] *)
Definition same_but (S : string -> Prop) (f g : fs) : Prop := forall q, ~ S q -> g !! q = f !! q.
(** In the directory [d], at any depth *)
Definition beneath (d q : string) : Prop := exists r, q = d ++ "/" ++ r.
(** There are no symbolic links in [d]. *)
Definition linkless (f : fs) (d : string) : Prop := forall q, beneath d q -> no_link f q.
(** Some of the missing directories on the way to the place have been made, and nothing else. *)
Definition dirs_made (root : string) (ns : list string) (f g : fs) : Prop :=
  forall q, g !! q = f !! q \/ (f !! q = None /\ g !! q = Some NDir /\ exists a b, ns = (a ++ b)%list /\ a <> [] /\ q = below root a).

(** [g] is [f] with the directories on the way to the place, the place included. *)
Definition with_dirs (root : string) (ns : list string) (f g : fs) : Prop :=
  dirs_made root ns f g /\ forall a b, ns = (a ++ b)%list -> a <> [] -> g !! below root a <> None.
(** Nothing on the way is in the way: only directories, or nothing. *)
Definition passable (root : string) (ns : list string) (f : fs) : Prop :=
  forall a b, ns = (a ++ b)%list -> a <> [] -> f !! below root a = None \/ f !! below root a = Some NDir.
Definition passable_to (root : string) (ns : list string) (f : fs) : Prop :=
  forall a b, ns = (a ++ b)%list -> a <> [] -> b <> [] -> f !! below root a = None \/ f !! below root a = Some NDir.

(** [p] is a place in [root] reached without following links. *)
Definition found (root : string) (f : fs) (p : string) : Prop :=
  exists a n, (forall m, In m (a ++ [n]) -> name m) /\ p = below root (a ++ [n]) /\ clear f root a.
(** A file or a symbolic link *)
Definition plain (n : option node) : bool := match n with Some (NFile _) | Some (NLink _) => true | _ => false end.

(** [g] is [f] with what is at [P], and in it, taken to [Q]. *)
Definition at_or_in (d q : string) : Prop := q = d \/ beneath d q.
Definition taken (f g : fs) (P Q : string) : Prop :=
  g !! Q = f !! P /\
  (forall u, g !! (Q ++ "/" ++ u) = f !! (P ++ "/" ++ u)) /\
  (forall q, at_or_in P q -> ~ at_or_in Q q -> g !! q = None) /\
  (forall q, ~ at_or_in P q -> ~ at_or_in Q q -> g !! q = f !! q).
(** There is nothing in [d]. *)
Definition vacant (f : fs) (d : string) : Prop := forall u, f !! (d ++ "/" ++ u) = None.
