(** * What a drawing of the relations between packages shows *)
From Coq Require Import String Ascii List.
From stdpp Require Import gmap strings relations.
From Verif Require Import Model.Py Model.ItemByRepo Model.Dependency Model.Package Model.Databases
  Model.InstallDB Model.System Spec.PlanSpec.
Open Scope string_scope.

(** The package found under a name where the drawing is told to look: in one repository, in
    any of them, or among the installed packages. *)
Definition filed (s : sys) (r : rarg) (n : string) (p : package) : Prop := get_package (y_db s) n r = Ok p.
(** [x] has a dependency on [y]; with [ign], one that the installed system does not
    satisfy. *)
Definition arrow (s : sys) (r : rarg) (ign : bool) (x y : string) : Prop :=
  exists p d, filed s r x p /\ In d (p_deps p) /\ dep_package d = y /\ (ign = true -> ~ met s d).
(** Named, or reached by arrows from something named. *)
Definition drawn (s : sys) (r : rarg) (ign : bool) (A : list string) (x : string) : Prop :=
  exists a, In a A /\ rtc (arrow s r ign) a x.

(** ** The file *)
(** The ASCII characters that are neither letters, digits, blanks nor control characters. *)
Definition punct (c : ascii) : bool :=
  let n := nat_of_ascii c in
  (Nat.leb 33 n && Nat.leb n 47) || (Nat.leb 58 n && Nat.leb n 64) || (Nat.leb 91 n && Nat.leb n 96) || (Nat.leb 123 n && Nat.leb n 126).
(** The identifier a package has in the file. *)
Fixpoint ident (n : string) : string :=
  match n with
  | EmptyString => EmptyString
  | String c n => String (if punct c then "_"%char else c) (ident n)
  end.
Definition nl : string := String (ascii_of_nat 10) "".
(** A box, labelled with name, version and release, and an arrow. *)
Definition box_line (b : string * package) : string :=
  ident b.1 +:+ "[ label = """ +:+ b.1 +:+ "(" +:+ p_version b.2 +:+ "," +:+ p_release b.2 +:+ ")"" ];" +:+ nl.
Definition arrow_line (a : string * string) : string := ident a.1 +:+ " -> " +:+ ident a.2 +:+ ";" +:+ nl.
Definition drawing (boxes : list (string * package)) (arrows : list (string * string)) : string :=
  "digraph G {" +:+ nl +:+ String.concat "" (map box_line boxes) +:+ nl +:+ String.concat "" (map arrow_line arrows) +:+ nl +:+ "}" +:+ nl.
