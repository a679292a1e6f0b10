(** * Vocabulary for "how large is a package" *)
From Coq Require Import String List Arith.
From stdpp Require Import gmap strings.
From Verif Require Import Model.Py Model.Contents Spec.PathSpec Spec.ContentsSpec.
Import ListNotations.
Open Scope string_scope.

(** A file is as large as its contents, a link as the text it holds *)
Definition weight (x : node) : nat :=
  match x with
  | NFile content => String.length content
  | NLink target _ => String.length target
  | NDir _ => 0
  end.
Definition total {A} (w : A -> nat) (l : list A) : nat := fold_right (fun a s => w a + s) 0 l.
(** All that a build produced, each once *)
Definition enumerates (t : node) (l : list (list string * node)) : Prop :=
  List.NoDup l /\ forall f x, In (f, x) l <-> produced t f x.
Definition link_to_directory (x : node) : Prop := exists target, x = NLink target ToDir.
(** What an entry of a package stands for covers the file.  Links to directories count only if they
    are themselves what the entry stands for. *)
Definition counts (pi : pathinfo) (f : list string) (x : node) : Prop :=
  exists p q, pattern pi p /\ matches_path p q /\ covers q f /\ (link_to_directory x -> q = f).

(** No file is found by two entries of the list *)
Definition once (t : node) (pinfos : list pathinfo) : Prop :=
  forall a b before between after f x, pinfos = (before ++ a :: between ++ b :: after)%list -> produced t f x -> counts a f x -> counts b f x -> False.
(** Nothing that the package's entries find is left to another package *)
Definition undivided (t : node) (pkgs : list (list pathinfo)) (i : nat) : Prop :=
  forall f x q, produced t f x -> found_under pkgs i q -> covers q f -> ~ begins_like_another pkgs i f.
(** No link to a directory lies below what an entry stands for *)
Definition no_links_below (t : node) (pkgs : list (list pathinfo)) (i : nat) : Prop :=
  forall f x q, produced t f x -> found_under pkgs i q -> covers q f -> link_to_directory x -> q = f.
