(** * Documentation in action scripts, as packagers see it *)
From Coq Require Import String Ascii ZArith List Bool.
From stdpp Require Import gmap strings.
From Verif Require Import Model.Py Model.InstallDB Model.Path Model.Fs Model.Trace Model.Actions Spec.PathSpec Spec.ActionsSpec.
Import ListNotations.
Open Scope string_scope.

(** Whatever is done in the install directory [root] *)
Definition always (root : string) (f : fs) (P : fs -> Prop) : Prop := forall g, same_but (beneath root) f g -> P g.

(** The files for a list of things: those for the first one, then those for the second one... *)
Inductive collected {A B} (gives : A -> list B -> Prop) : list A -> list B -> Prop :=
| col_nil : collected gives [] []
| col_cons x l a b : gives x a -> collected gives l b -> collected gives (x :: l) (a ++ b)%list.

(** A file: its path and contents *)
Notation file := (string * string)%type.

Section spec.
  Context (cwd root : string) (f : fs) (walked : fs -> string -> list string) (expand : fs -> string -> list string).

  (** A path found by a pattern is a file, or it is left out. *)
  Inductive as_file (p : string) : list file -> Prop :=
  | is_file c : always root f (fun g => os_stat cwd g p = Some (NFile c)) -> as_file p [(p, c)]
  | no_file : always root f (fun g => forall c, os_stat cwd g p <> Some (NFile c)) -> as_file p [].

  (** The same for copying: a file, not a link to one, whose name is not taken for a pattern *)
  Inductive as_copy (p : string) : list file -> Prop :=
  | is_copy c : has_magic p = false -> always root f (fun g => os_lstat cwd g p = Some (NFile c)) -> as_copy p [(p, c)]
  | no_copy : always root f (fun g => os_stat cwd g p = None) -> as_copy p [].

  (** The name of a page or a picture: something.html... *)
  Definition page (p : string) : Prop :=
    exists d n c e, p = d ++ n ++ e /\ (d = "" \/ ends_in_slash d) /\ free_of "/" n /\ In c (list_ascii_of_string n) /\ c <> "."%char /\
                    In e [".png"; ".gif"; ".html"; ".htm"; ".jpg"; ".css"; ".js"].
  (** Those of the files which are pages *)
  Inductive pages : list file -> list file -> Prop :=
  | pages_nil : pages [] []
  | pages_take p c l r : page p -> pages l r -> pages ((p, c) :: l) ((p, c) :: r)
  | pages_skip p c l r : ~ page p -> pages l r -> pages ((p, c) :: l) r.
  (** A path found by a pattern of dohtml is a page, or a directory with pages. *)
  Inductive as_html (p : string) : list file -> Prop :=
  | html_page c : always root f (fun g => os_stat cwd g p = Some (NFile c)) -> page p -> as_html p [(p, c)]
  | html_other c : always root f (fun g => os_stat cwd g p = Some (NFile c)) -> ~ page p -> as_html p []
  | html_cvs : always root f (fun g => os_stat cwd g p = Some NDir) -> basename p = "CVS" -> as_html p []
  | html_tree l r : always root f (fun g => os_stat cwd g p = Some NDir) -> basename p <> "CVS" ->
      always root f (fun g => walked g p = map fst l) -> (forall q c, In (q, c) l -> always root f (fun g => os_stat cwd g q = Some (NFile c))) ->
      pages l r -> as_html p r.

  (** A source: a pattern, or a path *)
  Definition source (gives : string -> list file -> Prop) (s : string) (l : list file) : Prop :=
    exists ps, always root f (fun g => glob cwd expand g s = ps) /\ collected gives ps l.
End spec.

(** [h] is [g] with the files in the directory; of those with the same name, the last one *)
Definition filled (root : string) (ds : list string) (l : list file) (g h : fs) : Prop :=
  (forall a p c b, l = (a ++ (p, c) :: b)%list -> (forall q e, In (q, e) b -> basename q <> basename p) ->
     h !! below root (ds ++ [basename p]) = Some (NFile c)) /\
  (forall q, (forall p c, In (p, c) l -> q <> below root (ds ++ [basename p])) -> h !! q = g !! q).
(** There is room for them: what is in their place now is fine. *)
Definition room_for (fine : option node -> Prop) (root : string) (ds : list string) (l : list file) (f : fs) : Prop :=
  forall p c, In (p, c) l -> name (basename p) /\ fine (f !! below root (ds ++ [basename p])).
(** install replaces whatever is there, but not a directory; copying writes into files *)
Notation room := (room_for (fun n => n <> Some NDir)).
Notation space := (room_for (fun n => n = None \/ exists c, n = Some (NFile c))).
