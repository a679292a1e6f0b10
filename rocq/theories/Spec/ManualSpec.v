(** * Manual pages in action scripts, as packagers see them *)
From Coq Require Import String Ascii ZArith List Bool.
From stdpp Require Import gmap strings.
From Verif Require Import Model.Py Model.InstallDB Model.Path Model.Fs Model.Trace Model.Actions Spec.PathSpec Spec.ActionsSpec Spec.DocumentsSpec.
Import ListNotations.
Open Scope string_scope.

(** somewhere/foo.1 is a page of section 1. *)
Definition of_section (p sec : string) : Prop :=
  exists d n, p = d ++ n ++ "." ++ sec /\ (d = "" \/ ends_in_slash d) /\ free_of "/" n /\ free_of "/" sec /\ free_of "." sec.
Definition section_dir (sec : string) : list string := ["usr"; "share"; "man"; "man" ++ sec].
(** A section and a path, with the contents of the page; of what is not a file, nothing is taken. *)
Notation entry := (string * string * option string)%type.
Inductive as_page (cwd root : string) (f : fs) (p : string) : list entry -> Prop :=
| a_page sec c : of_section p sec -> always root f (fun g => os_stat cwd g p = Some (NFile c)) -> as_page cwd root f p [(sec, p, Some c)]
| no_page sec : of_section p sec -> always root f (fun g => forall c, os_stat cwd g p <> Some (NFile c)) -> as_page cwd root f p [(sec, p, None)].
Definition pattern {A} (cwd root : string) (f : fs) (expand : fs -> string -> list string) (gives : string -> list A -> Prop) (s : string) (l : list A) : Prop :=
  exists ps, always root f (fun g => glob cwd expand g s = ps) /\ collected gives ps l.

Definition page_place (root sec p : string) : string := below root (section_dir sec ++ [basename p]).
(** Each page is in the directory of its section (of those for one place, the last), the
    directories are there, and the rest is as before. *)
Definition manuals (root : string) (l : list entry) (f h : fs) : Prop :=
  (forall a sec p c b, l = (a ++ (sec, p, Some c) :: b)%list -> (forall sec' q e, In (sec', q, Some e) b -> sec' = sec -> basename q <> basename p) ->
     h !! page_place root sec p = Some (NFile c)) /\
  (forall sec p o, In (sec, p, o) l -> h !! below root (section_dir sec) = Some NDir) /\
  h !! below root ["usr"; "share"; "man"] = Some NDir /\
  forall q, (forall sec p c, In (sec, p, Some c) l -> q <> page_place root sec p) ->
    h !! q = f !! q \/
    f !! q = None /\ h !! q = Some NDir /\
      exists ds a b, (ds = ["usr"; "share"; "man"] \/ exists sec p o, In (sec, p, o) l /\ ds = section_dir sec) /\ ds = (a ++ b)%list /\ q = below root a.
(** There is room for the directories and pages. *)
Definition manual_room (root : string) (l : list entry) (f : fs) : Prop :=
  passable root ["usr"; "share"; "man"] f /\
  forall sec p o, In (sec, p, o) l -> name (basename p) /\ passable root (section_dir sec) f /\ f !! page_place root sec p <> Some NDir.
