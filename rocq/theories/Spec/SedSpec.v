(** * Files edited by action scripts, as packagers see them *)
From Coq Require Import String Ascii ZArith List Bool.
From stdpp Require Import gmap strings.
From Verif Require Import Model.Py Model.InstallDB Model.Path Model.Fs Spec.PathSpec Spec.ActionsSpec Spec.PipesSpec.
Import ListNotations.
Open Scope string_scope.

(** The lines of a text, each with its newline character, if it has one *)
Definition text_lines (c : string) (ls : list string) : Prop :=
  c = String.concat "" ls /\ exists a r, ls = (a ++ r)%list /\ (forall l, In l a -> whole_line l) /\ (r = [] \/ exists x, r = [x] /\ rest_line x).
(** [c'] is [c] with each line replaced *)
Definition edited (sub : string -> option string) (c c' : string) : Prop :=
  exists ls outs, text_lines c ls /\ Forall2 (fun l o => sub l = Some o) ls outs /\ c' = String.concat "" outs.

(** The path [p] is that of the file [n] in the directory [dir]. *)
Record target := { t_path : string; t_dir : string; t_name : string; t_old : string; t_new : string }.
Definition place_of (t : target) : string := below (t_dir t) [t_name t].
Definition to_edit (cwd : string) (sub : string -> option string) (f : fs) (t : target) : Prop :=
  stands f (t_dir t) /\ name (t_name t) /\ (t_path t = place_of t \/ t_path t = t_name t /\ t_dir t = cwd) /\
  f !! place_of t = Some (NFile (t_old t)) /\ edited sub (t_old t) (t_new t).
(** Where the copy goes; no directory is there *)
Definition backup_of (t : target) : string := place_of t ++ ".bak".
Definition backup_room (f : fs) (t : target) : Prop := f !! backup_of t <> Some NDir.
(** [h] is [f] with the files edited, and without what was where the copies go *)
Definition all_edited (l : list target) (f h : fs) : Prop :=
  (forall t, In t l -> h !! place_of t = Some (NFile (t_new t)) /\ h !! backup_of t = None) /\
  forall q, (forall t, In t l -> q <> place_of t /\ q <> backup_of t) -> h !! q = f !! q.
