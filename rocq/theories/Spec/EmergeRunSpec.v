(** * What emerging is to do *)
From Coq Require Import String Ascii ZArith List.
From stdpp Require Import gmap strings.
From Verif Require Import Model.Py Model.Search Model.ItemByRepo Model.Package Model.ComponentDB Model.Databases Model.System
  Spec.PathSpec Spec.UriSpec Spec.ItemByRepoSpec Spec.DatabaseSpec Model.EmergeRun.
Import ListNotations.
Open Scope string_scope.

(** What was asked for: names that are no components, and the sources of those that are *)
Definition asked (s : sys) (A : list string) (x : string) : Prop :=
  exists a, In a A /\
    ((has_component (db_comp (y_db s)) a RRepos = Ok false /\ x = a) \/
     (has_component (db_comp (y_db s)) a RRepos = Ok true /\ exists r, In r (order_of (y_db s)) /\ lists_source (y_db s) a (RName r) x)).

(** Where a source is whose address in the index is [uri]: at [uri] itself, or below the
    directory of the index *)
Inductive leads_to (index uri : string) : string -> Prop :=
| leads_address s h p : uri = s ++ "://" ++ h ++ "/" ++ p -> scheme_text s -> host_text h -> path_text ("/" ++ p) -> leads_to index uri uri
| leads_absolute p : uri = "/" ++ p -> local_text uri -> leads_to index uri uri
| leads_below d file : relative_path uri -> local_text uri -> index = d ++ "/" ++ file -> free_of "/" file -> d <> "" -> ~ ends_in_slash d ->
    leads_to index uri (d ++ "/" ++ uri).

Section s.
  Context (s : sys) (index_uri : string -> string) (source_uri : string -> string -> string)
          (builds : history -> string -> res (list string)) (installs : history -> string -> res unit).

  (** The first repository that has the source *)
  Definition held_by (x r : string) : Prop :=
    exists pre post sp, order_of (y_db s) = (pre ++ r :: post)%list /\ get_item (order_of (y_db s)) (db_src (y_db s)) x (RName r) = Ok sp /\
      forall r', In r' pre -> missing (get_item (order_of (y_db s)) (db_src (y_db s)) x (RName r')).
  (** The specification a name stands for *)
  Inductive stands_at : string -> string -> Prop :=
  | stands_itself x t : x = t ++ ".xml" -> stands_at x x
  | stands_in x r a : (forall t, x <> t ++ ".xml") -> held_by x r -> leads_to (index_uri r) (source_uri r x) a -> stands_at x a.

  (** Package files installed one after the other *)
  Inductive all_installed : history -> list string -> history -> Prop :=
  | installed_none h : all_installed h [] h
  | installed_one h f fs h' : installs h f = Ok tt -> all_installed (h ++ [Installed f]) fs h' -> all_installed h (f :: fs) h'.
  (** Sources built one after the other, each followed by the installation of all it gave *)
  Inductive emerged : history -> list string -> history -> Prop :=
  | emerged_none h : emerged h [] h
  | emerged_one h x a fs h' xs h'' : stands_at x a -> builds h a = Ok fs -> (forall f, In f fs -> exists t, f = t ++ ".pisi") ->
      all_installed (h ++ [Built a]) fs h' -> emerged h' xs h'' -> emerged h (x :: xs) h''.

  (** [x] cannot be emerged after [h]: [h'] is what is done of it *)
  Inductive stuck : history -> string -> exn -> history -> Prop :=
  | stuck_unknown h x : (forall t, x <> t ++ ".xml") -> (forall r, ~ held_by x r) -> stuck h x EError h
  | stuck_build h x a e : stands_at x a -> builds h a = Err e -> stuck h x e h
  | stuck_name h x a fs f : stands_at x a -> builds h a = Ok fs -> In f fs -> (forall t, f <> t ++ ".pisi") -> stuck h x EError (h ++ [Built a])
  | stuck_install h x a fs gs f e h' : stands_at x a -> builds h a = Ok (gs ++ f :: fs)%list -> (forall g, In g (gs ++ f :: fs)%list -> exists t, g = t ++ ".pisi") ->
      all_installed (h ++ [Built a]) gs h' -> installs h' f = Err e -> stuck h x e h'.
End s.
