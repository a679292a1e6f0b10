(** * The commands on repositories, as users see them *)
From Coq Require Import String Ascii ZArith List Bool.
From stdpp Require Import gmap strings.
From Verif Require Import Model.Py Model.ItemByRepo Model.Package Model.Search Model.ComponentDB Model.Databases Model.UpdateRepo Spec.ItemByRepoSpec Spec.DatabaseSpec.
Import ListNotations.
Open Scope string_scope.

(** What one database records outside the repositories [names] is the same in [s] and [s'] *)
Definition spared {A} (names : list string) (s s' : dbs) (db : dbs -> shelf A) : Prop :=
  forall n q, place q -> (forall r, q = RName r -> ~ In r names) -> get_item (order_of s') (db s') n q = get_item (order_of s) (db s) n q.
Definition all_spared (names : list string) (s s' : dbs) : Prop :=
  spared names s s' db_pkg /\ spared names s s' db_rev /\ spared names s s' db_src /\ spared names s s' db_p2s /\ spared names s s' db_comp /\
  (forall id lang, spared names s s' (fun d => default ∅ (db_idx d !! (id, lang)))).

(** A path spelt by its components, each of them the name of something in a directory *)
Definition plain_name (c : string) : Prop := c <> "" /\ c <> "." /\ c <> ".." /\ ~ In "/"%char (list_ascii_of_string c).
Fixpoint spelt (cs : list string) : string :=
  match cs with
  | [] => ""
  | c :: cs => "/" ++ c ++ spelt cs
  end.
(** Paths of this machine are spelt so *)
Definition tidy (f : gmap string string) : Prop := forall p c, f !! p = Some c -> exists cs, Forall plain_name cs /\ cs <> [] /\ p = spelt cs.
