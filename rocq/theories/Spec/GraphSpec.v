(** * What sorting a graph and finding cycles means *)
From Coq Require Import String List.
From stdpp Require Import gmap strings relations.
From Verif Require Import Model.Py Model.Graph.
Open Scope string_scope.

(** Edges of a graph. *)
Definition edge {VD ED} (g : graph VD ED) (u v : string) : Prop :=
  exists vs, g_adj g !! u = Some vs /\ v ∈ vs.

(** The graphs that can be built by adding vertices and edges. *)
Inductive built {VD ED} : graph VD ED -> Prop :=
| built_empty : built empty_graph
| built_vertex g u d g' : built g -> add_vertex g u d = Ok g' -> built g'
| built_edge g u v e du dv g' : built g -> add_edge g u v e du dv = Ok g' -> built g'.

(** [vs] and [adj] are orders in which Python may iterate over the vertices of [g] and the
    successors of each vertex. *)
Definition iterates {VD ED} (g : graph VD ED) (vs : list string) (adj : string -> list string) : Prop :=
  NoDup vs /\ (forall u, In u vs <-> u ∈ g_v g) /\
  forall u, u ∈ g_v g -> NoDup (adj u) /\ forall v, In v (adj u) <-> edge g u v.

(** [x] comes somewhere before [y] in [l]. *)
Definition comes_before (l : list string) (x y : string) : Prop :=
  exists a b c, l = (a ++ x :: b ++ y :: c)%list.

(** Some vertex reaches itself in one or more steps. *)
Definition cyclic {VD ED} (g : graph VD ED) : Prop := exists u, tc (edge g) u u.

(** [l] goes along edges *)
Fixpoint walk {VD ED} (g : graph VD ED) (l : list string) : Prop :=
  match l with
  | u :: (v :: _) as l' => edge g u v /\ walk g l'
  | _ => True
  end.
(** [l] is a cycle: a walk along distinct vertices, from the last of which an edge leads
    back to the first. *)
Definition is_cycle {VD ED} (g : graph VD ED) (l : list string) : Prop :=
  NoDup l /\ walk g l /\ exists u v, hd_error l = Some u /\ last l = Some v /\ edge g v u.
