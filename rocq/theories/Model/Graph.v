(** * Directed graphs: pisi/data/graph.py and pisi/data/pgraph.py *)
From Coq Require Import String Ascii ZArith List.
From stdpp Require Import gmap strings.
From Verif Require Import Model.Py Model.ItemByRepo Model.Dependency Model.Package Model.Databases.
Open Scope string_scope.

Section digraph.
  (** vertex data and edge data; vertices are strings (every caller passes str(...)) *)
  Context {VD ED : Type}.

  (** graph.py 22-26 *)
  Record graph := mkGraph {
    g_v : gset string;
    g_adj : gmap string (gset string);
    g_vdata : gmap string VD;
    g_edata : gmap string (gmap string ED)
  }.
  Definition empty_graph : graph := mkGraph ∅ ∅ ∅ ∅.

  (** graph.py 46-53.  The data pisi passes are tuples, so [if data] means "not None". *)
  Definition add_vertex (g : graph) (u : string) (data : option VD) : res graph :=
    if bool_decide (u ∈ g_v g) then Err EAssert
    else
      let v := {[u]} ∪ g_v g in
      let a := <[u := ∅]> (g_adj g) in
      match data with
      | Some d => Ok (mkGraph v a (<[u := d]> (g_vdata g)) (<[u := ∅]> (g_edata g)))
      | None => Ok (mkGraph v a (g_vdata g) (g_edata g))
      end.

  (** graph.py 55-63.  [self.__edata[u][v] = edata] is a KeyError if [u] was added without
      data. *)
  Definition add_edge (g : graph) (u v : string) (edata : option ED) (udata vdata : option VD) : res graph :=
    g1 <- (if bool_decide (u ∈ g_v g) then Ok g else add_vertex g u udata) ;;
    g2 <- (if bool_decide (v ∈ g_v g1) then Ok g1 else add_vertex g1 v vdata) ;;
    match g_adj g2 !! u with
    | None => Err EKey
    | Some vs =>
        let a := <[u := {[v]} ∪ vs]> (g_adj g2) in
        match edata with
        | None => Ok (mkGraph (g_v g2) a (g_vdata g2) (g_edata g2))
        | Some e =>
            match g_edata g2 !! u with
            | None => Err EKey
            | Some m => Ok (mkGraph (g_v g2) a (g_vdata g2) (<[u := <[v := e]> m]> (g_edata g2)))
            end
        end
    end.

  (** graph.py 41-44 *)
  Definition from_list (g : graph) (el : list (string * string)) : res graph :=
    foldM (fun g e => add_edge g e.1 e.2 None None None) el g.

  (** graph.py 78-79, 81-85 *)
  Definition has_vertex (g : graph) (u : string) : bool := bool_decide (u ∈ g_v g).
  Definition has_edge (g : graph) (u v : string) : bool :=
    bool_decide (u ∈ g_v g) &&
    match g_adj g !! u with Some vs => bool_decide (v ∈ vs) | None => false end.
End digraph.
Arguments graph : clear implicits.

(** ** Depth-first search *)

Inductive color := White | Green | Black.
Global Instance color_eq_dec : EqDecision color.
Proof. solve_decision. Defined.

(** graph.py 90-97: color, parent, and what the finish hook of topological_sort collects,
    in the order of the calls.  Discovery and finishing times are left out: nothing reads
    them. *)
Record dst := mkDst {
  d_color : gmap string color;
  d_parent : gmap string (option string);
  d_fin : list string
}.

(** graph.py 112-115: [while self.p[u]: u = self.p[u]; cycle.append(u)]; an empty name ends
    the walk like None. *)
Fixpoint chain (fuel : nat) (p : gmap string (option string)) (u : string) : res (list string) :=
  match fuel with
  | O => Err EFuel
  | S fuel =>
      match p !! u with
      | None => Err EKey
      | Some q => if truthy q then match q with
                                   | Some w => l <- chain fuel p w ;; Ok (u :: l)
                                   | None => Ok [u]
                                   end
                  else Ok [u]
      end
  end.

(** graph.py 103-120.  [adj u] is the order in which Python iterates over the set of
    successors of [u]; it is a parameter because Python does not fix it.  The depth of the
    recursion is bounded by [fuel], which is shown to suffice; Python's own recursion limit
    is not modelled. *)
Fixpoint dfs_visit (fuel : nat) (adj : string -> list string) (st : dst) (u : string) : res dst :=
  match fuel with
  | O => Err EFuel
  | S fuel' =>
      st <- foldM (fun st v =>
              match d_color st !! v with
              | None => Err EKey
              | Some White =>
                  dfs_visit fuel' adj (mkDst (d_color st) (<[v := Some u]> (d_parent st)) (d_fin st)) v
              | Some Green =>
                  cyc <- chain (S (size (d_parent st))) (d_parent st) u ;;
                  Err (ECycle (rev cyc))
              | Some Black => Ok st
              end) (adj u) (mkDst (<[u := Green]> (d_color st)) (d_parent st) (d_fin st)) ;;
      Ok (mkDst (<[u := Black]> (d_color st)) (d_parent st) (d_fin st ++ [u])%list)
  end.

(** graph.py 90-101.  [vs] is the order of iteration over the set of vertices. *)
Definition dfs (vs : list string) (adj : string -> list string) : res dst :=
  let st0 := mkDst (list_to_map (map (fun u => (u, White)) vs)) (list_to_map (map (fun u => (u, None)) vs)) [] in
  foldM (fun st u =>
           match d_color st !! u with
           | None => Err EKey
           | Some White => dfs_visit (S (length vs)) adj st u
           | Some _ => Ok st
           end) vs st0.

(** graph.py 122-127: only CycleException is caught *)
Definition cycle_free (vs : list string) (adj : string -> list string) : res bool :=
  match dfs vs adj with Ok _ => Ok true | Err (ECycle _) => Ok false | Err e => Err e end.

(** graph.py 129-133 *)
Definition topological_sort (vs : list string) (adj : string -> list string) : res (list string) :=
  st <- dfs vs adj ;; Ok (rev (d_fin st)).

(** ** Graphs of packages *)

(** pgraph.py 28-79: vertex data (version, release), edge data ('d', dependency or None).
    [db]: the lookup of the package database or the dictionary the graph was made with. *)
Notation pgraph := (graph (string * string) (option dependency)).
Section pgraph.
  Context (get : string -> res package).

  Definition vinfo (p : package) : string * string := (p_version p, p_release p).

  (** pgraph.py 28-30 *)
  Definition pg_add_package (g : pgraph) (n : string) : res pgraph :=
    p <- get n ;; add_vertex g n (Some (vinfo p)).

  (** the "if not x in self.vertices()" lookups of pgraph.py 33-40, 45-52 *)
  Definition data_unless_vertex (g : pgraph) (n : string) : res (option (string * string)) :=
    if bool_decide (n ∈ g_v g) then Ok None else p <- get n ;; Ok (Some (vinfo p)).

  (** pgraph.py 32-42 *)
  Definition pg_add_plain_dep (g : pgraph) (n1 n2 : string) : res pgraph :=
    d1 <- data_unless_vertex g n1 ;;
    d2 <- data_unless_vertex g n2 ;;
    add_edge g n1 n2 (Some None) d1 d2.

  (** pgraph.py 44-54 *)
  Definition pg_add_dep (g : pgraph) (n : string) (dep : dependency) : res pgraph :=
    d1 <- data_unless_vertex g n ;;
    d2 <- data_unless_vertex g (dep_package dep) ;;
    add_edge g n (dep_package dep) (Some (Some dep)) d1 d2.

  (** pgraph.py 56-66: which lookup is made under which condition is mixed up *)
  Definition pg_add_rev_dep (g : pgraph) (dep : dependency) (n : string) : res pgraph :=
    d1 <- (if bool_decide (n ∈ g_v g) then Ok None else p <- get (dep_package dep) ;; Ok (Some (vinfo p))) ;;
    d2 <- (if bool_decide (dep_package dep ∈ g_v g) then Ok None else p <- get n ;; Ok (Some (vinfo p))) ;;
    add_edge g (dep_package dep) n (Some (Some dep)) d1 d2.

  (** pgraph.py 68-79: five arguments to add_biedge, which takes three *)
  Definition pg_add_conflict (g : pgraph) (n c : string) : res pgraph :=
    _ <- data_unless_vertex g n ;;
    _ <- (if bool_decide (n ∈ g_v g) then Ok None else p <- get c ;; Ok (Some (vinfo p))) ;;
    Err EType.
End pgraph.
