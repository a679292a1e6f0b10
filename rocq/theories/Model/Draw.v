(** * Drawing the relations between packages: pisi/data/graph.py 134-166,
      pisi/data/pgraph.py 81-83, pisi/cli/graph.py 57-83 *)
From Coq Require Import String Ascii ZArith List.
From stdpp Require Import gmap strings.
From Verif Require Import Model.Py Model.ItemByRepo Model.Dependency Model.Package Model.Databases
  Model.InstallDB Model.System Model.Graph Model.Plan.
Open Scope string_scope.

(** Python's string.punctuation *)
Definition punctuation : string := "!""#$%&'()*+,-./:;<=>?@[\]^_`{|}~".

(** [c in s], for one character *)
Fixpoint char_in (c : ascii) (s : string) : bool :=
  match s with EmptyString => false | String d s => Ascii.eqb c d || char_in c s end.

(** graph.py 135-139 *)
Definition repl (c : ascii) : ascii := if char_in c punctuation then "_"%char else c.
Fixpoint map_chars (f : ascii -> ascii) (s : string) : string :=
  match s with EmptyString => EmptyString | String c s => String (f c) (map_chars f s) end.

(** graph.py 134-140.  pisi.util.concat is a reduce without initial value (util/fun.py
    27-29): TypeError for the empty name. *)
Definition id_str (u : string) : res string :=
  match u with EmptyString => Err EType | String _ _ => Ok (map_chars repl u) end.

Definition newline : string := String (ascii_of_nat 10) "".

(** graph.py 144-147 with pgraph.py 81-83: one vertex.  A vertex without data is a
    KeyError. *)
Definition draw_vertex (g : pgraph) (out : string) (u : string) : res string :=
  i <- id_str u ;;
  match g_vdata g !! u with
  | None => Err EKey
  | Some (v, r) =>
      Ok (out +:+ i +:+ "[ label = """ +:+ u +:+ "(" +:+ v +:+ "," +:+ r +:+ ")"" ]" +:+ ";" +:+ newline)
  end.

(** graph.py 150-153: one edge; write_graphviz_elabel (165-166) does nothing *)
Definition draw_edge (u : string) (out : string) (v : string) : res string :=
  i <- id_str u ;; j <- id_str v ;; Ok (out +:+ i +:+ " -> " +:+ j +:+ ";" +:+ newline).

(** graph.py 142-160: what has been written to the file at the end.  [vs], [adj]: the orders
    in which Python goes through vertices and successors; line 149 goes through the same
    unchanged set of vertices as line 144. *)
Definition write_graphviz (g : pgraph) (vs : list string) (adj : string -> list string) : res string :=
  out <- foldM (draw_vertex g) vs ("digraph G {" +:+ newline) ;;
  out <- foldM (fun out u => foldM (draw_edge u) (adj u) out) vs (out +:+ newline) ;;
  Ok (out +:+ newline +:+ "}" +:+ newline).

(** cli/graph.py 80-83 once the packages [a] and the place [repo] have been determined. *)
Definition graph_command (s : sys) (it : iter) (repo : rarg) (ignore_installed : bool) (a : list string) : res string :=
  g <- package_graph s it repo ignore_installed a ;;
  write_graphviz g (it_vs it g) (it_adj it g).
