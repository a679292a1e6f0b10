(** * C07, C08, C09: topological sorting and cycles *)
From Coq Require Import String List.
From stdpp Require Import gmap strings relations.
From Verif Require Import Model.Py Model.Graph Spec.GraphSpec Proof.GraphFacts.
Open Scope string_scope.

(** ** C07 *)
(** Whatever the order of iteration, the sorted list has each vertex exactly once, and the
    source of every edge before its target. *)
Theorem C07_topological_sort VD ED (g : graph VD ED) vs adj l : built g -> iterates g vs adj ->
  topological_sort vs adj = Ok l ->
  NoDup l /\ (forall u, In u l <-> u ∈ g_v g) /\ (forall u v, edge g u v -> comes_before l u v).
Proof. exact (fun B I => sort_ok g vs adj (built_gwf g B) I l). Qed.
(** It succeeds exactly on graphs without cycles, and otherwise raises a cycle exception. *)
Theorem C07_succeeds_iff_acyclic VD ED (g : graph VD ED) vs adj : built g -> iterates g vs adj ->
  ((exists l, topological_sort vs adj = Ok l) <-> ~ cyclic g).
Proof. exact (fun B I => sort_iff g vs adj (built_gwf g B) I). Qed.
Theorem C07_fails_only_with_cycle VD ED (g : graph VD ED) vs adj e : built g -> iterates g vs adj ->
  topological_sort vs adj = Err e -> exists c, e = ECycle c.
Proof.
  exact (fun B I H => match sort_fails g vs adj (built_gwf g B) I e H with ex_intro _ c (conj E _) => ex_intro _ c E end).
Qed.

(** ** C08 *)
Theorem C08_cycle_free VD ED (g : graph VD ED) vs adj : built g -> iterates g vs adj ->
  exists b, cycle_free vs adj = Ok b /\ (b = true <-> ~ cyclic g).
Proof. exact (fun B I => cycle_free_spec g vs adj (built_gwf g B) I). Qed.

(** What building a graph does: exactly the vertices and edges that were added. *)
Theorem C08_add_vertex VD ED (g : graph VD ED) u d g' : built g -> add_vertex g u d = Ok g' ->
  u ∉ g_v g /\ g_v g' = {[u]} ∪ g_v g /\ (forall x y, edge g' x y <-> edge g x y).
Proof. exact (fun B H => proj2 (add_vertex_gwf g u d g' (built_gwf g B) H)). Qed.
Theorem C08_add_edge VD ED (g : graph VD ED) u v e du dv g' : built g -> add_edge g u v e du dv = Ok g' ->
  g_v g' = {[u]} ∪ {[v]} ∪ g_v g /\ (forall x y, edge g' x y <-> edge g x y \/ (x = u /\ y = v)).
Proof. exact (fun B H => proj2 (add_edge_gwf g u v e du dv g' (built_gwf g B) H)). Qed.

(** ** C09 *)
Definition of_edges (el : list (string * string)) : graph unit unit :=
  match from_list empty_graph el with Ok g => g | Err _ => empty_graph end.
Lemma of_edges_built el : built (of_edges el).
Proof.
  unfold of_edges, from_list. assert (G : forall g g' : graph unit unit, built g -> foldM (fun g (e : string * string) => add_edge g e.1 e.2 None None None) el g = Ok g' -> built g').
  { induction el as [|e el IH]; intros g g' B; simpl; [intros [= <-]; exact B|]. destruct (add_edge g e.1 e.2 None None None) as [g1|] eqn:E; [|discriminate].
    simpl. apply IH. eapply built_edge; [exact B|exact E]. }
  destruct (foldM _ el empty_graph) eqn:E; [eapply G; [constructor|exact E]|constructor].
Qed.

(** As stated it is false: the exception lists the whole path the search had followed, which
    may start before the cycle. *)
Definition lasso : graph unit unit := of_edges [("app", "lib"); ("lib", "core"); ("core", "lib")].
Theorem C09_report_is_cycle_refuted : exists vs adj c,
  iterates lasso vs adj /\ dfs vs adj = Err (ECycle c) /\ ~ is_cycle lasso c.
Proof.
  exists ["app"; "lib"; "core"], (some_adj lasso), ["app"; "lib"; "core"].
  pose proof (built_gwf _ (of_edges_built [("app", "lib"); ("lib", "core"); ("core", "lib")])) as W. fold lasso in W.
  destruct (some_iterates lasso W) as (_ & I2 & I3). split; [|split].
  - split; [|split; [|exact I3]].
    + apply (bool_decide_eq_true_1 (NoDup ["app"; "lib"; "core"])). vm_compute. reflexivity.
    + intros u. rewrite <- I2. assert (P : Permutation ["app"; "lib"; "core"] (some_vs lasso)).
      { apply NoDup_Permutation; [apply (bool_decide_eq_true_1 (NoDup ["app"; "lib"; "core"])); vm_compute; reflexivity|apply NoDup_elements|].
        intros x. unfold some_vs. rewrite elem_of_elements. assert (V : g_v lasso = list_to_set ["app"; "lib"; "core"]).
        { apply (bool_decide_eq_true_1 (g_v lasso = list_to_set ["app"; "lib"; "core"])). vm_compute. reflexivity. }
        rewrite V. now rewrite elem_of_list_to_set. }
      split; intros H; [eapply Permutation_in; [exact P|exact H]|eapply Permutation_in; [symmetry; exact P|exact H]].
  - vm_compute. reflexivity.
  - intros (_ & _ & u & v & H1 & H2 & vs & H3 & H4). injection H1 as <-. injection H2 as <-.
    assert (X : bool_decide (g_adj lasso !! "core" = Some {["lib"]}) = true) by (vm_compute; reflexivity).
    apply bool_decide_eq_true in X. rewrite X in H3. injection H3 as <-. apply elem_of_singleton in H4. discriminate.
Qed.
(** What it lists is a walk that ends in a cycle (unless a vertex has the empty name), and
    there is a cycle. *)
Theorem C09_report_ends_in_cycle_partial VD ED (g : graph VD ED) vs adj c : built g -> iterates g vs adj ->
  dfs vs adj = Err (ECycle c) ->
  walk g c /\ cyclic g /\ ("" ∉ g_v g -> exists a b, c = (a ++ b)%list /\ is_cycle g b).
Proof. exact (fun B I H => report_spec g vs adj (built_gwf g B) I c H). Qed.

Definition diamond : graph unit unit := of_edges [("app", "gui"); ("app", "net"); ("gui", "core"); ("net", "core")].
Example C07_nontrivial : built diamond /\ iterates diamond (some_vs diamond) (some_adj diamond) /\
  edge diamond "gui" "core" /\ is_ok (topological_sort (some_vs diamond) (some_adj diamond)) = true.
Proof.
  split; [apply of_edges_built|]. split; [apply some_iterates, built_gwf, of_edges_built|]. split; [|vm_compute; reflexivity].
  assert (X : bool_decide (g_adj diamond !! "gui" = Some {["core"]}) = true) by (vm_compute; reflexivity).
  exists {["core"]}. split; [now apply bool_decide_eq_true in X|now apply elem_of_singleton].
Qed.
Example C08_nontrivial :
  cycle_free (some_vs diamond) (some_adj diamond) = Ok true /\ cycle_free (some_vs lasso) (some_adj lasso) = Ok false.
Proof. vm_compute. auto. Qed.

Print Assumptions C07_topological_sort.
Print Assumptions C07_succeeds_iff_acyclic.
Print Assumptions C07_fails_only_with_cycle.
Print Assumptions C08_cycle_free.
Print Assumptions C08_add_vertex.
Print Assumptions C08_add_edge.
Print Assumptions C09_report_is_cycle_refuted.
Print Assumptions C09_report_ends_in_cycle_partial.
