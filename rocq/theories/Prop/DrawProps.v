(** * C65, C66: drawing the relations between packages *)
From Coq Require Import String Ascii List.
From stdpp Require Import gmap strings relations.
From Verif Require Import Proof.GraphFacts.
From Verif Require Import Model.Py Model.ItemByRepo Model.Dependency Model.Package Model.Databases
  Model.InstallDB Model.System Model.Graph Model.Plan Model.Draw
  Spec.ItemByRepoSpec Spec.DependencySpec Spec.DatabaseSpec Spec.SystemSpec Spec.GraphSpec Spec.PlanSpec Spec.DrawSpec
  Proof.RevDepFacts Proof.SystemFacts Proof.PlanFacts Proof.DrawFacts.
Require Import Verif.Prop.PlanProps.
Open Scope string_scope.
Open Scope list_scope.

(** ** C65 *)
(** The file written: one box for every package named or depended upon, directly or not, with
    the name, version and release found in the place asked for, one arrow for every
    dependency between them, and nothing else, whatever the order of iteration over sets. *)
Theorem C65_drawing_exact s it r ign A text : system s -> any_order it -> r <> RAll -> List.NoDup A ->
  graph_command s it r ign A = Ok text ->
  exists boxes arrows, text = drawing boxes arrows /\ List.NoDup (map fst boxes) /\ List.NoDup arrows /\
    (forall n, In n (map fst boxes) <-> drawn s r ign A n) /\ (forall n p, In (n, p) boxes -> filed s r n p) /\
    (forall x y, In (x, y) arrows <-> drawn s r ign A x /\ arrow s r ign x y).
Proof. intros H1 H2 H3 H4. exact (command_ok s it r ign A H1 H2 H3 H4 text). Qed.
Print Assumptions C65_drawing_exact.
(** It can be written exactly if every package to be drawn is found there, has a name, and,
    when satisfied dependencies are to be left out, has dependencies that can be compared
    with what is installed. *)
Theorem C65_drawing_iff s it r ign A : system s -> any_order it -> r <> RAll -> List.NoDup A ->
  ((exists text, graph_command s it r ign A = Ok text) <->
   forall x, drawn s r ign A x -> x <> "" /\ exists p, filed s r x p /\ forall d, In d (p_deps p) -> ign = true -> answerable s d).
Proof. exact (command_iff s it r ign A). Qed.
Print Assumptions C65_drawing_iff.
Theorem C65_drawing_fails_only_so s it r ign A e : system s -> any_order it -> r <> RAll -> List.NoDup A ->
  graph_command s it r ign A = Err e ->
  (exists x, drawn s r ign A x /\ (forall p, ~ filed s r x p) /\ e = EError) \/
  (exists x p d, ign = true /\ drawn s r ign A x /\ filed s r x p /\ In d (p_deps p) /\ ~ answerable s d /\ e = EValue) \/
  (drawn s r ign A "" /\ e = EType).
Proof. intros H1 H2 H3 H4. exact (command_fails s it r ign A H1 H2 H3 H4 e). Qed.
Print Assumptions C65_drawing_fails_only_so.

Fixpoint lines (l : list string) : string := match l with [] => "" | x :: l => x +:+ nl +:+ lines l end.
(** "lib" is installed in version 1; the repository offers "app", which asks for lib 2. *)
Example C65_nontrivial : system shop /\ any_order forth /\ List.NoDup ["app"] /\
  graph_command shop forth RRepos false ["app"] = Ok (lines
    ["digraph G {"; "lib[ label = ""lib(2,2)"" ];"; "app[ label = ""app(1,1)"" ];"; "core[ label = ""core(1,1)"" ];"; "";
     "lib -> core;"; "app -> lib;"; "app -> core;"; ""; "}"]) /\
  graph_command shop back RInst true ["lib"] = Ok (lines ["digraph G {"; "lib[ label = ""lib(1,1)"" ];"; ""; ""; "}"]) /\
  graph_command shop forth RInst false ["app"] = Err EError.
Proof.
  split; [apply shop_system|]. split; [apply forth_any|]. split; [repeat constructor; intros []|]. split; [vm_compute; reflexivity|]. split; vm_compute; reflexivity.
Qed.

(** ** C66 *)
(** Two packages whose names differ in punctuation are drawn as one box. *)
Definition twins : sys := with_repo [v_pkg "gtk-2" "1" "1" []; v_pkg "gtk+2" "7" "3" [dep_on "gtk-2"]] [].
Lemma twins_system : system twins.
Proof. apply with_repo_system. intros d []. Qed.
Theorem C66_shared_box_refuted : exists s it A text, system s /\ any_order it /\ List.NoDup A /\ graph_command s it RRepos false A = Ok text /\
  text = lines ["digraph G {"; "gtk_2[ label = ""gtk-2(1,1)"" ];"; "gtk_2[ label = ""gtk+2(7,3)"" ];"; ""; "gtk_2 -> gtk_2;"; ""; "}"] /\
  drawn s RRepos false A "gtk+2" /\ drawn s RRepos false A "gtk-2".
Proof.
  exists twins, forth, ["gtk+2"; "gtk-2"], (lines ["digraph G {"; "gtk_2[ label = ""gtk-2(1,1)"" ];"; "gtk_2[ label = ""gtk+2(7,3)"" ];"; ""; "gtk_2 -> gtk_2;"; ""; "}"]).
  split; [apply twins_system|]. split; [apply forth_any|]. split; [repeat constructor; [intros [K|[]]; discriminate K|intros []]|]. split; [vm_compute; reflexivity|]. split; [reflexivity|].
  split; [exists "gtk+2"|exists "gtk-2"]; (split; [simpl; auto|apply rtc_refl]).
Qed.
Print Assumptions C66_shared_box_refuted.
(** A name given twice makes the command fail. *)
Theorem C66_repeated_name_refuted : exists s it, system s /\ any_order it /\
  (exists text, graph_command s it RRepos false ["core"] = Ok text) /\ graph_command s it RRepos false ["core"; "core"] = Err EAssert.
Proof.
  exists shop, forth. split; [apply shop_system|]. split; [apply forth_any|]. split; [|vm_compute; reflexivity].
  exists (lines ["digraph G {"; "core[ label = ""core(1,1)"" ];"; ""; ""; "}"]). vm_compute. reflexivity.
Qed.
Print Assumptions C66_repeated_name_refuted.
(** If the names consist of letters, digits and underscores, every package has a box of its
    own. *)
Theorem C66_own_box_partial s it r ign A text : system s -> any_order it -> r <> RAll -> List.NoDup A ->
  graph_command s it r ign A = Ok text -> (forall n, drawn s r ign A n -> wordlike n = true) ->
  exists boxes arrows, text = drawing boxes arrows /\ List.NoDup (map (fun b => ident b.1) boxes) /\
    forall n, In n (map (fun b => ident b.1) boxes) <-> drawn s r ign A n.
Proof. exact (own_box s it r ign A text). Qed.
Print Assumptions C66_own_box_partial.
Example C66_nontrivial : forall n, drawn shop RRepos false ["core"] n -> wordlike n = true.
Proof.
  intros n (a & [<-|[]] & H). inversion H as [|? y ? (p & d & F & D & _) _]; subst; [reflexivity|]. vm_compute in F. injection F as <-. destruct D.
Qed.
