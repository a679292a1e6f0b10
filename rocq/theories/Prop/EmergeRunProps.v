(** * C100: emerging *)
From Coq Require Import String Ascii ZArith List.
From stdpp Require Import gmap strings.
From Verif Require Import Model.Py Model.Search Model.Trace Model.Fetch Model.Uri Model.ItemByRepo Model.Package Model.ComponentDB Model.Databases Model.InstallDB Model.System.
From Verif Require Import Spec.PathSpec Spec.UriSpec Spec.ItemByRepoSpec Spec.DatabaseSpec Spec.SystemSpec Proof.UriFacts Proof.SystemFacts.
From Verif Require Import Model.EmergeRun Spec.EmergeRunSpec Proof.EmergeRunFacts.
Require Import Verif.Prop.EmergeProps.
Import ListNotations.
Open Scope string_scope.

Section c.
  Context (s : sys) (index_uri : string -> string) (source_uri : string -> string -> string) (set_order : gset string -> list string)
          (builds : history -> string -> res (list string)) (installs : history -> string -> res unit).
  Notation run := (emerge s index_uri source_uri set_order builds installs).
  Context (H_addresses : forall r x, held_by s x r -> exists a, leads_to (index_uri r) (source_uri r x) a) (H_reachable : reachable (y_db s))
          (H_set : forall X, List.NoDup (set_order X) /\ forall x, In x (set_order X) <-> x ∈ X).

  (** C100.  With --ignore-dependency each source asked for is built, once, from where the first
      repository that has it says, and all the packages it gave are installed before the next is
      built.  The first failure ends it, with what was done before in place.  If pisi was among
      them the end is the request to start again.  Missing: without that option; see below. *)
  Theorem C100_emerged_partial A h : let p := run true false A in
    exists order, List.NoDup order /\ (forall x, In x order <-> asked s A x) /\
      ((emerged s index_uri source_uri builds installs h order (final p h) /\ ~ asked s A "pisi" /\ result p h = Ok tt) \/
       (emerged s index_uri source_uri builds installs h order (final p h) /\ asked s A "pisi" /\ result p h = Err EUpgradePisi) \/
       (exists before x after e h1, order = (before ++ x :: after)%list /\ emerged s index_uri source_uri builds installs h before h1 /\
          stuck s index_uri source_uri builds installs h1 x e (final p h) /\ result p h = Err e)).
  Proof. exact (emerge_runs s index_uri source_uri set_order builds installs H_addresses H_reachable H_set A h). Qed.
  (** The cases exclude each other: what is stuck cannot be emerged. *)
  Theorem C100_exclusive h before x after h' h1 e h2 : emerged s index_uri source_uri builds installs h (before ++ x :: after) h' ->
    emerged s index_uri source_uri builds installs h before h1 -> stuck s index_uri source_uri builds installs h1 x e h2 -> False.
  Proof. exact (done_not_stuck s index_uri source_uri builds installs h before x after h' h1 e h2). Qed.
  (** A dry run does nothing. *)
  Theorem C100_dry_run A h ignore_dependency : fst (run ignore_dependency true A h) = [] /\ (ignore_dependency = true -> result (run ignore_dependency true A) h = Ok tt).
  Proof. exact (emerge_dry s index_uri source_uri set_order builds installs H_reachable A h ignore_dependency). Qed.
  (** Without the option nothing is ever built or installed, and unless nothing was asked for, it
      fails. *)
  Theorem C100_never_refuted A h dry_run : fst (run false dry_run A h) = [] /\ (result (run false dry_run A) h = Ok tt <-> forall x, ~ asked s A x).
  Proof. exact (emerge_never s index_uri source_uri set_order builds installs H_addresses H_reachable H_set A h dry_run). Qed.
End c.
Print Assumptions C100_emerged_partial.
Print Assumptions C100_exclusive.
Print Assumptions C100_dry_run.
Print Assumptions C100_never_refuted.

(** ** A case *)
Definition at_main (r : string) : string := "http://" ++ r ++ "/pisi-index.xml".
Definition spec_of (r x : string) : string := "src/pspec.xml".
Definition gives (h : history) (a : string) : res (list string) := Ok ["/out/a-1-1.pisi"; "/out/b-1-1.pisi"].
Definition takes (h : history) (f : string) : res unit := Ok tt.
Definition refuses (h : history) (f : string) : res unit := if String.eqb f "/out/b-1-1.pisi" then Err EError else Ok tt.
Example C100_nontrivial : reachable (y_db works) /\ asked works ["app"] "app" /\
  (forall r x, held_by works x r -> leads_to (at_main r) (spec_of r x) "http://main/src/pspec.xml") /\
  final (emerge works at_main spec_of elements gives takes true false ["app"]) [] = [Built "http://main/src/pspec.xml"; Installed "/out/a-1-1.pisi"; Installed "/out/b-1-1.pisi"] /\
  result (emerge works at_main spec_of elements gives takes true false ["app"]) [] = Ok tt /\
  result (emerge works at_main spec_of elements gives refuses true false ["app"]) [] = Err EError /\
  final (emerge works at_main spec_of elements gives refuses true false ["app"]) [] = [Built "http://main/src/pspec.xml"; Installed "/out/a-1-1.pisi"] /\
  result (emerge works at_main spec_of elements gives takes true false ["nothing"]) [] = Err EError /\
  result (emerge works at_main spec_of elements gives takes false false ["app"]) [] = Err EAttribute.
Proof.
  split; [exact (yi_reach _ (lived_yinv _ _ works_system))|]. split.
  { exists "app". split; [now left|]. left. split; vm_compute; reflexivity. }
  split.
  { intros r x (pre & post & sp & E & _). vm_compute in E. destruct pre as [|? [|? pre]]; [|discriminate E|discriminate E]. injection E as <- _.
    apply (leads_below _ _ "http://main" "pisi-index.xml"); try reflexivity; try discriminate.
    - apply (rel_under "src" "pspec.xml"); [discriminate|cbv; intuition discriminate|apply rel_name; [discriminate|cbv; intuition discriminate]].
    - split; [intros c [<-|[<-|[]]]; cbv; intuition discriminate|]. split; [intros [r K]; discriminate K|].
      intros a b K. exfalso. assert (In ":"%char (list_ascii_of_string "src/pspec.xml")) as I by (change (spec_of "main" x) with "src/pspec.xml" in K; rewrite K, UriFacts.los_app; apply in_app_iff; right; now left).
      cbv in I. intuition discriminate.
    - cbv; intuition discriminate.
    - intros [t K]. do 11 (destruct t as [|? t]; [discriminate K|injection K as ? K; subst]); destruct t; discriminate K. }
  repeat split; vm_compute; reflexivity.
Qed.
