(** * C56: planning an emerge *)
From Coq Require Import String List ZArith.
From stdpp Require Import gmap strings relations.
From Verif Require Import Proof.GraphFacts.
From Verif Require Import Model.Py Model.ItemByRepo Model.Dependency Model.Package Model.Databases
  Model.InstallDB Model.System Model.Graph Model.Plan Model.Emerge
  Spec.ItemByRepoSpec Spec.DependencySpec Spec.DatabaseSpec Spec.SystemSpec Spec.GraphSpec Spec.PlanSpec Spec.EmergeSpec
  Proof.RevDepFacts Proof.SystemFacts Proof.PlanFacts Proof.UpgradeFacts Proof.EmergeFacts.
Require Import Verif.Prop.PlanProps.
Open Scope string_scope.

(** The function never gets beyond its first statement: there is no module pisi.graph.  What
    follows is about the rest of it. *)
Theorem C56_never_plans_refuted A rebuild_all : exists e, plan_emerge A rebuild_all = Err e.
Proof. exists EAttribute. reflexivity. Qed.
Print Assumptions C56_never_plans_refuted.

(** The plan has the requested sources and, for every dependency of a source in it that
    neither the system nor a repository satisfies, the source of the package depended upon,
    earlier. *)
Theorem C56_sources_partial s it A inst build : system s -> any_order it -> emerge_body s it A = Ok (inst, build) ->
  NoDup build /\ (forall x, In x A -> In x build) /\
  (forall x sp d, In x build -> source_of_name s x sp -> source_dep sp d -> ~ met s d -> ~ repo_meets s d ->
     exists y, built_from s (dep_package d) y /\ In y build /\ (y <> x -> comes_before build y x)).
Proof. exact (emerge_sources s it A inst build). Qed.
Print Assumptions C56_sources_partial.
(** Each dependency a repository can satisfy is in the list of packages to install, with all
    that package needs, earlier. *)
Theorem C56_packages_partial s it A inst build : system s -> any_order it -> emerge_body s it A = Ok (inst, build) ->
  NoDup inst /\
  (forall x sp d, In x build -> source_of_name s x sp -> source_dep sp d -> ~ met s d -> repo_meets s d -> In (dep_package d) inst) /\
  (forall x p d, In x inst -> offered s x p -> In d (p_deps p) -> ~ met s d -> In (dep_package d) inst /\ comes_before inst (dep_package d) x).
Proof. exact (emerge_packages s it A inst build). Qed.
Print Assumptions C56_packages_partial.
(** Nothing else is in either list. *)
Theorem C56_minimal_partial s it A inst build : system s -> any_order it -> emerge_body s it A = Ok (inst, build) ->
  (forall x, In x build <-> to_build s A x) /\
  exists wanted, (forall p, In p wanted <-> to_install s A p) /\ forall p, In p inst <-> needed s wanted p.
Proof. exact (emerge_exact s it A inst build). Qed.
Print Assumptions C56_minimal_partial.
(** The planning ends, and a failure has one of these reasons. *)
Theorem C56_fails_only_so_partial s it A e : system s -> any_order it -> emerge_body s it A = Err e ->
  (e = EError /\ exists x, to_build s A x /\ forall sp, ~ source_of_name s x sp) \/
  (e = EError /\ exists x sp d, to_build s A x /\ source_of_name s x sp /\ source_dep sp d /\ ~ met s d /\ ~ repo_meets s d /\
     forall y, ~ built_from s (dep_package d) y) \/
  (e = EValue /\ exists x sp d, to_build s A x /\ source_of_name s x sp /\ source_dep sp d /\
     (~ answerable s d \/ ~ forall p, offered s (dep_package d) p -> window_readable d (p_version p) (p_release p))) \/
  ((exists c, e = ECycle c) /\ exists x y, to_build s A x /\ wants_source s x y /\ x <> y /\ rtc (fun u v => wants_source s u v /\ u <> v) y x) \/
  (exists wanted, NoDup wanted /\ (forall p, In p wanted <-> to_install s A p) /\ plan_install s it wanted = Err e).
Proof. exact (emerge_fails s it A e). Qed.
Print Assumptions C56_fails_only_so_partial.

(** ** Samples *)
Definition a_spec (name : string) (build : list dependency) (ps : list package) : spec := mkSpec name "1" "1" (Some "misc") build ps.
(** The sources app, tool, lib and the packages make and core.  Building app takes tool and
    make, and its package needs lib 2, which is offered as version 1 only; lib's package
    needs itself, so to speak: libdev; tool takes lib. *)
Definition works : sys := apply_all
  [YRepo (OAddRepo "main" "http://main/pisi-index.xml" None);
   YRepo (OUpdateRepo "main" (mkIndex [] [v_pkg "make" "3" "1" [dep_on "core"]; v_pkg "core" "1" "1" []; v_pkg "lib" "1" "1" []]
     [a_spec "app" [dep_on "tool"; dep_on "make"] [v_pkg "app" "1" "1" [at_least "lib" "2"]];
      a_spec "tool" [at_least "lib" "2"] [v_pkg "tool" "1" "1" []];
      a_spec "lib" [] [v_pkg "lib" "2" "1" []; v_pkg "libdev" "2" "1" [at_least "lib" "2"]]]))].
Lemma works_system : system works.
Proof. apply apply_all_system. intros d [[= <-]|[[= <-]|[]]]; exact Logic.I. Qed.
Example C56_nontrivial : system works /\ any_order forth /\
  emerge_body works forth ["app"] = Ok (["core"; "make"], ["lib"; "tool"; "app"]) /\
  emerge_body works back ["lib"; "app"] = Ok (["core"; "make"], ["lib"; "tool"; "app"]) /\
  emerge_body works forth ["nothing"] = Err EError.
Proof. split; [apply works_system|]. split; [apply forth_any|]. repeat split; vm_compute; reflexivity. Qed.

(** The source that is planned for a dependency need not build the package: the packages of a
    source are looked up in one repository, the source in another. *)
Definition two_repos : sys := apply_all
  [YRepo (OAddRepo "main" "http://main/pisi-index.xml" None); YRepo (OAddRepo "extra" "http://extra/pisi-index.xml" None);
   YRepo (OUpdateRepo "main" (mkIndex [] [] [a_spec "app" [dep_on "libx"] [v_pkg "app" "1" "1" []]; a_spec "lib" [] [v_pkg "lib" "2" "1" []]]));
   YRepo (OUpdateRepo "extra" (mkIndex [] [] [a_spec "lib" [] [v_pkg "lib" "2" "1" []; v_pkg "libx" "2" "1" []]]))].
Theorem C56_source_without_package_refuted : exists s it A inst build,
  system s /\ any_order it /\ emerge_body s it A = Ok (inst, build) /\
  exists x sp d, In x build /\ source_of_name s x sp /\ source_dep sp d /\ ~ met s d /\
    ~ In (dep_package d) inst /\ forall y spy p, In y build -> source_of_name s y spy -> In p (sp_packages spy) -> p_name p <> dep_package d.
Proof.
  assert (H : system two_repos) by (apply apply_all_system; intros d [[= <-]|[[= <-]|[[= <-]|[[= <-]|[]]]]]; exact Logic.I).
  exists two_repos, forth, ["app"], [], ["lib"; "app"]. split; [exact H|]. split; [apply forth_any|]. split; [vm_compute; reflexivity|].
  exists "app", (a_spec "app" [dep_on "libx"] [v_pkg "app" "1" "1" []]), (dep_on "libx").
  split; [right; now left|]. split; [vm_compute; reflexivity|]. split; [left; now left|].
  split; [intros K; apply (sat_true _ _ H) in K; vm_compute in K; discriminate K|]. split; [intros []|].
  intros y spy p [<-|[<-|[]]] K1 K2; vm_compute in K1; injection K1 as <-; destruct K2 as [<-|[]]; discriminate.
Qed.
Print Assumptions C56_source_without_package_refuted.
