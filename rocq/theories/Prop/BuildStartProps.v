(** * C84: a build starts only with its patches and its build dependencies there *)
From Coq Require Import String Ascii ZArith List.
From stdpp Require Import gmap strings.
From Verif Require Import Model.Py Model.ItemByRepo Model.Dependency Model.Package Model.ComponentDB Model.Databases Model.InstallDB Model.System Model.Build Model.BuildStart.
From Verif Require Import Spec.DatabaseSpec Spec.SystemSpec Spec.PlanSpec Spec.BuildStartSpec.
From Verif Require Import Proof.RevDepFacts Proof.DatabaseFacts Proof.SystemFacts Proof.PlanFacts Proof.BuildStartFacts.
Require Import Verif.Prop.PlanProps.
Open Scope string_scope.

(** Nothing is done to the work directory unless the build is ready *)
Theorem C84_ready_first_partial s bo elems answer script access fetched norootdir autoclean patches packages deps w : system s -> some_order elems ->
  fst (build_source s bo elems answer script access fetched norootdir autoclean patches packages deps w) <> [] -> ready s bo script access patches deps.
Proof. intros H El. exact (build_starts s H bo elems El answer script access fetched norootdir autoclean patches packages deps w). Qed.
Print Assumptions C84_ready_first_partial.
(** ... and if it is, and the archive is fetched, the steps of C51 are run *)
Theorem C84_ready_starts s bo elems answer script access norootdir autoclean patches packages deps w : system s -> some_order elems ->
  ready s bo script access patches deps ->
  build_source s bo elems answer script access true norootdir autoclean patches packages deps w = Build.build norootdir patches packages autoclean w.
Proof. intros H El R. exact (build_ready s H bo elems El answer script access true norootdir autoclean patches packages deps w R eq_refl). Qed.
Print Assumptions C84_ready_starts.
(** With --until only the action script must load *)
Theorem C84_until_script script state norootdir autoclean patches packages deps w :
  (script = Ok tt -> build_source_until script state norootdir autoclean patches packages deps w = build_until norootdir patches packages autoclean state w) /\
  (script <> Ok tt -> build_source_until script state norootdir autoclean patches packages deps w = ([], false)).
Proof. unfold build_source_until. destruct script as [[]|e]; split; intros K; congruence. Qed.
Print Assumptions C84_until_script.
(** The dependencies alone *)
Theorem C84_dependencies_partial s bo elems answer deps : system s -> some_order elems ->
  check_build_dependencies s bo elems answer deps = Ok tt <->
  equipped s (required_tool s bo) deps \/
  (b_ignore_dependency bo = true /\ b_no_install bo = false /\ forall d, In d deps -> answerable s d).
Proof. intros H El. exact (check_ok s H bo elems El answer deps tt). Qed.
Print Assumptions C84_dependencies_partial.
(** With everything that is wanting on offer and the user's consent, it breaks down instead of
    installing it *)
Theorem C84_install_breaks_down s bo elems answer deps : system s -> some_order elems ->
  check_build_dependencies s bo elems answer deps = Err EName <->
  (forall d, In d deps -> answerable s d) /\ ~ equipped s (required_tool s bo) deps /\
  b_no_install bo = false /\ b_ignore_dependency bo = false /\ answer = true /\
  forall d, wanting s (required_tool s bo) deps d -> repo_meets s d.
Proof. intros H El. exact (check_name s H bo elems El answer deps). Qed.
Print Assumptions C84_install_breaks_down.

(** A system with two repositories, both with a component system.devel *)
Definition part (name component : string) : package := mkPackage name "1" "1" None [] [] [] (Some component) [] [] [] false "".
Definition workshop (installed : list string) : sys := apply_all
  ([YRepo (OAddRepo "main" "http://main/pisi-index.xml" None); YRepo (OAddRepo "extra" "http://extra/pisi-index.xml" None);
   YRepo (OUpdateRepo "main" (mkIndex [] [part "gcc" "system.devel"; part "make" "system.devel"; part "zlib" "misc"] []));
   YRepo (OUpdateRepo "extra" (mkIndex [] [part "yasm" "system.devel"] []))] ++
   map (fun n => YInstall (part n "misc") [] false) installed)%list.
Lemma workshop_system l : system (workshop l).
Proof.
  apply apply_all_system. intros d K. apply in_app_iff in K as [K|K].
  - repeat (destruct K as [K|K]; [injection K as <-; exact Logic.I|]). destruct K.
  - apply in_map_iff in K as (x & K & _). discriminate K.
Qed.
Definition default_opts : build_opts := mkBuildOpts false false false.
Definition fresh : work := mkWork None false [].
Definition outcome (s : sys) (bo : build_opts) (answer : bool) (deps : list dependency) : res unit := check_build_dependencies s bo elements answer deps.
Lemma elements_order : some_order elements.
Proof. intros X x. now rewrite <- elem_of_list_In, elem_of_elements. Qed.

(** As stated it is false: what is missing is never installed *)
Theorem C84_installs_refuted : exists s deps, system s /\ (forall d, In d deps -> repo_meets s d) /\ (forall x, tool s x -> is_installed (y_inst s) x = true) /\
  check_build_dependencies s default_opts elements true deps = Err EName.
Proof.
  exists (workshop ["gcc"; "make"]), [at_least "zlib" "1"]. pose proof (workshop_system ["gcc"; "make"]) as H. split; [exact H|].
  assert (R : check_build_dependencies (workshop ["gcc"; "make"]) default_opts elements true [at_least "zlib" "1"] = Err EName) by (vm_compute; reflexivity).
  pose proof (proj1 (C84_install_breaks_down _ _ _ _ _ H elements_order) R) as (A & _ & _ & _ & _ & W).
  assert (N : is_installed (y_inst (workshop ["gcc"; "make"])) "zlib" = false) by (vm_compute; reflexivity).
  split; [|split; [|exact R]].
  - intros d [<-|[]]. apply W. left. split; [now left|]. intros (p & [P _] & _). cbn [at_least dep_package] in P. congruence.
  - intros x T. assert (E : check_build_dependencies (workshop ["gcc"; "make"]) default_opts elements true [] = Ok tt) by (vm_compute; reflexivity).
    apply (C84_dependencies_partial _ _ _ _ _ H elements_order) in E as [[_ E]|(E & _)]; [|discriminate E]. apply E. split; [reflexivity|exact T].
Qed.
Print Assumptions C84_installs_refuted.
(** A tool of another repository than the first is not asked for *)
Theorem C84_all_tools_refuted : exists s x, system s /\ any_tool s x /\ is_installed (y_inst s) x = false /\
  check_build_dependencies s default_opts elements false [] = Ok tt.
Proof.
  exists (workshop ["gcc"; "make"]), "yasm". split; [apply workshop_system|]. split; [|split; vm_compute; reflexivity].
  assert (G : forall c s, (match get_component (order_of (y_db s)) (db_comp (y_db s)) c (RName "extra") with Ok k => bool_decide ("yasm" ∈ c_packages k) | Err _ => false end) && bool_decide ("extra" ∈ order_of (y_db s)) = true ->
    exists repo, In repo (order_of (y_db s)) /\ lists_package (y_db s) c (RName repo) "yasm").
  { intros c s K. apply andb_prop in K as [K1 K2]. exists "extra". apply bool_decide_eq_true, elem_of_list_In in K2. split; [exact K2|].
    destruct (get_component _ _ c (RName "extra")) as [k|e] eqn:E; [|discriminate K1]. exists k. split; [exact E|]. now apply bool_decide_eq_true, elem_of_list_In in K1. }
  apply G. vm_compute. reflexivity.
Qed.
Print Assumptions C84_all_tools_refuted.
(** With --until the build starts without patches or dependencies *)
Theorem C84_until_refuted : exists s deps access, system s /\ ~ ready s default_opts (Ok tt) access ["fix.patch"] deps /\
  fst (build_source_until (Ok tt) "setup" false false ["fix.patch"] ["app"] deps fresh) <> [].
Proof.
  exists (workshop []), [at_least "zlib" "1"], (fun _ => false). split; [apply workshop_system|]. split; [|vm_compute; discriminate].
  intros (_ & K & _). specialize (K _ (or_introl eq_refl)). discriminate K.
Qed.
Print Assumptions C84_until_refuted.

Example C84_nontrivial :
  system (workshop ["gcc"]) /\ outcome (workshop ["gcc"]) default_opts false [] = Err EError /\
  outcome (workshop ["gcc"]) (mkBuildOpts true false false) false [] = Ok tt /\
  outcome (workshop ["gcc"]) (mkBuildOpts false false true) false [dep_on "zlib"] = Ok tt /\
  outcome (workshop ["gcc"]) (mkBuildOpts false true true) false [dep_on "zlib"] = Err EError /\
  outcome (workshop ["gcc"; "make"; "zlib"]) default_opts false [at_least "zlib" "1"] = Ok tt /\
  outcome (workshop ["gcc"; "make"; "zlib"]) default_opts true [at_least "zlib" "2"] = Err EError /\
  build_source (workshop ["gcc"; "make"; "zlib"]) default_opts elements false (Ok tt) (fun p => String.eqb p "fix.patch") true false false ["fix.patch"] ["app"] [dep_on "zlib"] fresh =
    Build.build false ["fix.patch"] ["app"] false fresh /\
  build_source (workshop ["gcc"; "make"; "zlib"]) default_opts elements false (Ok tt) (fun p => String.eqb p "fix.patch") true false false ["gone.patch"] ["app"] [dep_on "zlib"] fresh = ([], false).
Proof. split; [apply workshop_system|]. repeat (split; [vm_compute; reflexivity|]). vm_compute. reflexivity. Qed.
