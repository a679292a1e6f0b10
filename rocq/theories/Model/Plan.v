(** * Planning: which packages an operation will touch, in which order

    pisi/op/install.py 551-581, pisi/op/remove.py 210-240, pisi/op/upgrade.py 42-53 and
    171-240, pisi/op/configurepending.py 36-59, pisi/op/emerge.py 97-160,
    pisi/op/graph.py 26-58.  The conflict check at the end of the install and upgrade plans
    (it may remove packages) is in Model/Ops.v. *)
From Coq Require Import String Ascii ZArith List.
From stdpp Require Import gmap strings.
From Verif Require Import Model.Py Model.Version Model.ItemByRepo Model.Dependency Model.Package Model.Databases Model.InstallDB Model.System Model.Graph.
Open Scope string_scope.

(** Python fixes no order of iteration over a set.  [it_set n X]: the order in which the set
    [X] is gone through in round [n]; [it_vs], [it_adj]: vertices and successors of a
    graph. *)
Record iter := mkIter {
  it_set : nat -> gset string -> list string;
  it_vs : pgraph -> list string;
  it_adj : pgraph -> string -> list string
}.

(** for x in A: G_f.add_package(x) *)
Definition add_packages (get : string -> res package) (A : list string) (g : pgraph) : res pgraph :=
  foldM (pg_add_package get) A g.

(** The loop common to all plans:

      B = A
      while len(B) > 0:
          Bp = set()
          for x in B: ... step ...
          B = Bp                                                                          *)
Fixpoint rounds (fuel n : nat) (it : iter) (step : pgraph * gset string -> string -> res (pgraph * gset string))
    (g : pgraph) (B : list string) : res pgraph :=
  match B with
  | [] => Ok g
  | _ => match fuel with
         | O => Err EFuel
         | S fuel => gb <- foldM step B (g, ∅) ;; rounds fuel (S n) it step gb.1 (it_set it n gb.2)
         end
  end.

(** A number of rounds that always suffices: every round handles a package of the database
    that was not handled before. *)
Definition enough (s : sys) : nat := S (S (size (db_pkg (y_db s)))).

Section plans.
  Context (s : sys) (it : iter).
  Definition get_repo (n : string) : res package := get_package (y_db s) n RRepos.
  Definition get_inst (n : string) : res package := get_package (y_db s) n RInst.

  (** op/install.py 567-574: one dependency of package [x] *)
  Definition install_dep (x : string) (gb : pgraph * gset string) (dep : dependency) : res (pgraph * gset string) :=
    sat <- installed_satisfies_dep s dep ;;
    if sat then Ok gb
    else
      let Bp := if bool_decide (dep_package dep ∈ g_v gb.1) then gb.2 else {[dep_package dep]} ∪ gb.2 in
      g <- pg_add_dep get_repo gb.1 x dep ;; Ok (g, Bp).

  (** op/install.py 565-574 *)
  Definition install_step (gb : pgraph * gset string) (x : string) : res (pgraph * gset string) :=
    p <- get_repo x ;;
    deps <- runtimeDependencies p ;;
    foldM (install_dep x) deps gb.

  (** op/install.py 551-578 *)
  Definition plan_install_graph (A : list string) : res pgraph :=
    g <- add_packages get_repo A empty_graph ;;
    rounds (enough s) 0 it install_step g A.
  Definition plan_install (A : list string) : res (pgraph * list string) :=
    g <- plan_install_graph A ;;
    order <- topological_sort (it_vs it g) (it_adj it g) ;;
    Ok (g, rev order).

  (** op/remove.py 228-235: one reverse dependency of package [x] *)
  Definition remove_rev (x : string) (gb : pgraph * gset string) (rd : string * dependency) : res (pgraph * gset string) :=
    b <- has_package (y_db s) rd.1 RInst ;;
    sat <- (if b : bool then installed_satisfies_dep s rd.2 else Ok false) ;;
    if sat then
      if bool_decide (rd.1 ∈ g_v gb.1) then Ok gb
      else g <- pg_add_plain_dep get_inst gb.1 rd.1 x ;; Ok (g, {[rd.1]} ∪ gb.2)
    else Ok gb.

  (** op/remove.py 224-235 *)
  Definition remove_step (gb : pgraph * gset string) (x : string) : res (pgraph * gset string) :=
    _ <- get_inst x ;;
    rev_deps <- get_rev_deps (y_db s) x RInst ;;
    foldM (remove_rev x) rev_deps gb.

  (** op/remove.py 210-240 *)
  Definition plan_remove_graph (A : list string) : res pgraph :=
    g <- add_packages get_inst A empty_graph ;;
    rounds (enough s) 0 it remove_step g A.
  Definition plan_remove (A : list string) : res (pgraph * list string) :=
    g <- plan_remove_graph A ;;
    order <- topological_sort (it_vs it g) (it_adj it g) ;;
    Ok (g, order).

  (** op/upgrade.py 42-53.  The bare "except" catches whatever the lookup raises. *)
  Definition is_upgradable (name : string) (ignore_build : bool) : res bool :=
    if is_installed (y_inst s) name then
      vrb <- get_version (y_inst s) name ;;
      match get_repo name with
      | Err _ => Ok false
      | Ok p =>
          let by_release := r <- parse_version vrb.1.2 ;; pr <- parse_version (p_release p) ;; Ok (v_lt r pr) in
          match vrb.2, p_build p with
          | Some b, Some pb =>
              if ignore_build || Z.eqb b 0 || Z.eqb pb 0 then by_release else Ok (Z.ltb b pb)
          | _, _ => by_release
          end
      end
    else Ok false.

  (** op/upgrade.py 191-206: one dependency of package [x] *)
  Definition upgrade_dep (eager : bool) (x : string) (gb : pgraph * gset string) (dep : dependency) : res (pgraph * gset string) :=
    b <- repo_satisfies_dep s dep ;;
    if b : bool then
      skip <- (if is_installed (y_inst s) (dep_package dep) then
                 if eager then u <- is_upgradable (dep_package dep) false ;; Ok (negb u)
                 else installed_satisfies_dep s dep
               else Ok false) ;;
      if skip : bool then Ok gb
      else
        let Bp := if bool_decide (dep_package dep ∈ g_v gb.1) then gb.2 else {[dep_package dep]} ∪ gb.2 in
        g <- pg_add_dep get_repo gb.1 x dep ;; Ok (g, Bp)
    else Err EError.

  (** op/upgrade.py 190-206 *)
  Definition upgrade_step (eager : bool) (gb : pgraph * gset string) (x : string) : res (pgraph * gset string) :=
    p <- get_repo x ;;
    deps <- runtimeDependencies p ;;
    foldM (upgrade_dep eager x) deps gb.

  (** op/upgrade.py 217-231: one reverse dependency of package [x] *)
  Definition upgrade_rev (eager : bool) (x : string) (gb : pgraph * gset string) (rd : string * dependency) : res (pgraph * gset string) :=
    let add := if bool_decide (rd.1 ∈ g_v gb.1) then Ok gb
               else g <- pg_add_plain_dep get_repo gb.1 rd.1 x ;; Ok (g, {[rd.1]} ∪ gb.2) in
    if eager then
      u <- is_upgradable rd.1 false ;;
      if u : bool then add else Ok gb
    else
      broken <- (if is_installed (y_inst s) rd.1 then sat <- installed_satisfies_dep s rd.2 ;; Ok (negb sat)
                 else Ok false) ;;
      if broken : bool then
        b <- repo_satisfies_dep s rd.2 ;;
        if b : bool then add else Err EError
      else Ok gb.

  (** op/upgrade.py 214-231 *)
  Definition upgrade_rev_step (eager : bool) (gb : pgraph * gset string) (x : string) : res (pgraph * gset string) :=
    _ <- get_repo x ;;
    rev_deps <- get_rev_deps (y_db s) x RRepos ;;
    foldM (upgrade_rev eager x) rev_deps gb.

  (** op/upgrade.py 171-237.  The parameter ignore_build is never used there. *)
  Definition plan_upgrade_graph (eager : bool) (A : list string) : res pgraph :=
    g <- add_packages get_repo A empty_graph ;;
    g1 <- rounds (enough s) 0 it (upgrade_step eager) g A ;;
    rounds (enough s) (enough s) it (upgrade_rev_step eager) g1 A.
  Definition plan_upgrade (eager : bool) (A : list string) : res (pgraph * list string) :=
    g <- plan_upgrade_graph eager A ;;
    order <- topological_sort (it_vs it g) (it_adj it g) ;;
    Ok (g, rev order).

  (** op/configurepending.py 46-50 *)
  Definition configure_step (g : pgraph) (x : string) : res pgraph :=
    p <- get_inst x ;;
    deps <- runtimeDependencies p ;;
    foldM (fun g dep => if bool_decide (dep_package dep ∈ g_v g) then pg_add_dep get_inst g x dep else Ok g) deps g.

  (** op/configurepending.py 39-55: the packages awaiting configuration, in the order in
      which they will be configured.  [A]: the keys of list_pending in some order. *)
  Definition plan_configure (A : list string) : res (pgraph * list string) :=
    g <- add_packages get_inst A empty_graph ;;
    g <- foldM configure_step A g ;;
    order <- topological_sort (it_vs it g) (it_adj it g) ;;
    Ok (g, rev order).

  (** op/graph.py 50-56 *)
  Definition graph_dep (r : rarg) (ignore_installed : bool) (x : string) (gb : pgraph * gset string) (dep : dependency) : res (pgraph * gset string) :=
    skip <- (if ignore_installed then installed_satisfies_dep s dep else Ok false) ;;
    if skip : bool then Ok gb
    else
      let Bp := if bool_decide (dep_package dep ∈ g_v gb.1) then gb.2 else {[dep_package dep]} ∪ gb.2 in
      g <- pg_add_dep (fun n => get_package (y_db s) n r) gb.1 x dep ;; Ok (g, Bp).

  (** op/graph.py 47-56 *)
  Definition graph_step (r : rarg) (ignore_installed : bool) (gb : pgraph * gset string) (x : string) : res (pgraph * gset string) :=
    p <- get_package (y_db s) x r ;;
    deps <- runtimeDependencies p ;;
    foldM (graph_dep r ignore_installed x) deps gb.

  (** op/graph.py 26-58 *)
  Definition package_graph (r : rarg) (ignore_installed : bool) (A : list string) : res pgraph :=
    g <- add_packages (fun n => get_package (y_db s) n r) A empty_graph ;;
    rounds (enough s) 0 it (graph_step r ignore_installed) g A.

  (** op/emerge.py 97-102: [pisi.graph] names no module (the class is in pisi.data.graph),
      so the first statement raises AttributeError. *)
  Definition plan_emerge (A : list string) (rebuild_all : bool) : res (list string * list string) :=
    Err EAttribute.
End plans.
