(** * Planning an emerge: pisi/op/emerge.py 97-160

    The function itself, as it stands, is [plan_emerge] of Model/Plan.v: its first statement
    raises AttributeError because [pisi.graph] names no module.  Here is the rest of it, as
    it would run if that name stood for pisi/data/graph.py.  Left out, as in
    Model/Plan.v: the conflict check at the end of plan_install_pkg_names, the debug
    output.  [rebuild_all] is not looked at by the code. *)
From Coq Require Import String Ascii ZArith List.
From stdpp Require Import gmap strings.
From Verif Require Import Model.Py Model.Version Model.ItemByRepo Model.Dependency Model.Package Model.Databases Model.InstallDB Model.System Model.Graph Model.Plan.
Open Scope string_scope.

(** The state of the loop, emerge.py 102, 122, 125: G_f, Bp, install_list *)
Record estate := mkE {
  e_graph : pgraph;
  e_next : gset string;
  e_install : gset string
}.

Section emerge.
  Context (s : sys) (it : iter).

  (** emerge.py 104-108, db/source.py 53-60 *)
  Definition emerge_spec (n : string) : res spec :=
    b <- has_key (db_src (y_db s)) n RRepos ;;
    if b : bool then get_item (order_of (y_db s)) (db_src (y_db s)) n RRepos else Err EError.

  (** emerge.py 111-113 *)
  Definition add_src (g : pgraph) (sp : spec) : res pgraph :=
    if bool_decide (sp_name sp ∈ g_v g) then Ok g
    else add_vertex g (sp_name sp) (Some (sp_version sp, sp_release sp)).

  (** emerge.py 114-115, db/source.py 69-70 *)
  Definition pkgtosrc (pkg : string) : res string :=
    get_item (order_of (y_db s)) (db_p2s (y_db s)) pkg RRepos.

  (** emerge.py 133-143 *)
  Definition process_dep (src : string) (st : estate) (dep : dependency) : res estate :=
    sat <- installed_satisfies_dep s dep ;;
    if sat : bool then Ok st
    else
      rsat <- repo_satisfies_dep s dep ;;
      if rsat : bool then Ok (mkE (e_graph st) (e_next st) ({[dep_package dep]} ∪ e_install st))
      else
        srcdep <- pkgtosrc (dep_package dep) ;;
        st1 <- (if bool_decide (srcdep ∈ g_v (e_graph st)) then Ok st
                else
                  sp <- emerge_spec srcdep ;;
                  g <- add_src (e_graph st) sp ;;
                  Ok (mkE g ({[srcdep]} ∪ e_next st) (e_install st))) ;;
        if String.eqb src srcdep then Ok st1
        else
          g <- add_edge (e_graph st1) src srcdep None None None ;;
          Ok (mkE g (e_next st1) (e_install st1)).

  (** emerge.py 145-150: the dependencies gone through *)
  Definition all_deps (sp : spec) : list dependency :=
    (sp_buildDeps sp ++ concat (map p_deps (sp_packages sp)))%list.

  (** emerge.py 127-150 *)
  Definition emerge_step (st : estate) (x : string) : res estate :=
    sp <- emerge_spec x ;;
    g <- add_src (e_graph st) sp ;;
    foldM (process_dep (sp_name sp)) (all_deps sp) (mkE g (e_next st) (e_install st)).

  (** emerge.py 124-151 *)
  Fixpoint emerge_rounds (fuel n : nat) (st : estate) (B : list string) : res estate :=
    match B with
    | [] => Ok st
    | _ => match fuel with
           | O => Err EFuel
           | S fuel =>
               st1 <- foldM emerge_step B (mkE (e_graph st) ∅ (e_install st)) ;;
               emerge_rounds fuel (S n) st1 (it_set it n (e_next st1))
           end
    end.

  (** emerge.py 104-160: the packages to install and the sources to build, in order.  The
      set of packages to install is gone through in the order [it_set] gives for one round
      more. *)
  Definition emerge_body (A : list string) : res (list string * list string) :=
    let rounds_enough := S (S (size (db_src (y_db s)))) in
    st <- emerge_rounds rounds_enough 0 (mkE empty_graph ∅ ∅) A ;;
    order_build <- topological_sort (it_vs it (e_graph st)) (it_adj it (e_graph st)) ;;
    inst <- plan_install s it (it_set it (S rounds_enough) (e_install st)) ;;
    Ok (inst.2, rev order_build).
End emerge.
