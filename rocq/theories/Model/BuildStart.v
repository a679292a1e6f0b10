(** * What a build looks at before it touches anything: pisi/op/build.py 185-208, 373-393, 421-479

    The rest of the build is Model/Build.v.  Simplified: that fetch_component (C72) and
    fetch_source_archive (C49, C50) succeed is a parameter, as is what compiling the action
    script gives; messages are left out.  [build_deps.extend] also adds the extra packages to
    the build dependencies of the specification, which nothing reads afterwards. *)
From Coq Require Import String Ascii ZArith List.
From stdpp Require Import gmap strings.
From Verif Require Import Model.Py Model.Version Model.ItemByRepo Model.Dependency Model.Package Model.ComponentDB Model.Databases Model.InstallDB Model.System Model.Build.
Open Scope string_scope.

Record build_opts := mkBuildOpts {
  b_bypass_safety : bool;        (* -S *)
  b_no_install : bool;           (* --no-install *)
  b_ignore_dependency : bool     (* --ignore-dependency *)
}.

Section start.
  Context (s : sys) (bo : build_opts).
  Context (elems : gset string -> list string).   (* the order of iteration of a set *)
  Context (answer : bool).                        (* of ctx.ui.confirm *)

  (** dependency.Dependency(package = x) *)
  Definition plain_dep (x : string) : dependency := mkDep x None None None None None None.

  (** build.py 426-440 *)
  Definition extra_deps (build_deps : list dependency) : res (list dependency) :=
    if b_bypass_safety bo then Ok []
    else
      b <- has_component (db_comp (y_db s)) "system.devel" RRepos ;;
      if b : bool then
        c <- get_component (order_of (y_db s)) (db_comp (y_db s)) "system.devel" RRepos ;;
        let build_deps_names : gset string := list_to_set (map dep_package build_deps) in
        let devel_deps_names : gset string := list_to_set (c_packages c) in
        let extra_names := List.filter (fun x => negb (is_installed (y_inst s) x)) (elems (devel_deps_names ∖ build_deps_names)) in
        Ok (map plain_dep extra_names)
      else Ok [].

  (** build.py 442-446 *)
  Definition dep_unsatis (build_deps : list dependency) : res (list dependency) :=
    foldM (fun acc dep => b <- installed_satisfies_dep s dep ;; Ok (if b : bool then acc else acc ++ [dep])%list) build_deps [].

  (** build.py 459-461 *)
  Definition repo_has_all (deps : list dependency) : res unit :=
    foldM (fun _ dep => b <- repo_satisfies_dep s dep ;; if b : bool then Ok tt else Err EError) deps tt.

  (** build.py 421-468; no name [operations] is defined in the module (465) *)
  Definition check_build_dependencies (build_deps : list dependency) : res unit :=
    extra <- extra_deps build_deps ;;
    unsat <- dep_unsatis (build_deps ++ extra)%list ;;
    match unsat with
    | [] => Ok tt
    | _ =>
        if b_no_install bo then Err EError
        else if b_ignore_dependency bo then Ok tt
        else
          _ <- repo_has_all unsat ;;
          if answer then Err EName else Err EError
    end.

  (** build.py 470-479 *)
  Definition patch_exists (access : string -> bool) (patches : list string) : res unit :=
    foldM (fun _ patch => if access patch then Ok tt else Err EError) patches tt.

  Context (script : res unit)            (* build.py 373-386 *)
          (access : string -> bool)      (* os.access of a patch file, by its name in the specification *)
          (fetched : bool).              (* fetch_component and fetch_source_archive return *)

  (** build.py 190-197 *)
  Definition may_start (patches : list string) (build_deps : list dependency) : res unit :=
    _ <- script ;;
    _ <- patch_exists access patches ;;
    check_build_dependencies build_deps.

  (** build.py 185-208 *)
  Definition build_source (norootdir autoclean : bool) (patches packages : list string) (build_deps : list dependency) (w : work) : plan :=
    match may_start patches build_deps with
    | Ok _ => if fetched then Build.build norootdir patches packages autoclean w else ([], false)
    | Err _ => ([], false)
    end.
  (** build.py 917-946: with --until neither the patches nor the dependencies are looked at *)
  Definition build_source_until (state : string) (norootdir autoclean : bool) (patches packages : list string) (build_deps : list dependency) (w : work) : plan :=
    match script with
    | Ok _ => build_until norootdir patches packages autoclean state w
    | Err _ => ([], false)
    end.
End start.
