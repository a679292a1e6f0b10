(** * A pisi system: all databases together, and what installing and removing record

    pisi/op/install.py, pisi/op/remove.py (database effects), pisi/data/dependency.py. *)
From Coq Require Import String Ascii ZArith List.
From stdpp Require Import gmap strings.
From Verif Require Import Model.Py Model.ItemByRepo Model.Dependency Model.Package Model.Databases Model.InstallDB.
Open Scope string_scope.

(** [y_lists]: the files.xml kept for each installed package under
    lib_dir/package/NAME-VERSION-RELEASE (db/install.py 84-97, data/specfile.py 193-198).
    The directory name is kept as a triple: that two triples can give the same directory
    name is the subject of C45. *)
Record sys := mkSys {
  y_db : dbs;
  y_inst : installdb;
  y_files : filesdb;
  y_lists : gmap (string * string * string) (list finfo)
}.
Definition empty_sys : sys := mkSys empty_dbs empty_inst ∅ ∅.
Definition set_db (s : sys) x := mkSys x (y_inst s) (y_files s) (y_lists s).
Definition set_inst (s : sys) x := mkSys (y_db s) x (y_files s) (y_lists s).
Definition set_files (s : sys) x := mkSys (y_db s) (y_inst s) x (y_lists s).
Definition set_lists (s : sys) x := mkSys (y_db s) (y_inst s) (y_files s) x.

(** ** pisi/data/dependency.py *)

(** data/dependency.py 68-76 *)
Definition dict_satisfies_dep (dict : gmap string package) (dep : dependency) : res bool :=
  match dict !! dep_package dep with
  | None => Ok false
  | Some p => satisfies dep (dep_package dep) (p_version p) (p_release p)
  end.

(** data/dependency.py 78-87 *)
Definition installed_satisfies_dep (s : sys) (dep : dependency) : res bool :=
  if is_installed (y_inst s) (dep_package dep) then
    p <- get_package (y_db s) (dep_package dep) RInst ;;
    satisfies dep (dep_package dep) (p_version p) (p_release p)
  else Ok false.

(** data/dependency.py 89-98; [repo = None] is the search over all repositories
    (db/package.py 56-63, db/itembyrepo.py 78-110). *)
Definition repo_satisfies_dep (s : sys) (dep : dependency) : res bool :=
  b <- has_package (y_db s) (dep_package dep) RRepos ;;
  if b then
    p <- get_package (y_db s) (dep_package dep) RRepos ;;
    satisfies dep (dep_package dep) (p_version p) (p_release p)
  else Ok false.

(** data/dependency.py 100-106 (the error message is left out) *)
Fixpoint satisfies_dependencies (sat : dependency -> res bool) (deps : list dependency) : res bool :=
  match deps with
  | [] => Ok true
  | dep :: deps => b <- sat dep ;; if b then satisfies_dependencies sat deps else Ok false
  end.

(** data/dependency.py 108-110 *)
Definition satisfies_runtime_deps (s : sys) (pkg : string) : res bool :=
  p <- get_package (y_db s) pkg RRepos ;;
  deps <- runtimeDependencies p ;;
  satisfies_dependencies (installed_satisfies_dep s) deps.

(** data/dependency.py 112-121 *)
Definition installable (s : sys) (pkg : string) : res bool :=
  b <- has_package (y_db s) pkg RRepos ;;
  if b then satisfies_runtime_deps s pkg else Ok false.

(** data/specfile.py 200-203: the method of a package read from a file or a repository *)
Definition pkg_installable (s : sys) (p : package) : res bool :=
  deps <- runtimeDependencies p ;; satisfies_dependencies (installed_satisfies_dep s) deps.

(** ** Recording *)

(** db/install.py 88-93 through op/remove.py 49-56: the file list of a recorded package,
    empty if it cannot be read. *)
Definition list_of (s : sys) (name : string) : res (list finfo) :=
  info <- get_info (y_inst s) name ;;
  Ok (default [] (y_lists s !! (name, i_version info, i_release info))).

(** op/remove.py 144-147 *)
Definition remove_db (s : sys) (name : string) (files : list finfo) : res sys :=
  i <- db_remove (y_inst s) name ;;
  d <- remove_tracking_package (y_db s) name ;;
  Ok (mkSys d i (remove_files (y_files s) files) (y_lists s)).

(** op/remove.py 46-83, the databases only: construct, refuse a package that is not
    installed (a plain Exception), remove_db, remove_pisi_files. *)
Definition record_remove (s : sys) (name : string) : res sys :=
  p <- get_package (y_db s) name RInst ;;
  files <- list_of s name ;;
  assert! is_installed (y_inst s) name else EError ;;
  s1 <- remove_db s name files ;;
  Ok (set_lists s1 (delete (name, p_version p, p_release p) (y_lists s1))).

(** op/install.py 332-350 *)
Definition update_databases (s : sys) (p : package) (files : list finfo) (config_later : bool)
    (remove_old : option (list finfo)) : res sys :=
  s1 <- match remove_old with Some old => remove_db s (p_name p) old | None => Ok s end ;;
  i <- db_install (y_inst s1) (p_name p) (p_version p) (p_release p) (p_build p)
         (p_distribution p) config_later ;;
  d <- add_package (y_db s1) p RInst ;;
  Ok (mkSys d i (add_files (y_files s1) (p_name p) files) (y_lists s1)).

(** op/install.py 220-228 (schedule the removal of the installed package), 312-330 (store
    files.xml), 332-350; databases only. *)
Definition record_install (s : sys) (p : package) (files : list finfo) (config_later : bool) : res sys :=
  if is_installed (y_inst s) (p_name p) then
    info <- get_info (y_inst s) (p_name p) ;;
    old <- list_of s (p_name p) ;;
    _ <- get_package (y_db s) (p_name p) RInst ;;
    let s1 := set_lists s (<[(p_name p, p_version p, p_release p) := files]>
                (delete (p_name p, i_version info, i_release info) (y_lists s))) in
    update_databases s1 p files config_later (Some old)
  else
    let s1 := set_lists s (<[(p_name p, p_version p, p_release p) := files]> (y_lists s)) in
    update_databases s1 p files config_later None.

(** op/configurepending.py 77-79: configuration done *)
Definition record_configured (s : sys) (name : string) : res sys :=
  i <- clear_pending (y_inst s) name ;; Ok (set_inst s i).
