(** * Emerging: pisi/op/emerge.py 40-95, pisi/op/build.py 100-121 and 873-878

    What a build gives and whether a package file can be installed are parameters; they may depend
    on all that was done before.  What was done is the list of [event]s.  A build or installation
    that fails is no event: what it leaves behind is the subject of other files.  Messages are left
    out. *)
From Coq Require Import String Ascii ZArith List.
From stdpp Require Import gmap strings.
From Verif Require Import Model.Py Model.Path Model.Index Model.Trace Model.Fetch Model.Uri Model.ItemByRepo Model.Package Model.ComponentDB Model.Databases Model.InstallDB Model.System Model.Graph Model.Plan.
Import ListNotations.
Open Scope string_scope.
Open Scope prog_scope.

Inductive event : Type := Built (address : string) | Installed (file : string).
Notation history := (list event).

Section emerge.
  Context (s : sys)
          (index_uri : string -> string)              (* repo.indexuri of a repository *)
          (source_uri : string -> string -> string)   (* sourceURI of a source in a repository *)
          (set_order : gset string -> list string)    (* the order in which a Python set is gone through *)
          (builds : history -> string -> res (list string))       (* Builder(address).build()[0] *)
          (installs : history -> string -> res unit).             (* Install(file).install(True) *)

  Definition lift {A} (r : res A) : prog history A := match r with Ok a => ret a | Err e => raise e end.

  (** build.py 100-121.  A repository found is never the installed or third-party one
      (db/itembyrepo.py 136-155). *)
  Definition from_name (name : string) : res string :=
    sr <- get_item_repo (order_of (y_db s)) (db_src (y_db s)) name RRepos ;;
    match snd sr with
    | RName reponame =>
        ul <- parse_uri (source_uri reponame name) ;;
        abs <- absolute_path (u_path (fst ul)) ;;
        Ok (if abs : bool then u_uri (fst ul) else os_join (dirname (index_uri reponame)) (u_path (fst ul)))
    | _ => Err EError
    end.

  (** build.py 873-878 *)
  Definition build (pspec : string) : prog history (list string) :=
    address <~ (if py_endswith pspec ".xml" then ret pspec else lift (from_name pspec)) ;;
    h <~ ask (fun h => h) ;;
    names <~ lift (builds h address) ;;
    _ <~ change (fun h : history => h ++ [Built address])%list ;;
    ret names.
  (** op/install.py 365-367 *)
  Definition install_single_file (file : string) : prog history unit :=
    h <~ ask (fun h => h) ;;
    _ <~ lift (installs h file) ;;
    change (fun h : history => h ++ [Installed file])%list.
  (** op/install.py 389-403, with --ignore-dependency *)
  Definition install_pkg_files (package_URIs : list string) : prog history unit :=
    if forallb (fun x => py_endswith x ".pisi") package_URIs then each install_single_file package_URIs
    else raise EError.

  (** emerge.py 40-95.  plan_emerge: Plan.v; [ctx.ui.confirm] is never reached, for nothing is
      added to what was asked for. *)
  Definition emerge (ignore_dependency dry_run : bool) (A : list string) : prog history unit :=
    A <~ lift (expand_src_components (order_of (y_db s)) (db_comp (y_db s)) A) ;;
    if Nat.eqb (size A) 0 then ret tt
    else
      orders <~ (if ignore_dependency then ret ([], set_order A) else lift (plan_emerge (set_order A) false)) ;;
      let '(order_inst, order_build) := orders in
      if dry_run then ret tt
      else
        _ <~ each (fun _ => raise EError) order_inst ;;            (* always empty *)
        _ <~ each (fun x => package_names <~ build x ;; install_pkg_files package_names) order_build ;;
        if str_in "pisi" order_build then raise EUpgradePisi else ret tt.
End emerge.
