(** * Installing, removing, upgrading and configuring packages

    pisi/op/install.py, pisi/op/remove.py, pisi/op/upgrade.py, pisi/op/conflict.py,
    pisi/op/configurepending.py, pisi/op/upgradepisi.py. *)
From Coq Require Import String Ascii ZArith List.
From stdpp Require Import gmap strings.
From Verif Require Import Model.Py Model.Version Model.ItemByRepo Model.Dependency Model.Package
  Model.ComponentDB Model.Databases Model.InstallDB Model.System Model.Graph Model.Plan Model.Path Model.Fs.
Open Scope string_scope.

(** ** The world pisi acts on *)

(** What pisi asks the user. *)
Inductive question :=
| QRemoveExtra | QInstallExtra | QUpgradeExtra | QFileExtra (* more packages than asked for *)
| QConflicts                                 (* remove conflicting packages? *)
| QReinstall | QOldRelease | QOldBuild.      (* re-install, downgrade *)
Global Instance question_eq_dec : EqDecision question.
Proof. solve_decision. Defined.

(** What happens, as seen from outside. *)
Inductive event :=
| EvAsked (q : question) (yes : bool)
| EvInstalled (name : string)
| EvRemoved (name : string)
| EvPostInstall (name : string)    (* COMAR post-install *)
| EvPreRemove (name : string).    (* COMAR pre-remove *)

(** [w_past] is what the disk held after each earlier step, latest first: the states in which
    a crash can leave it.  [w_log]: what happened, latest first. *)
Record world := mkWorld {
  w_sys : sys;
  w_fs : fs;
  w_past : list (sys * fs);
  w_log : list event
}.

(** A package file: metadata.xml, files.xml, the files to be installed and how they are stored *)
Record pkgfile := mkPackfile {
  k_pkg : package;
  k_files : list finfo;
  k_data : list (string * entry);
  k_format : format
}.
(** A package file in the default format, 1.1 *)
Definition mkPkgfile (p : package) (files : list finfo) (data : list (string * entry)) : pkgfile :=
  mkPackfile p files data Tar.

(** Everything outside pisi.  COMAR scripts are taken not to touch packages' files or pisi's
    databases. *)
Record host := mkHost {
  h_it : iter;                                 (* iteration orders in planning *)
  h_list : gset string -> list string;         (* iteration order of other sets *)
  h_answer : list event -> question -> bool;   (* the user *)
  h_sha1 : string -> string;
  h_hook : list event -> string -> option exn; (* result of a COMAR script *)
  h_fetch : package -> res pkgfile;            (* download of a package in a repository *)
  h_open : string -> res pkgfile;              (* a package file or URI *)
  h_text : package -> string                   (* str(package): data/specfile.py 205-224 *)
}.

(** Command line options and configuration *)
Record opts := mkOpts {
  o_ignore_dependency : bool;
  o_bypass_safety : bool;
  o_dry_run : bool;
  o_ignore_build : bool;
  o_eager : bool;
  o_ignore_file_conflicts : bool;
  o_comar : bool;
  o_dest : string
}.

(** Actions: an exception does not undo what was done before it. *)
Definition M (A : Type) : Type := world -> world * res A.
Definition ret {A} (a : A) : M A := fun w => (w, Ok a).
Definition throw {A} (e : exn) : M A := fun w => (w, Err e).
Definition bindM {A B} (m : M A) (k : A -> M B) : M B := fun w =>
  match m w with
  | (w1, Ok a) => k a w1
  | (w1, Err e) => (w1, Err e)
  end.
Notation "'let!' x := e 'in' f" := (bindM e (fun x => f)) (at level 200, x pattern, e at level 200, f at level 200).
Notation "'do!' e 'in' f" := (bindM e (fun _ => f)) (at level 200, e at level 200, f at level 200).
Fixpoint eachM {A} (f : A -> M unit) (l : list A) : M unit :=
  match l with
  | [] => ret tt
  | x :: l => do! f x in eachM f l
  end.
Fixpoint mapMM {A B} (f : A -> M B) (l : list A) : M (list B) :=
  match l with
  | [] => ret []
  | x :: l => let! y := f x in let! ys := mapMM f l in ret (y :: ys)
  end.

Definition lift {A} (r : res A) : M A := fun w => (w, r).
Definition look {A} (f : sys -> res A) : M A := fun w => (w, f (w_sys w)).
Definition look_fs {A} (f : fs -> A) : M A := fun w => (w, Ok (f (w_fs w))).
(** A committed transaction *)
Definition commit (f : sys -> res sys) : M unit := fun w =>
  match f (w_sys w) with
  | Ok s => (mkWorld s (w_fs w) ((w_sys w, w_fs w) :: w_past w) (w_log w), Ok tt)
  | Err e => (w, Err e)
  end.
(** One change of the file system *)
Definition touch (f : fs -> res fs) : M unit := fun w =>
  match f (w_fs w) with
  | Ok x => (mkWorld (w_sys w) x ((w_sys w, w_fs w) :: w_past w) (w_log w), Ok tt)
  | Err e => (w, Err e)
  end.
Definition note (e : event) : M unit := fun w => (mkWorld (w_sys w) (w_fs w) (w_past w) (e :: w_log w), Ok tt).

Section ops.
  Context (h : host) (o : opts).

  Definition confirm (q : question) : M bool := fun w =>
    let b := h_answer h (w_log w) q in
    (mkWorld (w_sys w) (w_fs w) (w_past w) (EvAsked q b :: w_log w), Ok b).

  (** comariface.py 91-126, called only if COMAR is there *)
  Definition hook (e : event) (name : string) : M unit := fun w =>
    let w1 := mkWorld (w_sys w) (w_fs w) (w_past w) (e :: w_log w) in
    match h_hook h (w_log w) name with
    | None => (w1, Ok tt)
    | Some x => (w1, Err x)
    end.

  (** ** op/remove.py *)

  (** op/remove.py 132-139 *)
  Definition run_preremove (name : string) : M unit :=
    if o_comar o then hook (EvPreRemove name) name else ret tt.

  (** op/remove.py 46-83, 150-151.  A missing file list counts as empty (52-56). *)
  Definition remove_single (name : string) : M unit :=
    let! p := look (fun s => get_package (y_db s) name RInst) in
    let! files := look (fun s => list_of s name) in
    let! inst := look (fun s => Ok (is_installed (y_inst s) name)) in
    if negb inst then throw EError else
    do! run_preremove name in
    do! eachM (fun fi => let! owners := look (fun s => Ok (y_files s)) in
                         touch (remove_file (h_sha1 h) (o_dest o) owners name fi)) files in
    do! commit (fun s => remove_db s name files) in
    do! commit (fun s => Ok (set_lists s (delete (name, p_version p, p_release p) (y_lists s)))) in
    note (EvRemoved name).

  Definition is_inst (s : sys) (x : string) : bool := is_installed (y_inst s) x.
  Definition expand (s : sys) (A : list string) : res (gset string) :=
    expand_components (order_of (y_db s)) (db_comp (y_db s)) A.
  (** set(ctx.componentdb.get_union_comp('system.base').packages), None if there is no such
      component *)
  Definition system_base (s : sys) : res (option (gset string)) :=
    b <- has_component (db_comp (y_db s)) "system.base" RRepos ;;
    if b : bool then
      c <- get_union_comp (order_of (y_db s)) (db_comp (y_db s)) "system.base" ;;
      Ok (Some (list_to_set (c_packages c)))
    else Ok None.

  (** op/remove.py 162-182: the packages requested, and those of them that may be removed *)
  Definition remove_request (s : sys) (A : list string) : res (gset string * gset string) :=
    A0 <- expand s A ;;
    A1 <- (if o_bypass_safety o then Ok A0
           else base <- system_base s ;;
                match base with
                | Some B => Ok (A0 ∖ B)
                | None => Ok A0
                end) ;;
    Ok (A0, filter (fun x => is_inst s x = true) A1).

  (** op/remove.py 154-208.  The result: False, or None. *)
  Definition remove (A : list string) (ignore_dep : bool) : M bool :=
    let! r := look (fun s => remove_request s A) in
    let A0 := r.1 in let A1 := h_list h r.2 in
    if bool_decide (r.2 = ∅) then ret false else
    let! order := (if o_ignore_dependency o || ignore_dep then ret A1
                   else look (fun s => go <- plan_remove s (h_it h) A1 ;; Ok go.2)) in
    let! go := (if bool_decide (size A0 < length order)%nat then confirm QRemoveExtra else ret true) in
    if negb go then ret false else
    if o_dry_run o then ret true else
    do! eachM (fun x => let! inst := look (fun s => Ok (is_inst s x)) in
                        if inst : bool then remove_single x else ret tt) order in
    ret true.

  (** ** op/conflict.py *)

  (** conflict.py 34-62: the installed packages that conflict with one in [order], and the
      packages in [order] that conflict with each other *)
  Definition calculate_conflicts (s : sys) (get : string -> res package) (order : list string)
    : res (gset string * gset string) :=
    foldM (fun CD x =>
             p <- get x ;;
             let Bp : gset string := list_to_set (List.filter (is_inst s) (p_conflicts p)) in
             let Bi : gset string := list_to_set (List.filter (fun c => str_in c order) (p_conflicts p)) in
             Ok (CD.1 ∪ Bp, if bool_decide (Bi = ∅) then CD.2 else CD.2 ∪ Bi ∪ {[p_name p]}))
          order (∅, ∅).

  (** conflict.py 64-87 *)
  Definition check_conflicts (get : sys -> string -> res package) (order : list string) : M unit :=
    let! CD := look (fun s => calculate_conflicts s (get s) order) in
    if negb (bool_decide (CD.2 = ∅)) then throw EError
    else if bool_decide (CD.1 = ∅) then ret tt
    else
      let! yes := confirm QConflicts in
      if negb yes then throw EError else
      let! done := remove (h_list h CD.1) true in
      if done : bool then ret tt else throw EError.

  (** ** op/install.py: one package *)

  (** install.py 129-163 *)
  Definition file_conflict (s : sys) (f : fs) (p : package) (fi : finfo) : bool :=
    match get_file (y_files s) (f_path fi) with
    | Some (q, _) => negb (String.eqb q (p_name p)) && negb (isdir f (join_path (o_dest o) [f_path fi]))
    | None => false
    end.
  Definition check_relations (k : pkgfile) (ignore_file_conflicts : bool) : M unit :=
    let p := k_pkg k in
    do! look (fun s => if existsb (fun _ => is_inst s (h_text h p)) (p_conflicts p) then Err EError else Ok tt) in
    do! (if o_ignore_dependency o then ret tt
         else let! ok := look (fun s => pkg_installable s p) in
              if ok : bool then ret tt else throw EError) in
    let! known := look (fun s => has_package (y_db s) (p_name p) RRepos) in
    do! (if known : bool then ret tt
         else commit (fun s => d <- add_package (y_db s) p RThird ;; Ok (set_db s d))) in
    let! f := look_fs (fun f => f) in
    let! clash := look (fun s => Ok (existsb (file_conflict s f p) (k_files k))) in
    if clash && negb ignore_file_conflicts then throw EError else ret tt.

  (** install.py 183-217: how the package compares to the installed one *)
  Inductive verdict := VSame | VUpgrade | VDowngrade (q : option question).
  Definition given (b : option Z) : bool := match b with Some z => negb (Z.eqb z 0) | None => false end.
  Definition compare_installed (info : iinfo) (p : package) : res verdict :=
    same <- (if negb (String.eqb (i_distribution info) (p_distribution p)) || negb (given (i_build info))
                || negb (given (p_build p)) || o_ignore_build o
             then r <- parse_version (p_release p) ;; ir <- parse_version (i_release info) ;; Ok (v_eq r ir)
             else Ok (bool_decide (p_build p = i_build info))) ;;
    if same : bool then Ok VSame
    else
      v <- parse_version (p_version p) ;; iv <- parse_version (i_version info) ;;
      if v_gt v iv then Ok VUpgrade
      else
        r <- parse_version (p_release p) ;; ir <- parse_version (i_release info) ;;
        if v_gt r ir then Ok VUpgrade
        else if negb (o_ignore_build o) && given (i_build info) && given (p_build p)
                && (default 0 (i_build info) <? default 0 (p_build p))%Z then Ok VUpgrade
        else if v_lt v iv then Ok (VDowngrade None)
        else if v_lt r ir then Ok (VDowngrade (Some QOldRelease))
        else Ok (VDowngrade (Some QOldBuild)).

  (** install.py 165-229.  The result: the file list and the record of the package to be
      replaced.  [files]: db/install.py 88-93 (a missing file list is a pisi.Error). *)
  Definition stored_list (s : sys) (name : string) : res (list finfo) :=
    info <- get_info (y_inst s) name ;;
    match y_lists s !! (name, i_version info, i_release info) with Some l => Ok l | None => Err EError end.
  Definition check_reinstall (k : pkgfile) (ask : bool) : M (option (list finfo * iinfo)) :=
    let p := k_pkg k in
    let! inst := look (fun s => Ok (is_inst s (p_name p))) in
    if inst : bool then
      let! info := look (fun s => get_info (y_inst s) (p_name p)) in
      let! v := lift (compare_installed info p) in
      do! (if negb ask then ret tt
           else match v with
                | VSame => let! yes := confirm QReinstall in if yes : bool then ret tt else throw EError
                | VUpgrade | VDowngrade None => ret tt
                | VDowngrade (Some q) => let! yes := confirm q in if yes : bool then ret tt else throw EError
                end) in
      let! old := look (fun s => stored_list s (p_name p)) in
      do! look (fun s => get_package (y_db s) (p_name p) RInst) in
      do! run_preremove (p_name p) in
      ret (Some (old, info))
    else ret None.

  (** list.sort(key = path): stable *)
  Fixpoint insert_by_path (x : finfo) (l : list finfo) : list finfo :=
    match l with
    | [] => [x]
    | y :: l' => if String.ltb (f_path x) (f_path y) then x :: l else y :: insert_by_path x l'
    end.
  Definition sort_by_path (l : list finfo) : list finfo := fold_left (fun acc x => insert_by_path x acc) l [].
  Definition has_path (l : list finfo) (x : finfo) : bool := existsb (fun y => String.eqb (f_path y) (f_path x)) l.

  (** install.py 274-277, 290-293: put a changed configuration file aside *)
  Definition put_aside (fpath : string) : M unit :=
    do! touch (fun f => if exists_ f (fpath +:+ ".old") then unlink f (fpath +:+ ".old") else Ok f) in
    touch (fun f => rename f fpath (fpath +:+ ".old")).
  (** install.py 268-280, 287-295: put it aside unless its content has hash [hash]; the
      result is the list config_changed *)
  Definition keep_config (changed : list string) (path : string) (hash : option string) : M (list string) :=
    let fpath := join_path (o_dest o) [path] in
    let! hs := look_fs (fun f => sha1_file (h_sha1 h) f fpath) in
    match hs with
    | Some x => if bool_decide (Some x = hash) then ret changed
                else do! put_aside fpath in ret (changed ++ [fpath])%list
    | None => ret changed
    end.
  (** install.py 254-281: the files in both versions, pairwise *)
  Fixpoint keep_configs (pairs : list (finfo * finfo)) (changed : list string) : M (list string) :=
    match pairs with
    | [] => ret changed
    | (newf, oldf) :: pairs =>
        if String.eqb (f_path newf) (f_path oldf) then
          let! changed := (if String.eqb (f_type newf) "config" && String.eqb (f_type oldf) "config"
                           then keep_config changed (f_path oldf) (f_hash oldf) else ret changed) in
          keep_configs pairs changed
        else throw EAssert
    end.
  (** install.py 283-295 *)
  Fixpoint keep_stray (files : list finfo) (changed : list string) : M (list string) :=
    match files with
    | [] => ret changed
    | x :: files =>
        let! changed := (if String.eqb (f_type x) "config" then keep_config changed (f_path x) (f_hash x)
                         else ret changed) in
        keep_stray files changed
    end.
  (** install.py 299-303 *)
  Definition restore_config (path : string) : M unit :=
    do! touch (fun f => if exists_ f (path +:+ ".newconfig") then unlink f (path +:+ ".newconfig") else Ok f) in
    do! touch (fun f => rename f path (path +:+ ".newconfig")) in
    touch (fun f => rename f (path +:+ ".old") path).

  (** install.py 247-309.  Line 309 calls a method on the class: a TypeError for the first
      left over file. *)
  Definition extract_install (k : pkgfile) (old : option (list finfo)) : M unit :=
    let new := k_files k in
    let! changed :=
      match old with
      | Some old => keep_configs (zip (List.filter (has_path old) (sort_by_path new))
                                      (List.filter (has_path new) (sort_by_path old))) []
      | None => keep_stray new []
      end in
    do! eachM (fun pe => touch (unpack_one (k_format k) (o_dest o) pe)) (k_data k) in
    do! eachM restore_config changed in
    match old with
    | Some old => if existsb (fun x => negb (has_path new x)) old then throw EType else ret tt
    | None => ret tt
    end.

  (** install.py 312-330: files.xml (metadata.xml and the COMAR scripts go the same way) *)
  Definition store_pisi_files (k : pkgfile) (old : option (list finfo * iinfo)) : M unit :=
    let p := k_pkg k in
    do! match old with
        | Some (_, info) => commit (fun s => Ok (set_lists s (delete (p_name p, i_version info, i_release info) (y_lists s))))
        | None => ret tt
        end in
    commit (fun s => Ok (set_lists s (<[(p_name p, p_version p, p_release p) := k_files k]> (y_lists s)))).

  (** install.py 89-127; [ask] is ask_reinstall *)
  Definition install_package (k : pkgfile) (ignore_file_conflicts ask : bool) : M unit :=
    let p := k_pkg k in
    do! check_relations k ignore_file_conflicts in
    let! old := check_reinstall k ask in
    do! extract_install k (option_map fst old) in
    do! store_pisi_files k old in
    do! (if o_comar o then hook (EvPostInstall (p_name p)) (p_name p) else ret tt) in
    do! commit (fun s => update_databases s p (k_files k) (negb (o_comar o)) (option_map fst old)) in
    note (EvInstalled (p_name p)).

  (** install.py 53-87 *)
  Definition from_name (s : sys) (name : string) : res pkgfile :=
    r <- which_repo (order_of (y_db s)) (db_pkg (y_db s)) name ;;
    _ <- (match r with
          | RName n => match rd_infos (db_repo (y_db s)) !! n with Some u => Ok u | None => Err EKey end
          | _ => Err EKey
          end) ;;
    p <- get_package (y_db s) name RRepos ;;
    h_fetch h p.

  (** install.py 364-374.  [Install.__init__] 79-81 turns the option on. *)
  Definition install_single_name (name : string) (upgrade : bool) : M unit :=
    let! k := look (fun s => from_name s name) in
    install_package k (o_ignore_file_conflicts o) (negb upgrade).
  Definition install_single_file (uri : string) (upgrade : bool) : M unit :=
    let! k := lift (h_open h uri) in
    install_package k (o_ignore_file_conflicts o) (negb upgrade).

  (** ** Whole operations *)

  (** install.py 551-581 *)
  Definition plan_install_pkg_names (A : list string) : M (list string) :=
    let! go := look (fun s => plan_install s (h_it h) A) in
    do! (if o_ignore_file_conflicts o then ret tt else check_conflicts (fun s n => get_package (y_db s) n RRepos) go.2) in
    ret go.2.
  (** upgrade.py 171-240 *)
  Definition plan_upgrade_pkg_names (A : list string) : M (list string) :=
    let! go := look (fun s => plan_upgrade s (h_it h) (o_eager o) A) in
    do! (if o_ignore_file_conflicts o then ret tt else check_conflicts (fun s n => get_package (y_db s) n RRepos) go.2) in
    ret go.2.

  (** [filter(p, X)] for a predicate that may raise *)
  Definition filter_res (p : string -> res bool) (l : list string) : res (list string) :=
    foldM (fun acc x => b <- p x ;; Ok (if b : bool then acc ++ [x] else acc)%list) l [].

  (** upgrade.py 55-75 *)
  Definition upgrade_base (A : gset string) : M (gset string) :=
    if o_bypass_safety o then ret ∅ else
    let! base := look system_base in
    match base with
    | None => ret ∅
    | Some B =>
        let! extra := look (fun s => Ok (List.filter (fun x => negb (is_inst s x)) (h_list h (B ∖ A)))) in
        let! install_order := plan_install_pkg_names extra in
        let! ups := look (fun s => filter_res (fun x => is_upgradable s x (o_ignore_build o))
                                     (h_list h (B ∖ list_to_set install_order))) in
        let! upgrade_order := (match ups with [] => ret [] | _ => plan_upgrade_pkg_names ups end) in
        ret (list_to_set (install_order ++ upgrade_order)%list)
    end.

  (** upgradepisi.py 34-41 *)
  Definition upgrade_pisi : M unit := throw EUpgradePisi.

  (** the lines "total_size = sum(...)": every package must be in a repository.  That each
      has a packageSize is taken for granted. *)
  Definition sizes (s : sys) (order : list string) : res unit :=
    _ <- mapM (fun x => get_package (y_db s) x RRepos) order ;; Ok tt.

  (** install.py 495-549.  [A_0] and [A] are the same Python set unless line 514 has made a
      new one, and line 520 (A |= ...) changes it in place. *)
  Definition install_pkg_names (A : list string) (reinstall : bool) : M bool :=
    let! A0 := look (fun s => expand s A) in
    let! A1 := look (fun s => Ok (if reinstall then A0 else filter (fun x => is_inst s x = false) A0)) in
    let fresh := bool_decide (A1 <> A0) in
    if bool_decide (A1 = ∅) then ret true else
    let! base := upgrade_base A1 in
    let A2 := A1 ∪ base in
    let A0' := if fresh then A0 else A2 in
    let! order := (if o_ignore_dependency o then ret (h_list h A2) else plan_install_pkg_names (h_list h A2)) in
    do! look (fun s => sizes s order) in
    if o_dry_run o then ret true else
    let! go := (if bool_decide (size A0' < length order)%nat then confirm QInstallExtra else ret true) in
    if negb go then ret false else
    let! had_pisi := look (fun s => Ok (is_inst s "pisi")) in
    do! eachM (fun x => install_single_name x true) order in
    do! (if str_in "pisi" order && had_pisi then upgrade_pisi else ret tt) in
    ret true.

  (** install.py 405-414, 454-471: the dictionary d_t and the graph over it *)
  Definition read_files (uris : list string) : res (gmap string pkgfile * gmap string string) :=
    foldM (fun dd x => k <- h_open h x ;;
             Ok (<[p_name (k_pkg k) := k]> dd.1, <[p_name (k_pkg k) := x]> dd.2)) uris (∅, ∅).
  Definition file_dict (d : gmap string pkgfile) : gmap string package := k_pkg <$> d.
  Definition file_graph (d : gmap string package) (A : list string) : res pgraph :=
    let get x := match d !! x with Some p => Ok p | None => Err EKey end in
    g <- foldM (pg_add_package get) A empty_graph ;;
    foldM (fun g x =>
             p <- get x ;; deps <- runtimeDependencies p ;;
             foldM (fun g dep => b <- dict_satisfies_dep d dep ;; if b : bool then pg_add_dep get g x dep else Ok g) deps g) A g.
  Definition unsatisfied (s : sys) (d : gmap string package) (A : list string) : res (list string) :=
    foldM (fun acc x =>
             match d !! x with
             | None => Err EKey
             | Some p =>
                 deps <- runtimeDependencies p ;;
                 foldM (fun acc dep =>
                          b <- installed_satisfies_dep s dep ;;
                          c <- (if b : bool then Ok true else dict_satisfies_dep d dep) ;;
                          Ok (if c : bool then acc else acc ++ [dep_package dep])%list) deps acc
             end) A [].

  (** install.py 389-492 *)
  Definition install_pkg_files (uris : list string) : M unit :=
    if negb (forallb (fun x => py_endswith x package_suffix) uris) then throw EError else
    if o_ignore_dependency o then eachM (fun x => install_single_file x false) uris else
    let! dd := lift (read_files uris) in
    let d := file_dict dd.1 in
    let A := map fst (map_to_list d) in
    let! extra := look (fun s => unsatisfied s d A) in
    do! match extra with
        | [] => ret tt
        | _ => let! yes := confirm QFileExtra in
               if yes : bool then do! install_pkg_names extra false in ret tt else throw EError
        end in
    match A with
    | [] => ret tt
    | _ =>
        let! g := lift (file_graph d A) in
        let! order := lift (topological_sort (it_vs (h_it h) g) (it_adj (h_it h) g)) in
        do! (if o_ignore_file_conflicts o then ret tt
             else check_conflicts (fun _ n => match d !! n with Some p => Ok p | None => Err EKey end) order) in
        if o_dry_run o then ret tt else
        eachM (fun x => match dd.2 !! x with Some u => install_single_file u false | None => throw EKey end) (rev order)
    end.

  (** install.py 378-387: [packages[0]] of an empty list is an IndexError *)
  Definition install (packages : list string) (reinstall : bool) : M unit :=
    match packages with
    | [] => throw EIndex
    | x :: _ => if py_endswith x package_suffix then install_pkg_files packages
                else do! install_pkg_names packages reinstall in ret tt
    end.

  (** upgrade.py 98-133: the packages to upgrade, without the option --security *)
  Definition due (s : sys) (x : string) : res bool :=
    if is_inst s x then
      vrb <- get_version (y_inst s) x ;;
      b <- has_package (y_db s) x RRepos ;;
      if b : bool then
        p <- get_package (y_db s) x RRepos ;;
        if o_ignore_build o || negb (given vrb.2) || negb (given (p_build p)) then
          r <- parse_version vrb.1.2 ;; pr <- parse_version (p_release p) ;; Ok (v_lt r pr)
        else Ok (default 0 vrb.2 <? default 0 (p_build p))%Z
      else Ok false
    else Ok false.

  (** upgrade.py 80-169 *)
  Definition upgrade_pkg_names (A : list string) : M bool :=
    let! A0 := look (fun s => expand s (match A with [] => list_installed (y_inst s) | _ => A end)) in
    let! Ap := look (fun s => filter_res (due s) (h_list h A0)) in
    match Ap with
    | [] => ret true
    | _ =>
        let! base := upgrade_base (list_to_set Ap) in
        let A2 : gset string := list_to_set Ap ∪ base in
        let! order := (if o_ignore_dependency o then ret (h_list h A2) else plan_upgrade_pkg_names (h_list h A2)) in
        do! look (fun s => sizes s order) in
        if o_dry_run o then ret true else
        let! go := (if bool_decide (size A0 < length order)%nat then confirm QUpgradeExtra else ret true) in
        if negb go then ret false else
        let! ks := mapMM (fun x => look (fun s => from_name s x)) order in
        do! eachM (fun k => install_package k true true) ks in
        do! (if str_in "pisi" order then upgrade_pisi else ret tt) in
        ret true
    end.

  (** op/configurepending.py 36-82.  comar has to be importable: o_comar; otherwise Error.
      m.read of a missing metadata.xml is an error; it is stored with files.xml. *)
  Definition configure_one (x : string) : M unit :=
    let! inst := look (fun s => Ok (is_inst s x)) in
    do! (if inst : bool then
           if o_comar o then
             do! look (fun s => stored_list s x) in
             hook (EvPostInstall x) x
           else throw EError
         else ret tt) in
    commit (fun s => record_configured s x).
  Definition configure_pending : M unit :=
    let! A := look (fun s => l <- list_pending (y_inst s) ;; Ok (map fst l)) in
    let! go := look (fun s => plan_configure s (h_it h) A) in
    eachM configure_one go.2.
End ops.
