(** * Listing and information commands

    pisi/cli/listcmd.py, pisi/op/listops.py, pisi/cli/repo.py ListRepo, pisi/cli/info.py,
    pisi/op/info.py.  A command is what it prints, line by line; when it raises, the lines
    printed before are left out.  Opening and closing the databases is left out, and so are
    verbose and debug messages. *)
From Coq Require Import String Ascii ZArith List.
From stdpp Require Import gmap strings.
From Verif Require Import Model.Py Model.ItemByRepo Model.Dependency Model.Package Model.ComponentDB Model.Databases
  Model.InstallDB Model.System Model.Path Model.Plan Model.Ops Model.Build.
Open Scope string_scope.

Fixpoint spaces (n : nat) : string := match n with O => "" | Datatypes.S n => String " " (spaces n) end.
(** '%15s' *)
Definition right_in (width : nat) (s : string) : string := spaces (width - String.length s) ++ s.
(** '%-15s'; p + ' ' * max(0, 15 - lenp) *)
Definition left_in (width : nat) (s : string) : string := s ++ spaces (width - String.length s).

(** [list.sort()] on byte strings *)
Definition sort_names (l : list string) : list string := sort_by String.ltb l.

(** cli/colors.py 18-20, 55, 57-62: colorize(msg, 'green') *)
Definition escape (code : string) : string := String (ascii_of_nat 27) code.
Definition green (no_color : bool) (s : string) : string :=
  if no_color then s else escape "[32m" ++ s ++ escape "[0m".

Fixpoint assoc (k : string) (l : list (string * string)) : option string :=
  match l with [] => None | (k', v) :: l' => if String.eqb k k' then Some v else assoc k l' end.
(** exml/autoxml.py 148-159: LocalText.__str__ *)
Definition local_text (lang : string) (t : list (string * string)) : string :=
  match assoc lang t with
  | Some x => x
  | None => match assoc "en" t with
            | Some x => x
            | None => match assoc "tr" t with Some x => x | None => "" end
            end
  end.

(** db/install.py 51-57: one_liner; [time] is the formatted time of installation *)
Definition state_str (st : istate) : string := match st with StI => "i" | StIP => "ip" | StR => "r" end.
Definition one_liner (i : iinfo) (time : string) : string :=
  right_in 2 (state_str (i_state i)) ++ "|" ++ right_in 10 (i_version i) ++ "|" ++ right_in 6 (i_release i) ++ "|" ++
  right_in 6 (match i_build i with Some b => str_of_Z b | None => "None" end) ++ "|" ++
  right_in 8 (i_distribution i) ++ "|" ++ right_in 12 time.

Section lists.
  Variable lang : string.                   (* autoxml.py 105-116: LocalText.get_lang *)
  Variable full : package -> string.        (* unicode(package) *)
  Variable info_text : iinfo -> string.     (* unicode(inst_info) *)
  Variable time : string -> string.         (* when a package was installed *)
  Variable about_source : spec -> string.   (* unicode(sf.source.summary) *)
  Variable source_text : spec -> string.    (* unicode(sf.source) *)
  Variable about_component : component -> string.    (* unicode(component.summary) *)
  Variable component_text : component -> string.     (* unicode(component) *)

  Definition table_head : list string :=
    ["Package Name     |St|   Version|  Rel.| Build|  Distro|             Date";
     "========================================================================"].

  (** listcmd.py 46-62: list-installed [--long] [--install-info] *)
  Definition cmd_list_installed (s : sys) (long install_info : bool) : res (list string) :=
    lines <- Py.mapM (fun pkg =>
        package <- get_package (y_db s) pkg RInst ;;
        inst_info <- get_info (y_inst s) pkg ;;
        Ok (if long then [full package; info_text inst_info]
            else if install_info then [left_in 15 (p_name package) ++ "  |" ++ one_liner inst_info (time pkg)]
            else [right_in 15 (p_name package) ++ " - " ++ local_text lang (p_summary package)]))
      (sort_names (list_installed (y_inst s))) ;;
    Ok ((if install_info then table_head else []) ++ concat lines)%list.

  (** listcmd.py 107-124: print_packages.  The package shown is looked up without naming the
      repository.  --uninstalled is looked at in the short format only. *)
  Definition print_packages (s : sys) (long uninstalled no_color : bool) (repo : string) : res (list string) :=
    names <- list_items (db_pkg (y_db s)) (RName repo) ;;
    lines <- Py.mapM (fun p =>
        package <- get_package (y_db s) p RRepos ;;
        Ok (if long then [full package]
            else if is_installed (y_inst s) p && uninstalled then []
            else [(if is_installed (y_inst s) p then green no_color p else p) ++ spaces (15 - String.length p) ++
                  " - " ++ local_text lang (p_summary package) ++ " "]))
      (sort_names names) ;;
    Ok (concat lines).

  (** listcmd.py 89-105: list-available [--long] [--uninstalled] [repositories] *)
  Definition cmd_list_available (s : sys) (long uninstalled no_color : bool) (repos : list string) : res (list string) :=
    lines <- match repos with
             | _ :: _ => Py.mapM (print_packages s long uninstalled no_color) repos
             | [] => Py.mapM (fun repo => l <- print_packages s long uninstalled no_color repo ;;
                                          Ok (("Repository : " ++ repo) :: "" :: l)) (order_of (y_db s))
             end ;;
    Ok ((if no_color || uninstalled then [] else [green no_color "Installed packages are shown in this color"]) ++ concat lines)%list.

  (** listcmd.py 146-162: list-components [--long] *)
  Definition cmd_list_components (s : sys) (long : bool) : res (list string) :=
    names <- list_items (db_comp (y_db s)) RRepos ;;
    Py.mapM (fun p =>
        component <- get_component (order_of (y_db s)) (db_comp (y_db s)) p RRepos ;;
        Ok (if long then component_text component else c_name component ++ " - " ++ about_component component ++ " "))
      (sort_names names).

  (** listcmd.py 183-200: list-sources [--long] *)
  Definition cmd_list_sources (s : sys) (long : bool) : res (list string) :=
    names <- list_items (db_src (y_db s)) RRepos ;;
    lines <- Py.mapM (fun p =>
        sr <- get_item_repo (order_of (y_db s)) (db_src (y_db s)) p RRepos ;;
        if long then
          match sr.2 with
          | RName repo => Ok ["[Repository: " ++ repo ++ "]"; source_text sr.1]
          | _ => Err EType
          end
        else Ok [sp_name sr.1 ++ " - " ++ about_source sr.1])
      (sort_names names) ;;
    Ok (concat lines).

  (** listcmd.py 262-268: list-pending; in the order of the dictionary *)
  Definition cmd_list_pending (s : sys) : res (list string) :=
    l <- list_pending (y_inst s) ;; Ok (map fst l).

  (** cli/repo.py 139-145: list-repo *)
  Definition cmd_list_repo (s : sys) : res (list string) :=
    lines <- Py.mapM (fun repo =>
        match rd_infos (db_repo (y_db s)) !! repo with
        | Some uri => Ok [repo; "   " ++ uri]
        | None => Err EKey
        end) (order_of (y_db s)) ;;
    Ok (concat lines).

  (** op/listops.py 35-38: list_upgradable.  The option --ignore-build-no is read, and not
      passed on. *)
  Definition list_upgradable (s : sys) : res (list string) :=
    filter_res (fun x => is_upgradable s x false) (list_installed (y_inst s)).

  (** cli/info.py 57-107, op/info.py 32-40: info with no option but --short; [package_in] is
      what reading a file as a package gives.  pisi.api has no info_name (api.py 154). *)
  Section info.
    Variable package_in : string -> res package.
    Definition info_one (s : sys) (short : bool) (arg : string) : res (list string) :=
      known <- has_component (db_comp (y_db s)) arg RRepos ;;
      if known : bool then
        c <- get_union_comp (order_of (y_db s)) (db_comp (y_db s)) arg ;;
        Ok [if short then c_name c ++ " - " ++ about_component c else component_text c]
      else if py_endswith arg package_suffix then
        p <- package_in arg ;;
        Ok (("Package file: " ++ arg) :: (if short then [right_in 15 (p_name p) ++ " - " ++ local_text lang (p_summary p)]
                                           else [full p; ""]))
      else if is_installed (y_inst s) arg then Err EAttribute
      else
        found <- has_package (y_db s) arg RRepos ;;
        if found : bool then Err EAttribute else Ok [].
    Definition cmd_info (s : sys) (short : bool) (args : list string) : res (list string) :=
      lines <- Py.mapM (info_one s short) args ;; Ok (concat lines).
  End info.
End lists.
