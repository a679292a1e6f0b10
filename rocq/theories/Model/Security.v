(** * upgrade --security

    pisi/op/upgrade.py 80-169 with the option --security. *)
From Coq Require Import String Ascii ZArith List.
From stdpp Require Import gmap strings.
From Verif Require Import Model.Py Model.Version Model.ItemByRepo Model.Dependency Model.Package Model.ComponentDB Model.Databases
  Model.InstallDB Model.System Model.Path Model.Fs Model.Graph Model.Plan Model.Ops.
Open Scope string_scope.

(** data/specfile.py 89-105: an entry of the history of a package *)
Record update := mkUpdate {
  u_date : string;
  u_version : string;
  u_release : string;
  u_type : option string
}.
(** specfile.py 99-105: Update.__str__; "if self.type" *)
Definition update_str (u : update) : string :=
  u_date u ++ ", ver=" ++ u_version u ++ ", rel=" ++ u_release u ++
  match u_type u with Some t => if String.eqb t "" then "" else ", type=" ++ t | None => "" end.

Section security.
  Variable h : host.
  Variable o : opts.
  (** the history of a package of a repository, as it is in the index *)
  Variable history : package -> list update.

  (** upgrade.py 109: Version(x.release) > Version(release).  The two are parsed in the other
      order; both failures are the same ValueError. *)
  Definition later (release : string) (u : update) : res bool :=
    a <- parse_version release ;; b <- parse_version (u_release u) ;; Ok (v_lt a b).
  Definition later_updates (release : string) (l : list update) : res (list update) :=
    foldM (fun acc u => b <- later release u ;; Ok (if b : bool then acc ++ [u] else acc)%list) l [].
  (** upgrade.py 110 *)
  Definition is_security (u : update) : bool := match u_type u with Some t => String.eqb t "security" | None => false end.

  (** upgrade.py 94-128.  In Python 2 the variable of a list comprehension stays bound after it:
      line 109 leaves the last entry of the history in [x], and that is what lines 115 and 121
      append.  The result is what is appended, as the databases will see it: they take str(x).
      The tests of lines 113-128 are those of [due]. *)
  Definition due_security (s : sys) (x : string) : res (option string) :=
    if is_inst s x then
      vrb <- get_version (y_inst s) x ;;
      b <- has_package (y_db s) x RRepos ;;
      if b : bool then
        p <- get_package (y_db s) x RRepos ;;
        updates <- later_updates vrb.1.2 (history p) ;;
        if existsb is_security updates then
          d <- due o s x ;;
          Ok (if d : bool then Some (match List.last (map Some (history p)) None with Some u => update_str u | None => x end) else None)
        else Ok None
      else Ok None
    else Ok None.

  (** upgrade.py 80-169.  An update is not equal to a string, so that nothing is taken out of
      system.base in [upgrade_base]. *)
  Definition upgrade_security (A : list string) : M bool :=
    let! A0 := look (fun s => expand s (match A with [] => list_installed (y_inst s) | _ => A end)) in
    let! found := look (fun s => Py.mapM (due_security s) (h_list h A0)) in
    match omap id found with
    | [] => ret true
    | Ap =>
        let! base := upgrade_base h o ∅ in
        let A2 : gset string := list_to_set Ap ∪ base in
        let! order := (if o_ignore_dependency o then ret (h_list h A2) else plan_upgrade_pkg_names h o (h_list h A2)) in
        do! look (fun s => sizes s order) in
        if o_dry_run o then ret true else
        let! go := (if bool_decide (size A0 < length order)%nat then confirm h QUpgradeExtra else ret true) in
        if negb go then ret false else
        let! ks := mapMM (fun x => look (fun s => from_name h s x)) order in
        do! eachM (fun k => install_package h o k true true) ks in
        do! (if str_in "pisi" order then upgrade_pisi else ret tt) in
        ret true
    end.
End security.
