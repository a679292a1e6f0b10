(** * What installing, removing, upgrading and configuring packages should do *)
From Coq Require Import String List ZArith.
From stdpp Require Import gmap strings relations.
From Verif Require Import Model.Py Model.ItemByRepo Model.Dependency Model.Package Model.ComponentDB Model.Databases
  Model.InstallDB Model.System Model.Graph Model.Plan Model.Path Model.Fs Model.Ops
  Spec.VersionSpec Spec.DependencySpec Spec.ItemByRepoSpec Spec.DatabaseSpec Spec.SystemSpec Spec.GraphSpec Spec.PlanSpec
  Spec.PathSpec Spec.FsSpec.
Open Scope string_scope.

(** Sets are gone through without omission or repetition, in whatever order. *)
Definition fair (h : host) : Prop :=
  any_order (h_it h) /\ forall X, NoDup (h_list h X) /\ forall x, In x (h_list h X) <-> x ∈ X.

(** The disk is as it was, at every moment *)
Definition untouched (w w' : world) : Prop :=
  w_sys w' = w_sys w /\ w_fs w' = w_fs w /\ w_past w' = w_past w.

(** Every installed package has what it depends on. *)
Definition deps_met (s : sys) : Prop := forall n p d, present s n p -> In d (p_deps p) -> met s d.

(** The index of installed packages lists every dependency. *)
Definition index_complete (s : sys) : Prop :=
  forall x l y q d, get_rev_deps (y_db s) x RInst = Ok l -> present s y q -> In d (p_deps q) -> dep_package d = x -> In (y, d) l.

Definition has_pkg (s : sys) (n : string) : Prop := exists p, present s n p.

(** What the user asked for: names, components standing for their packages. *)
Definition requested (s : sys) (A : list string) (p : string) : Prop :=
  exists x, In x A /\
    ((has_component (db_comp (y_db s)) x RRepos = Ok false /\ p = x) \/
     (has_component (db_comp (y_db s)) x RRepos = Ok true /\
      exists r, In r (order_of (y_db s)) /\ lists_package (y_db s) x (RName r) p)).
Definition in_base (s : sys) (x : string) : Prop :=
  has_component (db_comp (y_db s)) "system.base" RRepos = Ok true /\
  exists r, In r (order_of (y_db s)) /\ lists_package (y_db s) "system.base" (RName r) x.

(** The databases of installed packages, of files, and the records and reverse dependencies
    of installed packages are the same. *)
Definition same_records (s s' : sys) : Prop :=
  y_inst s' = y_inst s /\ y_files s' = y_files s /\
  forall n, get_package (y_db s') n RInst = get_package (y_db s) n RInst /\
            get_rev_deps (y_db s') n RInst = get_rev_deps (y_db s) n RInst.

(** The states a crash between [w] and [w'] can leave, apart from [w'] itself *)
Definition crash_point (w w' : world) (c : sys * fs) : Prop :=
  exists new, w_past w' = (new ++ w_past w)%list /\ In c new.

(** Package [p] is written down, if it was unknown to the repositories, as third party. *)
Definition noted (s : sys) (p : package) (s' : sys) : Prop :=
  (has_package (y_db s) (p_name p) RRepos = Ok true /\ s' = s) \/
  (has_package (y_db s) (p_name p) RRepos = Ok false /\
   exists d, add_package (y_db s) p RThird = Ok d /\ s' = set_db s d).

(** The questions asked between [w] and [w'], with their answers *)
Definition asked (w w' : world) (q : question) (yes : bool) : Prop :=
  exists new, w_log w' = (new ++ w_log w)%list /\ In (EvAsked q yes) new.

(** A file of the package lies where another package has something that is not a directory. *)
Definition clashes (dest : string) (s : sys) (f : fs) (k : pkgfile) : Prop :=
  exists fi n fi', In fi (k_files k) /\ y_files s !! f_path fi = Some (n, fi') /\ n <> p_name (k_pkg k) /\
    stat f (join_path dest [f_path fi]) <> Some NDir.

(** [s'] is what the databases hold right after [s], at some point between [w] and [w'] *)
Definition successive (w w' : world) (s s' : sys) : Prop :=
  exists new pre post, w_past w' = (new ++ w_past w)%list /\ (w_sys w' :: map fst new = pre ++ s' :: s :: post)%list.

(** The records stay, or one package is recorded as installed, or one as removed. *)
Definition whole_step (s s' : sys) : Prop :=
  same_records s s' \/
  (exists s0 p files later, system s0 /\ same_records s s0 /\ record_install s0 p files later = Ok s') \/
  (exists s1 n, system s /\ record_remove s n = Ok s1 /\ same_records s1 s').

(** What a user can start *)
Inductive command :=
| CInstall (packages : list string) (reinstall : bool)
| CUpgrade (packages : list string)
| CRemove (packages : list string).
Definition run (h : host) (o : opts) (c : command) : M unit :=
  match c with
  | CInstall A r => install h o A r
  | CUpgrade A => do! upgrade_pkg_names h o A in ret tt
  | CRemove A => do! remove h o A false in ret tt
  end.

(** ** Installing over an installed package *)
(** Build numbers decide if both have one, come from one distribution, and the user has not
    said otherwise. *)
Definition builds_decide (ignore_build : bool) (info : iinfo) (p : package) : Prop :=
  i_distribution info = p_distribution p /\ ignore_build = false /\
  (exists x, build_given (i_build info) x) /\ (exists y, build_given (p_build p) y).
Definition same_one (ignore_build : bool) (info : iinfo) (p : package) : Prop :=
  (builds_decide ignore_build info p /\ p_build p = i_build info) \/
  (~ builds_decide ignore_build info p /\ text_eq (p_release p) (i_release info)).
Definition newer_one (ignore_build : bool) (info : iinfo) (p : package) : Prop :=
  text_before (i_version info) (p_version p) \/ text_before (i_release info) (p_release p) \/
  (ignore_build = false /\ exists x y, build_given (i_build info) x /\ build_given (p_build p) y /\ (x < y)%Z).
Definition all_readable (info : iinfo) (p : package) : Prop :=
  readable (i_version info) /\ readable (i_release info) /\ readable (p_version p) /\ readable (p_release p).
(** What the user is asked. *)
Definition question_for (ignore_build : bool) (info : iinfo) (p : package) (q : question) : Prop :=
  (same_one ignore_build info p /\ q = QReinstall) \/
  (~ same_one ignore_build info p /\ ~ newer_one ignore_build info p /\ ~ text_before (p_version p) (i_version info) /\
   ((text_before (p_release p) (i_release info) /\ q = QOldRelease) \/
    (~ text_before (p_release p) (i_release info) /\ q = QOldBuild))).

(** ** Files of removed packages *)
(** Paths in file lists are relative, as gen_files_xml writes them. *)
Definition relative_lists (s : sys) : Prop := forall n files fi, is_installed (y_inst s) n = true ->
  list_of s n = Ok files -> In fi files -> relative_path (f_path fi).
(** Package [n] lists the path [q], not as permanent, and if as configuration, then with the
    content that is there. *)
Definition gives_up (sha1 : string -> string) (dest : string) (s : sys) (n q : string) (x : node) : Prop :=
  is_installed (y_inst s) n = true /\ exists files fi, list_of s n = Ok files /\ In fi files /\
    q = located dest (f_path fi) /\ ~ marked_permanent fi /\
    forall c, x = NFile c -> is_config fi -> f_hash fi = Some (sha1 c).

(** ** Conflicts *)
(** What is downloaded is what the repository's index says. *)
Definition honest (h : host) : Prop := forall p k, h_fetch h p = Ok k -> k_pkg k = p.
(** Packages installed between [w] and [w'] *)
Definition installed_now (w w' : world) (n : string) : Prop :=
  exists new, w_log w' = (new ++ w_log w)%list /\ In (EvInstalled n) new.

(** the installed package x names y among the packages it conflicts with *)
Definition declares (s : sys) (x y : string) : Prop := exists p, present s x p /\ In y (p_conflicts p).
(** ... and so does the package x of the repositories *)
Definition offers (s : sys) (x y : string) : Prop := exists p, get_package (y_db s) x RRepos = Ok p /\ In y (p_conflicts p).

(** ** Asking first *)
Definition an_installation (e : event) : Prop := exists n, e = EvInstalled n.
Definition a_removal (e : event) : Prop := exists n, e = EvRemoved n.
(** Between [w] and [w'] the user agreed to [q] before the first such event. *)
Definition agreed_first (w w' : world) (q : question) (act : event -> Prop) : Prop :=
  exists new old, w_log w' = (new ++ EvAsked q true :: old ++ w_log w)%list /\ forall e, In e old -> ~ act e.
Definition refuses (h : host) (q : question) : Prop := forall past, h_answer h past q = false.
(** an event between [w] and [w'] *)
Definition happens (w w' : world) (e : event) : Prop := exists new, w_log w' = (new ++ w_log w)%list /\ In e new.
(** system.base is complete and up to date, or not looked at *)
Definition base_current (o : opts) (s : sys) : Prop :=
  o_bypass_safety o = true \/ forall y, in_base s y -> is_installed (y_inst s) y = true /\ ~ upgrade_due s (o_ignore_build o) y.
(** [x] is the name of a package in one of the files *)
Definition named_by_file (h : host) (uris : list string) (x : string) : Prop :=
  exists u k, In u uris /\ h_open h u = Ok k /\ p_name (k_pkg k) = x.

(** ** Configuring later *)
(** Among the packages [L], [x] has a dependency on [y]. *)
Definition waits_for (s : sys) (L : list string) (x y : string) : Prop :=
  In x L /\ In y L /\ exists p d, present s x p /\ In d (p_deps p) /\ dep_package d = y.
(** No package of [L] waits, perhaps indirectly, for itself. *)
Definition no_circle (s : sys) (L : list string) : Prop := forall x, ~ tc (waits_for s L) x x.
(** Nothing but the marks of packages awaiting configuration may differ. *)
Definition same_but_marks (s s' : sys) : Prop :=
  y_db s' = y_db s /\ y_files s' = y_files s /\ y_lists s' = y_lists s /\
  forall n, is_installed (y_inst s') n = is_installed (y_inst s) n /\ get_version (y_inst s') n = get_version (y_inst s) n.

(** ** Configuration files *)
(** usr is above usr/lib *)
Definition above (a b : string) : Prop := exists r, b = a +:+ "/" +:+ r.
(** Names the program uses while it replaces a configuration file *)
Definition side_name (p : string) : Prop := exists q, p = q +:+ ".old" \/ p = q +:+ ".newconfig".
(** The package is in order: every path once, relative, none a side name; only directories
    hold other things. *)
Definition in_order (k : pkgfile) : Prop :=
  NoDup (map f_path (k_files k)) /\ NoDup (map fst (k_data k)) /\
  (forall fi, In fi (k_files k) -> relative_path (f_path fi) /\ ~ side_name (f_path fi)) /\
  (forall p e, In (p, e) (k_data k) -> relative_path p /\ ~ side_name p) /\
  (forall p e p' e', In (p, e) (k_data k) -> In (p', e') (k_data k) -> above p p' -> e = ADir).
(** Package [k] brings the configuration file [c], content [packaged]; at its place is a file
    with content [mine]. *)
Definition brings_config (dest : string) (f : fs) (k : pkgfile) (c packaged mine : string) : Prop :=
  (exists fi, In fi (k_files k) /\ f_path fi = c /\ is_config fi) /\ In (c, AFile packaged) (k_data k) /\
  f !! located dest c = Some (NFile mine).
(** The user changed it: the installed package, if there is one, lists [c] as a configuration
    file with another hash; otherwise the new package does. *)
Definition user_changed (sha1 : string -> string) (s : sys) (k : pkgfile) (c mine : string) : Prop :=
  (is_installed (y_inst s) (p_name (k_pkg k)) = true -> exists old fi, list_of s (p_name (k_pkg k)) = Ok old /\
     NoDup (map f_path old) /\ In fi old /\ f_path fi = c /\ is_config fi /\ f_hash fi <> Some (sha1 mine)) /\
  (is_installed (y_inst s) (p_name (k_pkg k)) = false -> exists fi, In fi (k_files k) /\ f_path fi = c /\ is_config fi /\ f_hash fi <> Some (sha1 mine)).
