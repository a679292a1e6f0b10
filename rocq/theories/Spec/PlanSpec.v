(** * What planning an operation means *)
From Coq Require Import String List ZArith.
From stdpp Require Import gmap strings relations.
From Verif Require Import Model.Py Model.ItemByRepo Model.Dependency Model.Package Model.Databases
  Model.InstallDB Model.System Model.Graph Model.Plan
  Spec.VersionSpec Spec.DependencySpec Spec.ItemByRepoSpec Spec.DatabaseSpec Spec.SystemSpec Spec.GraphSpec.
Open Scope string_scope.

(** The orders of iteration Python may use: each set is gone through without omission or
    repetition, in whatever order. *)
Definition any_order (it : iter) : Prop :=
  (forall n X, NoDup (it_set it n X) /\ forall x, In x (it_set it n X) <-> x ∈ X) /\
  (forall g, built g -> iterates g (it_vs it g) (it_adj it g)).

(** The package a repository offers under a name, and the one installed under it. *)
Definition offered (s : sys) (n : string) (p : package) : Prop := get_package (y_db s) n RRepos = Ok p.
Definition present (s : sys) (n : string) (p : package) : Prop :=
  is_installed (y_inst s) n = true /\ get_package (y_db s) n RInst = Ok p.

(** Something installed satisfies the dependency. *)
Definition met (s : sys) (d : dependency) : Prop := exists p, present s (dep_package d) p /\ within d p.
(** The question whether the installed package satisfies it has an answer. *)
Definition answerable (s : sys) (d : dependency) : Prop :=
  forall p, present s (dep_package d) p -> window_readable d (p_version p) (p_release p).

(** ** Installing *)
(** Package [x], as offered, has a dependency on [y] that the system does not satisfy. *)
Definition needs (s : sys) (x y : string) : Prop :=
  exists p d, offered s x p /\ In d (p_deps p) /\ dep_package d = y /\ ~ met s d.
(** Requested, or needed by something needed. *)
Definition needed (s : sys) (A : list string) (x : string) : Prop := exists a, In a A /\ rtc (needs s) a x.

(** Some needed package needs, perhaps indirectly, itself. *)
Definition need_cycle (s : sys) (A : list string) : Prop := exists x, needed s A x /\ tc (needs s) x x.

(** ** Removing *)
(** Installed [y] relies on [x]: the index lists [y] under [x] with a dependency that is
    satisfied at present. *)
Definition relies_on (s : sys) (x y : string) : Prop :=
  exists l d, get_rev_deps (y_db s) x RInst = Ok l /\ In (y, d) l /\ (exists p, present s y p) /\ met s d.
Definition falls_with (s : sys) (A : list string) (x : string) : Prop := exists a, In a A /\ rtc (relies_on s) a x.

(** ** Upgrading *)
Definition text_before (a b : string) : Prop :=
  exists v w, version_syntax a v /\ version_syntax b w /\ ver_before v w.
(** A build number counts if there is one and it is not 0. *)
Definition build_given (b : option Z) (x : Z) : Prop := b = Some x /\ x <> 0%Z.
(** The package offered is newer than release [r], build [b]: by build number if both have
    one and build numbers count, otherwise by release. *)
Definition newer (ignore_build : bool) (r : string) (b : option Z) (p : package) : Prop :=
  (exists x y, ignore_build = false /\ build_given b x /\ build_given (p_build p) y /\ (x < y)%Z) \/
  ((ignore_build = true \/ (forall x, ~ build_given b x) \/ (forall y, ~ build_given (p_build p) y)) /\
   text_before r (p_release p)).
Definition upgrade_due (s : sys) (ignore_build : bool) (n : string) : Prop :=
  exists v r b p, is_installed (y_inst s) n = true /\ get_version (y_inst s) n = Ok (v, r, b) /\
    offered s n p /\ newer ignore_build r b p.

(** What the repositories offer satisfies the dependency. *)
Definition repo_meets (s : sys) (d : dependency) : Prop := exists p, offered s (dep_package d) p /\ within d p.
(** The upgrade leaves the package depended upon as it is: normally if it satisfies the
    dependency, with [eager] if it is installed and no upgrade is due. *)
Definition left_alone (s : sys) (eager : bool) (d : dependency) : Prop :=
  if eager then is_installed (y_inst s) (dep_package d) = true /\ ~ upgrade_due s false (dep_package d) else met s d.
Definition upgrade_needs (s : sys) (eager : bool) (x y : string) : Prop :=
  exists p d, offered s x p /\ In d (p_deps p) /\ dep_package d = y /\ ~ left_alone s eager d.
Definition upgrade_needed (s : sys) (eager : bool) (A : list string) (x : string) : Prop :=
  exists a, In a A /\ rtc (upgrade_needs s eager) a x.
(** [y], according to the index of the repositories, depends on [x] and is taken along:
    normally if it is installed and the installed system does not satisfy that
    dependency, with [eager] if an upgrade is due. *)
Definition taken_along (s : sys) (eager : bool) (x y : string) : Prop :=
  exists l d, get_rev_deps (y_db s) x RRepos = Ok l /\ In (y, d) l /\
    if eager then upgrade_due s false y else is_installed (y_inst s) y = true /\ ~ met s d.
