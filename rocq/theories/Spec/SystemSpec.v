(** * What users rely on about the databases of installed packages and files *)
From Coq Require Import String List ZArith.
From stdpp Require Import gmap strings.
From Verif Require Import Model.Py Model.ItemByRepo Model.Dependency Model.Package Model.Databases
  Model.InstallDB Model.System Spec.DependencySpec Spec.ItemByRepoSpec Spec.DatabaseSpec.
Open Scope string_scope.

(** ** The install database alone *)

Inductive iev :=
| EvInstall (pkg version release : string) (build : option Z) (distro : string) (later : bool)
| EvConfigured (pkg : string)
| EvRemove (pkg : string)
| EvPurge (pkg : string).

Definition do_event (db : installdb) (e : iev) : res installdb :=
  match e with
  | EvInstall p v r b d later => db_install db p v r b d later
  | EvConfigured p => clear_pending db p
  | EvRemove p => db_remove db p
  | EvPurge p => db_purge db p
  end.

(** [happened log db]: the events of [log], latest first, all succeeded, and led to [db]. *)
Inductive happened : list iev -> installdb -> Prop :=
| hap_start : happened [] empty_inst
| hap_step log db e db' : happened log db -> do_event db e = Ok db' -> happened (e :: log) db'.

(** What became of a package, by its latest relevant event. *)
Inductive fate :=
| NeverSeen
| Present (version release : string) (build : option Z)
| Gone (version release : string) (build : option Z).

Fixpoint fate_of (log : list iev) (p : string) : fate :=
  match log with
  | [] => NeverSeen
  | EvInstall q v r b _ _ :: log => if String.eqb q p then Present v r b else fate_of log p
  | EvRemove q :: log =>
      if String.eqb q p
      then match fate_of log p with Present v r b | Gone v r b => Gone v r b | NeverSeen => NeverSeen end
      else fate_of log p
  | EvPurge q :: log => if String.eqb q p then NeverSeen else fate_of log p
  | EvConfigured _ :: log => fate_of log p
  end.

(** Installed with configuration postponed, and neither configured, removed nor purged since *)
Fixpoint awaiting (log : list iev) (p : string) : Prop :=
  match log with
  | [] => False
  | EvInstall q _ _ _ _ later :: log => if String.eqb q p then later = true else awaiting log p
  | EvRemove q :: log | EvPurge q :: log | EvConfigured q :: log =>
      if String.eqb q p then False else awaiting log p
  end.

(** A package awaiting configuration is not removed (and so not upgraded) or purged. *)
Fixpoint undisturbed (log : list iev) : Prop :=
  match log with
  | [] => True
  | EvRemove q :: log | EvPurge q :: log => ~ awaiting log q /\ undisturbed log
  | _ :: log => undisturbed log
  end.

(** ** Systems *)

(** What users do: repository commands, installing a package (new, or over an installed
    one), recording one as third party, removing, configuring. *)
Inductive yop :=
| YRepo (o : dbop)
| YInstall (p : package) (files : list finfo) (later : bool)
| YRemove (name : string)
| YConfigured (name : string).

Definition repo_command (o : dbop) : Prop :=
  match o with OAddRepo _ _ _ | ORemoveRepo _ | OUpdateRepo _ _ | OThirdParty _ => True | _ => False end.

Definition apply_yop (s : sys) (o : yop) : res sys :=
  match o with
  | YRepo o => d <- apply_op (y_db s) o ;; Ok (set_db s d)
  | YInstall p files later => record_install s p files later
  | YRemove name => record_remove s name
  | YConfigured name => record_configured s name
  end.

Inductive lived (P : sys -> yop -> Prop) : sys -> Prop :=
| lived_start : lived P empty_sys
| lived_step s o s' : lived P s -> (forall d, o = YRepo d -> repo_command d) -> P s o ->
    apply_yop s o = Ok s' -> lived P s'.
Definition system : sys -> Prop := lived (fun _ _ => True).

(** The file list of an installed package. *)
Definition lists (s : sys) (name path : string) : Prop :=
  is_installed (y_inst s) name = true /\
  exists files, list_of s name = Ok files /\ In path (map f_path files).
Definition owner (s : sys) (path name : string) : Prop :=
  exists f, get_file (y_files s) path = Some (name, f).

(** No path of the package to install is listed by another installed package. *)
Definition no_shared_paths (s : sys) (o : yop) : Prop :=
  match o with
  | YInstall p files _ => forall f n, In f files -> lists s n (f_path f) -> n = p_name p
  | _ => True
  end.

(** [p] is in the window of [dep] (C05). *)
Definition within (dep : dependency) (p : package) : Prop :=
  window_readable dep (p_version p) (p_release p) /\ in_window dep (p_version p) (p_release p).

(** Package [n] is listed as awaiting configuration. *)
Definition listed_pending (s : sys) (n : string) : Prop :=
  exists l, list_pending (y_inst s) = Ok l /\ In n (map fst l).
(** A history in which no package awaiting configuration is removed, or replaced by a version
    that is configured at once *)
Definition patient (s : sys) (o : yop) : Prop :=
  match o with
  | YRemove n => ~ listed_pending s n
  | YInstall p _ later => later = false -> ~ listed_pending s (p_name p)
  | _ => True
  end.
