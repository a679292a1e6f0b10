(** * What the environment of a build ought to be *)
From Coq Require Import String ZArith List.
From stdpp Require Import gmap strings.
From Verif Require Import Model.Py Model.Path Model.Environ.
Open Scope string_scope.

(** The variables of which every build gets its own values *)
Definition own_names : list string :=
  ["HOST"; "CFLAGS"; "CXXFLAGS"; "LDFLAGS"; "USER_LDFLAGS"; "JOBS"; "PKG_DIR"; "WORK_DIR"; "INSTALL_DIR"; "SRC_NAME"; "SRC_VERSION"; "SRC_RELEASE"].

Section spec.
  Context (fl : flags) (dest tmp : string) (exists_ : string -> bool).
  Definition home (j : job) : string := join_path dest [tmp; j_name j ++ "-" ++ j_version j ++ "-" ++ j_release j].
  Definition sources (j : job) : string :=
    join_path (home j ++ "/work") [match j_workdir j with Some d => d | None => j_name j ++ "-" ++ j_version j end].
  (** ... and the values *)
  Definition own (j : job) (k : string) : option string :=
    match k with
    | "HOST" => Some (f_host fl)
    | "CFLAGS" => Some (f_cflags fl)
    | "CXXFLAGS" => Some (f_cxxflags fl)
    | "LDFLAGS" | "USER_LDFLAGS" => Some (f_ldflags fl)
    | "JOBS" => Some (f_jobs fl)
    | "PKG_DIR" => Some (home j)
    | "WORK_DIR" => Some (home j ++ "/work")
    | "INSTALL_DIR" => Some (home j ++ "/install")
    | "SRC_NAME" => Some (j_name j)
    | "SRC_VERSION" => Some (j_version j)
    | "SRC_RELEASE" => Some (j_release j)
    | _ => None
    end.
  (** The directory of the build helper that is configured and there *)
  Definition helper : option string :=
    match f_helper fl with
    | "icecream" => if exists_ "/opt/icecream/bin/gcc" then Some "/opt/icecream/bin/" else None
    | "ccache" => if exists_ "/usr/lib/ccache/bin/gcc" then Some "/usr/lib/ccache/bin/" else None
    | _ => None
    end.
  (** The build can start: a helper needs a PATH *)
  Definition startable (initial : environment) : Prop := helper = None \/ is_Some (initial !! "PATH").
  (** The value of a variable when the script of [j] starts: its own, or the one in [inherited];
      only the helper comes in front of the PATH *)
  Definition fresh (initial inherited : environment) (j : job) (k : string) : option string :=
    match own j k, helper, initial !! "PATH" with
    | Some v, _, _ => Some v
    | None, Some d, Some path => if String.eqb k "PATH" then Some (d ++ ":" ++ path) else inherited !! k
    | None, _, _ => inherited !! k
    end.
End spec.

(** A script, and the commands it runs, see the environments [py] and [c], changed only by what
    the script exports. *)
Definition updated (f : string -> option string) (k v : string) : string -> option string :=
  fun k' => if String.eqb k k' then Some v else f k'.
Fixpoint explained (py c : string -> option string) (t : list happening) : Prop :=
  match t with
  | [] => True
  | Exported k v :: t => explained (updated py k v) (updated c k v) t
  | Got k v :: t => v = py k /\ explained py c t
  | Ran e _ _ :: t => (forall k, e !! k = c k) /\ explained py c t
  end.
(** An environment after what is exported *)
Fixpoint exporting (f : string -> option string) (t : list happening) : string -> option string :=
  match t with
  | [] => f
  | Exported k v :: t => exporting (updated f k v) t
  | _ :: t => exporting f t
  end.

(** All variables the trace exports are those of which every build has its own *)
Definition tidy (t : list happening) : Prop := forall k v, In (Exported k v) t -> In k own_names.

(** A script that runs no command; one that does not call scons.install() *)
Fixpoint silent (q : prog) : Prop :=
  match q with
  | PDone | PRaise => True
  | PExport _ _ q | PCd _ q => silent q
  | PGet _ q => forall v, silent (q v)
  | PRun _ _ | PScons _ => False
  end.
Fixpoint no_scons (q : prog) : Prop :=
  match q with
  | PDone | PRaise => True
  | PExport _ _ q | PCd _ q => no_scons q
  | PGet _ q => forall v, no_scons (q v)
  | PRun _ q => forall z, no_scons (q z)
  | PScons _ => False
  end.
(** ... and one that stays in its directory *)
Fixpoint steady (q : prog) : Prop :=
  match q with
  | PDone | PRaise => True
  | PExport _ _ q => steady q
  | PCd _ _ => False
  | PGet _ q => forall v, steady (q v)
  | PRun _ q | PScons q => forall z, steady (q z)
  end.
Definition job_no_scons (j : job) : Prop :=
  no_scons (j_load j) /\ forall q, j_setup j = Some q \/ j_build j = Some q \/ j_install j = Some q -> no_scons q.

(** A build that goes on to the end; one that does not go on after it *)
Definition to_the_end (ss : list stage) : Prop := exists ss', ss = (ss' ++ [Pack])%list /\ ~ In Pack ss'.
Definition to_some_end (ss : list stage) : Prop := to_the_end ss \/ ~ In Pack ss.
Definition full (d : deed) : Prop := match d with Build j ss => to_the_end ss /\ steady (j_load j) | Initialise => True end.
(** A build that succeeded, and whose script exported nothing else *)
Definition good_end (r : list happening * bool) : Prop := r.2 = true /\ tidy r.1.
