(** * The environment of builds: actionsapi/variables.py, op/build.py, actionsapi/get.py

    One process may run many builds (cli/build.py 104-108, op/emerge.py 84-86).  Python 2.7 keeps
    two copies of the environment: the mapping [os.environ], which the action scripts read, and
    the environment of the C library, which the commands inherit ([subprocess.Popen] without
    [env], util/process.py 68).  Assigning an item changes both ([os._Environ.__setitem__] calls
    [putenv]); assigning the attribute [os.environ] itself changes the first only. *)
From Coq Require Import String ZArith List.
From stdpp Require Import gmap strings.
From Verif Require Import Model.Py Model.Path.
Open Scope string_scope.

Definition environment := gmap string string.
(** What one build can leave to the next.  [p_initial] is [ctx.config.environ]; [p_scons] is the
    default of the parameter [prefix] of [scons.install], once that module is imported; the
    packages' files are in Model/Fs.v and the other models *)
Record proc := mkProc {
  p_py : environment;
  p_c : environment;
  p_initial : environment;
  p_scons : option (option string);
  p_cwd : string
}.
Definition set_py (e : environment) (p : proc) : proc := mkProc e (p_c p) (p_initial p) (p_scons p) (p_cwd p).
Definition set_cwd (d : string) (p : proc) : proc := mkProc (p_py p) (p_c p) (p_initial p) (p_scons p) d.
(** [os.environ[k] = v] *)
Definition setenv (k v : string) (p : proc) : proc := mkProc (<[k := v]> (p_py p)) (<[k := v]> (p_c p)) (p_initial p) (p_scons p) (p_cwd p).
(** A new process; the configuration copies the environment, config.py 63-65 *)
Definition started (e : environment) (d : string) : proc := mkProc e e e None d.
(** config.py 63-65: the configuration read again (api.py 77-78) *)
Definition initialise (p : proc) : proc := mkProc (p_py p) (p_c p) (p_py p) (p_scons p) (p_cwd p).

(** The section [build] of the configuration file, as Model/Config.v reads it.  A setting that is
    not a string (a TypeError of [putenv]) is not modelled: these have defaults that are. *)
Record flags := mkFlags { f_host : string; f_cflags : string; f_cxxflags : string; f_ldflags : string; f_jobs : string; f_helper : string }.

(** What an action script does, as far as the environment is concerned: it may read variables
    (actionsapi/get.py), export them (shelltools.py 195-197), run commands (shelltools.py 223-225,
    here with the blanks as given), change the directory (shelltools.py 180-186, here always to an
    existing one), call [scons.install()], raise an exception, and go on according to what it saw *)
Inductive prog :=
| PDone
| PRaise
| PExport (k v : string) (q : prog)
| PGet (k : string) (q : option string -> prog)
| PRun (command : string) (q : Z -> prog)
| PCd (d : string) (q : prog)
| PScons (q : Z -> prog).

(** What happens: a variable exported or read, a command run in an environment and a directory *)
Inductive happening :=
| Exported (k v : string)
| Got (k : string) (v : option string)
| Ran (e : environment) (d command : string).

(** Something to build.  [j_load] is the code of actions.py itself, [j_workdir] its [WorkDir];
    an action the script does not define is [None].  [j_ready] says whether what comes before the
    actions succeeds (C76, C84) and [j_stuck] where the process is when making the packages
    fails. *)
Record job := mkJob {
  j_name : string; j_version : string; j_release : string;
  j_load : prog; j_workdir : option string;
  j_setup : option prog; j_build : option prog; j_install : option prog;
  j_ready : bool; j_stuck : option string
}.
Inductive stage := Setup | Compile | Install | Pack.
Definition outcome : Type := proc * list happening * bool.

Section environ.
  Context (fl : flags) (dest tmp : string).
  (** [exists]: os.path.exists and what os.chdir accepts; [status]: the exit status of a command *)
  Context (exists_ : string -> bool) (status : environment -> string -> string -> Z).

  (** op/build.py 156-170; [j_name ++ ...] is op/build.py 158-159 *)
  Definition pkg_dir (j : job) : string := join_path dest [tmp; j_name j ++ "-" ++ j_version j ++ "-" ++ j_release j].
  Definition work_dir (j : job) : string := pkg_dir j ++ "/work".
  Definition install_dir (j : job) : string := pkg_dir j ++ "/install".
  (** op/build.py 393-400 *)
  Definition src_dir (j : job) : string :=
    join_path (work_dir j) [match j_workdir j with Some d => d | None => j_name j ++ "-" ++ j_version j end].

  (** actionsapi/variables.py 22-40 *)
  Definition export_flags (p : proc) : proc :=
    setenv "JOBS" (f_jobs fl) (setenv "USER_LDFLAGS" (f_ldflags fl) (setenv "LDFLAGS" (f_ldflags fl) (setenv "CXXFLAGS" (f_cxxflags fl)
      (setenv "CFLAGS" (f_cflags fl) (setenv "HOST" (f_host fl) (set_py (p_initial p) p)))))).
  (** op/build.py 228-242; no PATH is a KeyError *)
  Definition prefix_path (dir : string) (p : proc) : proc * bool :=
    match p_py p !! "PATH" with
    | Some path => (setenv "PATH" (dir ++ ":" ++ path) p, true)
    | None => (p, false)
    end.
  Definition build_helper (p : proc) : proc * bool :=
    if String.eqb (f_helper fl) "icecream" then
      if exists_ "/opt/icecream/bin/gcc" then prefix_path "/opt/icecream/bin/" p else (p, true)
    else if String.eqb (f_helper fl) "ccache" then
      if exists_ "/usr/lib/ccache/bin/gcc" then prefix_path "/usr/lib/ccache/bin/" p else (p, true)
    else (p, true).
  (** op/build.py 210-242 *)
  Definition prepare (j : job) (p : proc) : proc * bool :=
    build_helper (setenv "SRC_RELEASE" (j_release j) (setenv "SRC_VERSION" (j_version j) (setenv "SRC_NAME" (j_name j)
      (setenv "INSTALL_DIR" (install_dir j) (setenv "WORK_DIR" (work_dir j) (setenv "PKG_DIR" (pkg_dir j) (export_flags p))))))).

  (** actionsapi/scons.py 43-45: the default is computed when the module is imported, once *)
  Definition import_scons (p : proc) : proc :=
    match p_scons p with
    | Some _ => p
    | None => mkProc (p_py p) (p_c p) (p_initial p) (Some (p_py p !! "INSTALL_DIR")) (p_cwd p)
    end.
  (** ["%s"] of a string or None *)
  Definition shown (v : option string) : string := match v with Some s => s | None => "None" end.
  Definition scons_command (p : proc) : string := "scons prefix=" ++ shown (default None (p_scons p)) ++ " install".

  Fixpoint run (q : prog) (p : proc) : outcome :=
    match q with
    | PDone => (p, [], true)
    | PRaise => (p, [], false)
    | PExport k v q => let '(p', t, ok) := run q (setenv k v p) in (p', Exported k v :: t, ok)
    | PGet k q => let '(p', t, ok) := run (q (p_py p !! k)) p in (p', Got k (p_py p !! k) :: t, ok)
    | PRun c q => let '(p', t, ok) := run (q (status (p_c p) (p_cwd p) c)) p in (p', Ran (p_c p) (p_cwd p) c :: t, ok)
    | PCd d q => run q (set_cwd d p)
    | PScons q =>
        let p1 := import_scons p in
        let '(p', t, ok) := run (q (status (p_c p1) (p_cwd p1) (scons_command p1))) p1 in
        (p', Ran (p_c p1) (p_cwd p1) (scons_command p1) :: t, ok)
    end.

  (** op/build.py 402-419: an exception leaves the process in the directory it was in *)
  Definition run_action (j : job) (q : option prog) (p : proc) : outcome :=
    if exists_ (src_dir j) then
      let '(p', t, ok) := run (default PDone q) (set_cwd (src_dir j) p) in
      ((if ok : bool then set_cwd (p_cwd p) p' else p'), t, ok)
    else (p, [], false).
  (** op/build.py 859-867, the end of [build_packages] *)
  Definition pack (j : job) (p : proc) : outcome :=
    match j_stuck j with
    | Some d => (set_cwd d p, [], false)
    | None => (set_py (p_initial p) p, [], true)
    end.
  Definition run_stage (j : job) (s : stage) (p : proc) : outcome :=
    match s with
    | Setup => run_action j (j_setup j) p
    | Compile => run_action j (j_build j) p
    | Install => run_action j (j_install j) p
    | Pack => pack j p
    end.
  Fixpoint run_stages (j : job) (ss : list stage) (p : proc) : outcome :=
    match ss with
    | [] => (p, [], true)
    | s :: ss =>
        let '(p1, t1, ok1) := run_stage j s p in
        if ok1 : bool then let '(p2, t2, ok2) := run_stages j ss p1 in (p2, t1 ++ t2, ok2)%list else (p1, t1, false)
    end.
  (** op/build.py 372-391: [SRC_DIR] is set after the script is loaded *)
  Definition load (j : job) (p : proc) : outcome :=
    let '(p', t, ok) := run (j_load j) p in
    ((if ok : bool then setenv "SRC_DIR" (src_dir j) p' else p'), t, ok).

  (** op/build.py 186-208 with all four stages, and 917-946 with those that C51 says *)
  Definition build (j : job) (ss : list stage) (p : proc) : outcome :=
    let '(p1, ok1) := prepare j p in
    if negb ok1 then (p1, [], false) else
    let '(p2, t2, ok2) := load j p1 in
    if negb ok2 then (p2, t2, false) else
    if negb (j_ready j) then (p2, t2, false) else
    let '(p3, t3, ok3) := run_stages j ss p2 in (p3, t2 ++ t3, ok3)%list.
  Definition all_stages : list stage := [Setup; Compile; Install; Pack].

  (** A process may build, and read its configuration again *)
  Inductive deed := Build (j : job) (ss : list stage) | Initialise.
  Definition perform (d : deed) (p : proc) : outcome :=
    match d with
    | Build j ss => build j ss p
    | Initialise => (initialise p, [], true)
    end.
  (** All of them, whether or not one fails *)
  Fixpoint live (ds : list deed) (p : proc) : proc * list (list happening * bool) :=
    match ds with
    | [] => (p, [])
    | d :: ds => let '(p1, t, ok) := perform d p in let '(p2, ts) := live ds p1 in (p2, (t, ok) :: ts)
    end.
End environ.
