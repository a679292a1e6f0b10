(** * The build helpers of action scripts: actionsapi/autotools.py, kde.py, perlmodules.py,
    pythonmodules.py, scons.py, libtools.py and the search for compilers in get.py

    What the helpers do to the outside is a list of effects, oldest first.  The answers of the
    outside (exit statuses, which files are there) are parameters that may depend on the effects
    so far.  The variables of the build are strings: C86 says that every build sets them. *)
From Coq Require Import String Ascii ZArith List.
From Verif Require Import Model.Py Model.Path.
Import ListNotations.
Open Scope string_scope.

Inductive effect :=
| Ran (command : string) (status : Z)
| Unlinked (path : string)
| Copied (source target : string)
| Exported (key value : string).

Record site := mkSite {
  s_status : list effect -> string -> Z;          (* subprocess: the return code, negative for a signal *)
  s_access : list effect -> string -> bool;       (* os.access(path, F_OK) *)
  s_dir : list effect -> string -> bool;          (* os.access(path, R_OK | W_OK | X_OK) *)
  s_unlinkable : list effect -> string -> bool;   (* a file or a link *)
  s_configs : list (string * string * bool);      (* os.walk: directory and name of each config.sub and config.guess, and whether it is a link *)
  s_template : string -> bool;                    (* a file of that name is in /usr/share/gnuconfig *)
  s_copyable : list effect -> string -> bool;     (* shutil.copy to there raises no IOError *)
  s_ignore : bool;                                (* the option ignore_action_errors *)
  s_perl : string;                                (* os.path.realpath("/usr/bin/perl") *)
  s_path : string;                                (* os.environ['PATH'] *)
  s_binary : string -> bool;                      (* os.path.exists *)
  s_install : string; s_host : string; s_jobs : string; s_cflags : string; s_kde : string; s_qt : string
}.

Definition M (A : Type) := list effect -> list effect * res A.
Definition ret {A} (a : A) : M A := fun t => (t, Ok a).
Definition raise {A} (e : exn) : M A := fun t => (t, Err e).
Definition andthen {A B} (m : M A) (f : A -> M B) : M B := fun t => match m t with (t', Ok a) => f a t' | (t', Err e) => (t', Err e) end.
Definition effectM (e : effect) : M unit := fun t => ((t ++ [e])%list, Ok tt).
Notation "'let!' x := m 'in' f" := (andthen m (fun x => f)) (at level 200, x name, m at level 100, f at level 200).
Notation "'do!' m 'in' f" := (andthen m (fun _ => f)) (at level 200, m at level 100, f at level 200).
Fixpoint eachM {A} (f : A -> M unit) (l : list A) : M unit :=
  match l with
  | [] => ret tt
  | x :: l => do! f x in eachM f l
  end.

(** string.split without a separator *)
Definition close (word : string) : list string := if String.eqb word "" then [] else [word].
Fixpoint split_from (word s : string) : list string :=
  match s with
  | "" => close word
  | String c s => if is_space c then (close word ++ split_from "" s)%list else split_from (word ++ String c "") s
  end.
Definition split_blanks (s : string) : list string := split_from "" s.

Section tools.
  Context (h : site).
  (** shelltools.py 37-39, 41-43 *)
  Definition can_access_file (f : string) : M bool := fun t => (t, Ok (s_access h t f)).
  Definition can_access_directory (d : string) : M bool := fun t => (t, Ok (s_dir h t d)).
  (** shelltools.py 223-225, util/process.py 48-72: the status is what the process returned *)
  Definition system (command : string) : M Z := fun t =>
    let c := py_join " " (split_blanks command) in
    ((t ++ [Ran c (s_status h t c)])%list, Ok (s_status h t c)).
  (** [if system(command): raise e] *)
  Definition system_or (e : exn) (command : string) : M unit :=
    let! z := system command in if Z.eqb z 0 then ret tt else raise e.
  (** shelltools.py 91-102: what cannot be removed is only reported *)
  Definition unlink (f : string) : M unit := fun t => if s_unlinkable h t f then ((t ++ [Unlinked f])%list, Ok tt) else (t, Ok tt).
  (** actionsapi/__init__.py 23-27 *)
  Definition error : M unit := if s_ignore h then ret tt else raise EError.
  (** shelltools.py 126-137 for a source that is one file or not there (glob finds nothing) *)
  Definition copy (there : bool) (source target : string) : M unit := fun t =>
    if negb there then (t, Ok tt)
    else if s_copyable h t target then ((t ++ [Copied source target])%list, Ok tt)
    else error t.

  (** libtools.py 42-51 *)
  Definition gnuconfig_update : M unit :=
    eachM (fun x => let '(root, name, link) := x in
      do! (if link : bool then unlink (join_path root [name]) else ret tt) in
      copy (s_template h name) ("/usr/share/gnuconfig/" ++ name) (join_path root [name])) (s_configs h).
  (** libtools.py 36-40, 53-55 *)
  Definition preplib (dir : string) : M unit :=
    let d := join_path (s_install h) [dir] in
    let! there := can_access_directory d in
    if there : bool then system_or EError ("/sbin/ldconfig -n -N " ++ d) else ret tt.
  Definition libtoolize (p : string) : M unit := system_or EError ("/usr/bin/libtoolize " ++ p).

  (** get.py 167-185 *)
  Definition path_join (d f : string) : string := if String.eqb d "" then f else if py_endswith d "/" then d ++ f else d ++ "/" ++ f.
  Definition exist_binary (b : string) : bool := existsb (fun d => s_binary h (path_join d b)) (py_split ":" (s_path h)).
  Definition binutils (util : string) : res string :=
    if exist_binary (s_host h ++ "-" ++ util) then Ok (s_host h ++ "-" ++ util)
    else if exist_binary util then Ok util else Err EError.
  Definition lift {A} (r : res A) : M A := fun t => (t, r).

  (** The blanks between the lines of the literals *)
  Definition gap : string := "                 ".

  (** autotools.py 58-79: the directories are those of variables.py 75-82 *)
  Definition configure (p : string) : M unit :=
    let! there := can_access_file "configure" in
    if there : bool then
      do! gnuconfig_update in
      system_or EError ("./configure" ++ gap ++ "--prefix=/usr" ++ gap ++ "--host=" ++ s_host h ++ gap ++ "--mandir=/usr/share/man" ++ gap ++
        "--infodir=/usr/share/info" ++ gap ++ "--datadir=/usr/share" ++ gap ++ "--sysconfdir=/etc" ++ gap ++ "--localstatedir=/var/lib" ++ gap ++ p)
    else raise EError.
  (** autotools.py 81-89 *)
  Definition raw_configure (p : string) : M unit :=
    let! there := can_access_file "configure" in
    if there : bool then do! gnuconfig_update in system_or EError ("./configure " ++ p) else raise EError.
  (** autotools.py 91-93: the status is dropped *)
  Definition compile (p : string) : M unit :=
    let! cc := lift (binutils "gcc") in
    do! system (cc ++ " " ++ s_cflags h ++ " " ++ p) in ret tt.
  (** autotools.py 95-98 *)
  Definition make (p : string) : M unit := system_or EError ("make " ++ s_jobs h ++ " " ++ p).
  (** autotools.py 100-103 *)
  Definition fix_info_dir : M unit :=
    let f := s_install h ++ "/usr/share/info/dir" in
    let! there := can_access_file f in if there : bool then unlink f else ret tt.
  (** [a or b or c] *)
  Fixpoint any_file (l : list string) : M bool :=
    match l with
    | [] => ret false
    | f :: l => let! there := can_access_file f in if there : bool then ret true else any_file l
    end.
  Definition makefiles : list string := ["makefile"; "Makefile"; "GNUmakefile"].
  (** autotools.py 105-130 *)
  Definition install (p argument : string) : M unit :=
    let! there := any_file makefiles in
    if there : bool then
      let d := s_install h in
      do! system_or EError ("make prefix=" ++ d ++ "/usr" ++ gap ++ "datadir=" ++ d ++ "/usr/share" ++ gap ++ "infodir=" ++ d ++ "/usr/share/info" ++ gap ++
        "localstatedir=" ++ d ++ "/var/lib" ++ gap ++ "mandir=" ++ d ++ "/usr/share/man" ++ gap ++ "sysconfdir=" ++ d ++ "/etc" ++ gap ++ p ++ gap ++ argument) in
      fix_info_dir
    else raise EError.
  (** autotools.py 132-140 *)
  Definition raw_install (p argument : string) : M unit :=
    let! there := any_file makefiles in
    if there : bool then do! system_or EError ("make " ++ p ++ " " ++ argument) in fix_info_dir else raise EError.

  (** kde.py 50-69, 71-74, 76-83; get.py 162-163 *)
  Definition kde_configure (p : string) : M unit :=
    let! there := can_access_file "configure" in
    if there : bool then
      system_or EError ("./configure" ++ gap ++ "--prefix=" ++ s_kde h ++ gap ++ "--host=" ++ s_host h ++ gap ++ "--with-x" ++ gap ++ "--enable-mitshm" ++ gap ++
        "--with-xinerama" ++ gap ++ "--with-qt-dir=" ++ s_qt h ++ gap ++ "--enable-mt" ++ gap ++ "--with-qt-libraries=" ++ s_qt h ++ "/lib/" ++ gap ++
        "--disable-dependency-tracking" ++ gap ++ "--disable-debug" ++ gap ++ p)
    else raise EError.
  Definition kde_install (p : string) : M unit :=
    let! there := can_access_file "Makefile" in
    if there : bool then system_or EError ("make DESTDIR=" ++ s_install h ++ " destdir=" ++ s_install h ++ " " ++ p) else raise EError.

  (** perlmodules.py 50-58: CompileError is not defined, a NameError *)
  Definition perl_configure (p : string) : M unit :=
    do! effectM (Exported "PERL_MM_USE_DEFAULT" "1") in
    let! there := can_access_file "Build.PL" in
    if there : bool then system_or EName ("perl Build.PL installdirs=vendor destdir=" ++ s_install h)
    else system_or EName ("perl Makefile.PL " ++ p ++ " PREFIX=/usr INSTALLDIRS=vendor DESTDIR=" ++ s_install h).
  (** perlmodules.py 60-67 *)
  Definition perl_make (p : string) : M unit :=
    let! there := can_access_file "Makefile" in
    if there : bool then system_or EError ("make " ++ p) else system_or EError "perl Build build".
  (** get.py 54-56: what comes after the first "perl", up to the next; an IndexError without any *)
  Fixpoint before_perl (s : string) : string :=
    match s with
    | "" => ""
    | String c s' => if py_startswith s "perl" then "" else String c (before_perl s')
    end.
  Fixpoint after_perl (s : string) : option string :=
    match s with
    | "" => None
    | String c s' => if py_startswith s "perl" then Some (py_drop 4 s) else after_perl s'
    end.
  Definition cur_perl : res string := match after_perl (s_perl h) with Some r => Ok (before_perl r) | None => Err EIndex end.
  (** perlmodules.py 80-87 *)
  Definition fix_local_pod : M unit :=
    let! v := lift cur_perl in
    eachM (fun f => let! there := can_access_file f in if there : bool then unlink f else ret tt)
      [s_install h ++ "/usr/lib/perl5/vendor_perl/" ++ v ++ "/i686-linux/perllocal.pod";
       s_install h ++ "/usr/lib/perl5/" ++ v ++ "/i686-linux/perllocal.pod";
       s_install h ++ "/usr/lib/perl5/site_perl/" ++ v ++ "/perllocal.pod"].
  (** perlmodules.py 69-78 *)
  Definition perl_install (p : string) : M unit :=
    let! there := can_access_file "Makefile" in
    do! (if there : bool then system_or EError ("make " ++ p) else system_or EError "perl Build install") in
    fix_local_pod.

  (** pythonmodules.py 48-51, 53-63, 65-68.  [for doc in DDOCS] goes through the characters of a
      string, and [pisitools] is not imported: a NameError for the first character that is the
      name of a file *)
  Definition ddocs : string :=
    "CHANGELOG COPYRIGHT KNOWN_BUGS MAINTAINERS PKG-INFO              CONTRIBUTORS LICENSE COPYING* Change* MANIFEST* README*".
  Definition python_compile (p : string) : M unit := system_or EError ("python setup.py build " ++ p).
  Definition python_install (p : string) : M unit :=
    do! system_or EError ("python setup.py install --root=" ++ s_install h ++ " --no-compile " ++ p) in
    eachM (fun c => let! there := can_access_file (String c "") in if there : bool then raise EName else ret tt) (list_ascii_of_string ddocs).
  Definition python_run (p : string) : M unit := system_or EError ("python " ++ p).

  (** scons.py 39-41, 43-45; the default of [prefix] is in Model/Environ.v *)
  Definition scons_make (p : string) : M unit := system_or EError ("scons " ++ p).
  Definition scons_install (p prefix argument : string) : M unit := system_or EError ("scons " ++ argument ++ "=" ++ prefix ++ " " ++ p).

  (** The helpers an action script can call.  [ATool] stands for autotools.py 142-165: aclocal,
      autoconf, autoreconf, automake and autoheader *)
  Inductive auto_tool := Aclocal | Autoconf | Autoreconf | Automake | Autoheader.
  Definition auto_name (a : auto_tool) : string :=
    match a with Aclocal => "aclocal" | Autoconf => "autoconf" | Autoreconf => "autoreconf" | Automake => "automake" | Autoheader => "autoheader" end.
  Inductive call :=
  | AConfigure (p : string) | ARawConfigure (p : string) | ACompile (p : string) | AMake (p : string)
  | AInstall (p argument : string) | ARawInstall (p argument : string) | ATool (a : auto_tool) (p : string)
  | KConfigure (p : string) | KMake (p : string) | KInstall (p : string)
  | PConfigure (p : string) | PMake (p : string) | PInstall (p : string)
  | YCompile (p : string) | YInstall (p : string) | YRun (p : string)
  | SMake (p : string) | SInstall (p prefix argument : string)
  | LPreplib (dir : string) | LLibtoolize (p : string) | LGnuconfig.
  Definition perform (c : call) : M unit :=
    match c with
    | AConfigure p => configure p | ARawConfigure p => raw_configure p | ACompile p => compile p | AMake p => make p
    | AInstall p a => install p a | ARawInstall p a => raw_install p a | ATool a p => system_or EError (auto_name a ++ " " ++ p)
    | KConfigure p => kde_configure p | KMake p => make p | KInstall p => kde_install p
    | PConfigure p => perl_configure p | PMake p => perl_make p | PInstall p => perl_install p
    | YCompile p => python_compile p | YInstall p => python_install p | YRun p => python_run p
    | SMake p => scons_make p | SInstall p x a => scons_install p x a
    | LPreplib d => preplib d | LLibtoolize p => libtoolize p | LGnuconfig => gnuconfig_update
    end.
  (** An action function that calls one helper after the other *)
  Definition action (l : list call) : M unit := eachM perform l.
End tools.
