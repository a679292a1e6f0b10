(** * What the build helpers are documented to do *)
From Coq Require Import String Ascii ZArith List.
From Verif Require Import Model.Py Model.Tools.
Import ListNotations.
Open Scope string_scope.

(** [l] are the words of [s]: the pieces without blanks, with blanks between them *)
Definition all_blank (s : string) : Prop := Forall (fun c => is_space c = true) (list_ascii_of_string s).
Definition a_word (s : string) : Prop := s <> "" /\ Forall (fun c => is_space c = false) (list_ascii_of_string s).
Inductive words_of : string -> list string -> Prop :=
| no_word s : all_blank s -> words_of s []
| last_word b w : all_blank b -> a_word w -> words_of (b ++ w) [w]
| next_word b w c s l : all_blank b -> a_word w -> is_space c = true -> words_of s l -> words_of (b ++ w ++ String c s) (w :: l).
(** [cmd] is the text [text] with one blank between the words *)
Definition spaced (text cmd : string) : Prop := exists l, words_of text l /\ cmd = py_join " " l.

Definition has_any (there : string -> bool) (l : list string) : Prop := exists f, In f l /\ there f = true.
(** A call cannot work without one of these files *)
Definition needs (c : call) : option (list string) :=
  match c with
  | AConfigure _ | ARawConfigure _ | KConfigure _ => Some ["configure"]
  | AInstall _ _ | ARawInstall _ _ => Some ["makefile"; "Makefile"; "GNUmakefile"]
  | KInstall _ => Some ["Makefile"]
  | _ => None
  end.
(** The command a call stands for, where [there] tells which files are there, [dir] which
    directories, and [cc] is the compiler *)
Definition documented (h : site) (there dir : string -> bool) (cc : string) (c : call) : option string :=
  let d := s_install h in
  match c with
  | AConfigure p => Some ("./configure --prefix=/usr --host=" ++ s_host h ++ " --mandir=/usr/share/man --infodir=/usr/share/info --datadir=/usr/share --sysconfdir=/etc --localstatedir=/var/lib " ++ p)
  | ARawConfigure p => Some ("./configure " ++ p)
  | ACompile p => Some (cc ++ " " ++ s_cflags h ++ " " ++ p)
  | AMake p | KMake p => Some ("make " ++ s_jobs h ++ " " ++ p)
  | AInstall p a => Some ("make prefix=" ++ d ++ "/usr datadir=" ++ d ++ "/usr/share infodir=" ++ d ++ "/usr/share/info localstatedir=" ++ d ++ "/var/lib mandir=" ++ d ++
                          "/usr/share/man sysconfdir=" ++ d ++ "/etc " ++ p ++ " " ++ a)
  | ARawInstall p a => Some ("make " ++ p ++ " " ++ a)
  | ATool Aclocal p => Some ("aclocal " ++ p)
  | ATool Autoconf p => Some ("autoconf " ++ p)
  | ATool Autoreconf p => Some ("autoreconf " ++ p)
  | ATool Automake p => Some ("automake " ++ p)
  | ATool Autoheader p => Some ("autoheader " ++ p)
  | KConfigure p => Some ("./configure --prefix=" ++ s_kde h ++ " --host=" ++ s_host h ++ " --with-x --enable-mitshm --with-xinerama --with-qt-dir=" ++ s_qt h ++
                          " --enable-mt --with-qt-libraries=" ++ s_qt h ++ "/lib/ --disable-dependency-tracking --disable-debug " ++ p)
  | KInstall p => Some ("make DESTDIR=" ++ d ++ " destdir=" ++ d ++ " " ++ p)
  | PConfigure p => Some (if there "Build.PL" then "perl Build.PL installdirs=vendor destdir=" ++ d
                          else "perl Makefile.PL " ++ p ++ " PREFIX=/usr INSTALLDIRS=vendor DESTDIR=" ++ d)
  | PMake p => Some (if there "Makefile" then "make " ++ p else "perl Build build")
  | PInstall p => Some (if there "Makefile" then "make " ++ p else "perl Build install")
  | YCompile p => Some ("python setup.py build " ++ p)
  | YInstall p => Some ("python setup.py install --root=" ++ d ++ " --no-compile " ++ p)
  | YRun p => Some ("python " ++ p)
  | SMake p => Some ("scons " ++ p)
  | SInstall p prefix a => Some ("scons " ++ a ++ "=" ++ prefix ++ " " ++ p)
  | LPreplib x => if dir (Path.join_path d [x]) then Some ("/sbin/ldconfig -n -N " ++ Path.join_path d [x]) else None
  | LLibtoolize p => Some ("/usr/bin/libtoolize " ++ p)
  | LGnuconfig => None
  end.
(** perlmodules.configure first sets a variable *)
Definition at_first (c : call) (t : list effect) : list effect := match c with PConfigure _ => (t ++ [Exported "PERL_MM_USE_DEFAULT" "1"])%list | _ => t end.

Definition commands (t : list effect) : list (string * Z) := flat_map (fun e => match e with Ran c z => [(c, z)] | _ => [] end) t.
(** Every command succeeded *)
Definition clean (t : list effect) : Prop := forall c z, In (Ran c z) t -> z = 0%Z.
Definition is_compile (c : call) : Prop := exists p, c = ACompile p.

(** [b] is on the path: in one of the directories, "" being the current one *)
Definition found (h : site) (b : string) : Prop :=
  exists d, In d (py_split ":" (s_path h)) /\
    (d = "" /\ s_binary h b = true \/ (exists d', d = d' ++ "/") /\ s_binary h (d ++ b) = true \/
     (d <> "" /\ ~ exists d', d = d' ++ "/") /\ s_binary h (d ++ "/" ++ b) = true).
(** The program of the host [util] stands for: the one with the name of the host in front if it
    is on the path, else the plain one *)
Definition chosen (h : site) (util b : string) : Prop :=
  found h (s_host h ++ "-" ++ util) /\ b = s_host h ++ "-" ++ util \/
  ~ found h (s_host h ++ "-" ++ util) /\ found h util /\ b = util.
(** Nothing but files was touched *)
Definition no_command (t : list effect) : Prop := commands t = [].
Definition knows_perl (h : site) : Prop := exists a b, s_perl h = a ++ "perl" ++ b.
Definition updates_config (c : call) : Prop := (exists p, c = AConfigure p) \/ (exists p, c = ARawConfigure p) \/ c = LGnuconfig.
(** Why a call can fail, with the exception [e], after the effects [new] *)
Inductive reason (h : site) (t : list effect) : call -> list effect -> exn -> Prop :=
| no_file c l : needs c = Some l -> ~ has_any (s_access h t) l -> reason h t c [] EError
| command_failed c pre cmd z : ~ is_compile c -> (forall p, c <> PConfigure p) -> clean pre -> z <> 0%Z -> reason h t c (pre ++ [Ran cmd z])%list EError
| perl_failed p pre cmd z : clean pre -> z <> 0%Z -> reason h t (PConfigure p) (pre ++ [Ran cmd z])%list EName
| no_copy c new d name link : updates_config c -> s_ignore h = false -> In (d, name, link) (s_configs h) -> s_template h name = true ->
    s_copyable h (t ++ new)%list (Path.join_path d [name]) = false -> reason h t c new EError
| no_compiler p : ~ found h (s_host h ++ "-gcc") -> ~ found h "gcc" -> reason h t (ACompile p) [] EError
| no_perl p new : ~ knows_perl h -> reason h t (PInstall p) new EIndex
| short_name p new c : s_access h (t ++ new)%list (String c "") = true -> reason h t (YInstall p) new EName.

(** The version of Perl is what comes after the one "perl" in the name of the program *)
Definition perl_version (h : site) (v : string) : Prop :=
  exists a, s_perl h = a ++ "perl" ++ v /\ forall a' b', s_perl h = a' ++ "perl" ++ b' -> a' = a.
(** The lists of modules every Perl package would bring along *)
Definition pods (h : site) (v : string) : list string :=
  map (fun s => s_install h ++ "/usr/lib/perl5/" ++ s ++ "/perllocal.pod") ["vendor_perl/" ++ v ++ "/i686-linux"; v ++ "/i686-linux"; "site_perl/" ++ v].
