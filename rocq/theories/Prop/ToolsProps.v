(** * C87: a failing step fails the build *)
From Coq Require Import String Ascii ZArith List.
From Verif Require Import Model.Py Model.Path Model.Tools Spec.ToolsSpec Proof.ToolsFacts.
Import ListNotations.
Open Scope string_scope.

(** An action that calls helpers other than autotools.compile stops with an exception at the
    first command that fails, and runs nothing after it *)
Theorem C87_stops_partial h l t t' r new c z :
  (forall x, In x l -> ~ is_compile x) -> action h l t = (t', r) -> t' = (t ++ new)%list -> In (Ran c z) new -> z <> 0%Z ->
  (exists e, r = Err e) /\ exists pre, new = (pre ++ [Ran c z])%list /\ clean pre.
Proof. intros N H E I Z. exact (action_stops h l t t' r c z N H new E I Z). Qed.
Print Assumptions C87_stops_partial.

(** A helper that returns has run the documented command, and no other, with success *)
Theorem C87_command h c t t' : perform h c t = (t', Ok tt) ->
  exists new, t' = (t ++ new)%list /\
    ((exists cc text cmd z, (is_compile c -> chosen h "gcc" cc) /\ documented h (s_access h (at_first c t)) (s_dir h t) cc c = Some text /\ spaced text cmd /\ commands new = [(cmd, z)] /\ (z = 0%Z \/ is_compile c)) \/
     commands new = [] /\ forall cc, documented h (s_access h (at_first c t)) (s_dir h t) cc c = None).
Proof. exact (perform_ok h c t t'). Qed.
Print Assumptions C87_command.

(** Whatever becomes of it, a helper runs at most the documented command *)
Theorem C87_nothing_else h c t t' r cc : perform h c t = (t', r) -> (is_compile c -> chosen h "gcc" cc) ->
  exists new, t' = (t ++ new)%list /\
    forall cmd z, In (Ran cmd z) new -> commands new = [(cmd, z)] /\ exists text, documented h (s_access h (at_first c t)) (s_dir h t) cc c = Some text /\ spaced text cmd.
Proof. exact (perform_only h c t t' r cc). Qed.
Print Assumptions C87_nothing_else.

(** A helper fails for one of the known reasons only *)
Theorem C87_reasons h c t t' e : perform h c t = (t', Err e) -> exists new, t' = (t ++ new)%list /\ reason h t c new e.
Proof. exact (perform_why h c t t' e). Qed.
Print Assumptions C87_reasons.

(** Without the file it works on, a helper fails and does nothing *)
Theorem C87_missing h c l t : needs c = Some l -> ~ has_any (s_access h t) l -> perform h c t = (t, Err EError).
Proof. exact (needs_stop h c l t). Qed.
Print Assumptions C87_missing.

(** autotools.install and rawInstall remove the index of the info pages, which other packages own too *)
Theorem C87_info h p a t t' : (perform h (AInstall p a) t = (t', Ok tt) \/ perform h (ARawInstall p a) t = (t', Ok tt)) ->
  exists cmd, let t1 := (t ++ [Ran cmd 0%Z])%list in let f := s_install h ++ "/usr/share/info/dir" in
    (s_access h t1 f = true /\ s_unlinkable h t1 f = true -> t' = (t1 ++ [Unlinked f])%list) /\ (~ (s_access h t1 f = true /\ s_unlinkable h t1 f = true) -> t' = t1).
Proof. exact (install_info h p a t t'). Qed.
Print Assumptions C87_info.

(** perlmodules.install removes the lists of modules, which other packages own too, and nothing else *)
Theorem C87_pods h p t t' v : perl_version h v -> perform h (PInstall p) t = (t', Ok tt) ->
  exists cmd new, t' = (t ++ Ran cmd 0%Z :: new)%list /\
    (forall f, In f (pods h v) -> (forall t1, s_access h t1 f = true /\ s_unlinkable h t1 f = true) -> In (Unlinked f) new) /\
    (forall x, In x new -> exists f, In f (pods h v) /\ x = Unlinked f).
Proof. exact (perl_pods h p t t' v). Qed.
Print Assumptions C87_pods.

(** Every config.sub and config.guess of the sources is replaced by the one of gnuconfig, where there is one *)
Theorem C87_config h c t t' d n k : updates_config c -> perform h c t = (t', Ok tt) -> s_ignore h = false -> In (d, n, k) (s_configs h) -> s_template h n = true ->
  exists new, t' = (t ++ new)%list /\ In (Copied ("/usr/share/gnuconfig/" ++ n) (join_path d [n])) new.
Proof. exact (config_replaced h c t t' d n k). Qed.
Print Assumptions C87_config.

(** The compiler is the one of the host if it is on the path, else the plain one *)
Theorem C87_compiler h u b e : (binutils h u = Ok b <-> chosen h u b) /\ (binutils h u = Err e <-> e = EError /\ ~ found h (s_host h ++ "-" ++ u) /\ ~ found h u).
Proof. exact (conj (binutils_ok h u b) (binutils_err h u e)). Qed.
Print Assumptions C87_compiler.

(** ** The claim itself is false of the code *)
Definition bench (status : string -> Z) (files : list string) (configs : list (string * string * bool)) : site :=
  mkSite (fun _ => status) (fun _ f => existsb (String.eqb f) files) (fun _ _ => true) (fun _ _ => true) configs (fun n => String.eqb n "config.guess") (fun _ _ => true) false
    "/usr/bin/perl5.8.8" "/bin:/usr/bin" (fun b => String.eqb b "/usr/bin/gcc") "/inst" "i686-pc-linux-gnu" "-j3" "-O2" "/usr/kde/3.5" "/usr/qt/3".
Definition all_well (_ : string) : Z := 0%Z.
Definition broken_cc (c : string) : Z := if String.eqb c "gcc -O2 hello.c" then 1%Z else 0%Z.

(** autotools.compile drops the status of the compiler *)
Theorem C87_compile_refuted : ~ forall h c t t' cmd z, perform h c t = (t', Ok tt) -> In (Ran cmd z) t' -> (forall x y, In (Ran x y) t -> y = 0%Z) -> z = 0%Z.
Proof.
  intros H. assert (1 = 0)%Z as X; [|discriminate X]. apply (H (bench broken_cc [] []) (ACompile "hello.c") [] [Ran "gcc -O2 hello.c" 1%Z] "gcc -O2 hello.c" 1%Z); [vm_compute; reflexivity|now left|intros x y []].
Qed.
Print Assumptions C87_compile_refuted.

(** pythonmodules.install fails although every command succeeded, and never installs a document *)
Theorem C87_python_refuted :
  (~ forall h p t t' e, perform h (YInstall p) t = (t', Err e) -> exists c z, In (Ran c z) t' /\ z <> 0%Z) /\
  (forall h p t t' r, perform h (YInstall p) t = (t', r) -> exists c z, t' = (t ++ [Ran c z])%list).
Proof.
  split; [|exact python_only].
  intros H. destruct (H (bench all_well ["setup.py"; "C"] []) "" [] [Ran "python setup.py install --root=/inst --no-compile" 0%Z] EName) as (c & z & [K|[]] & Z); [vm_compute; reflexivity|].
  injection K as <- <-. now apply Z.
Qed.
Print Assumptions C87_python_refuted.

(** A linked config.sub is removed although nothing can take its place *)
Theorem C87_config_refuted : ~ forall h t t' d n k, perform h LGnuconfig t = (t', Ok tt) -> In (d, n, k) (s_configs h) -> In (Unlinked (join_path d [n])) t' -> ~ In (Unlinked (join_path d [n])) t ->
  In (Copied ("/usr/share/gnuconfig/" ++ n) (join_path d [n])) t'.
Proof.
  intros H. specialize (H (bench all_well [] [("./admin", "config.sub", true)]) [] [Unlinked "./admin/config.sub"] "./admin" "config.sub" true eq_refl (or_introl eq_refl) (or_introl eq_refl) (fun x => x)).
  destruct H as [K|[]]. discriminate K.
Qed.
Print Assumptions C87_config_refuted.

(** ** The theorems are not empty *)
Definition sources : site := bench all_well ["configure"; "Makefile"; "/inst/usr/share/info/dir"] [("./admin", "config.guess", true); (".", "config.sub", false)].
Definition nobuild (c : string) : Z := if String.eqb c "make -j3" then 2%Z else 0%Z.
Example C87_nontrivial :
  action sources [AConfigure "--disable-nls"; AMake ""; AInstall "" "install"] [] =
    ([Unlinked "./admin/config.guess"; Copied "/usr/share/gnuconfig/config.guess" "./admin/config.guess";
      Ran "./configure --prefix=/usr --host=i686-pc-linux-gnu --mandir=/usr/share/man --infodir=/usr/share/info --datadir=/usr/share --sysconfdir=/etc --localstatedir=/var/lib --disable-nls" 0%Z;
      Ran "make -j3" 0%Z;
      Ran "make prefix=/inst/usr datadir=/inst/usr/share infodir=/inst/usr/share/info localstatedir=/inst/var/lib mandir=/inst/usr/share/man sysconfdir=/inst/etc install" 0%Z;
      Unlinked "/inst/usr/share/info/dir"], Ok tt) /\
  action (bench nobuild ["configure"; "Makefile"] []) [ARawConfigure "--prefix=/opt"; AMake ""; AInstall "" "install"] [] =
    ([Ran "./configure --prefix=/opt" 0%Z; Ran "make -j3" 2%Z], Err EError) /\
  perform (bench all_well ["README"] []) (AInstall "" "install") [] = ([], Err EError) /\ ~ has_any (s_access (bench all_well ["README"] []) []) ["makefile"; "Makefile"; "GNUmakefile"] /\
  binutils sources "gcc" = Ok "gcc" /\ binutils sources "ld" = Err EError /\
  reason (bench nobuild [] []) [] (AMake "") [Ran "make -j3" 2%Z] EError /\
  pods sources "5.8.8" = ["/inst/usr/lib/perl5/vendor_perl/5.8.8/i686-linux/perllocal.pod"; "/inst/usr/lib/perl5/5.8.8/i686-linux/perllocal.pod"; "/inst/usr/lib/perl5/site_perl/5.8.8/perllocal.pod"] /\
  perform (bench all_well ["/inst/usr/lib/perl5/5.8.8/i686-linux/perllocal.pod"] []) (PInstall "install") [] =
    ([Ran "perl Build install" 0%Z; Unlinked "/inst/usr/lib/perl5/5.8.8/i686-linux/perllocal.pod"], Ok tt).
Proof.
  split; [vm_compute; reflexivity|]. split; [vm_compute; reflexivity|]. split; [vm_compute; reflexivity|].
  split; [intros (f & [<-|[<-|[<-|[]]]] & K); discriminate K|]. split; [vm_compute; reflexivity|]. split; [vm_compute; reflexivity|].
  split; [|split; vm_compute; reflexivity]. apply (command_failed _ _ _ []); [intros [p K]; discriminate K|discriminate|intros c z []|discriminate].
Qed.
