(** * C86: every build has an environment of its own *)
From Coq Require Import String ZArith List.
From stdpp Require Import gmap strings.
From Verif Require Import Model.Py Model.Path Model.Environ Spec.EnvironSpec Proof.EnvironFacts.
Open Scope string_scope.

(** What a script reads depends on the configuration, the package and the script alone; what its
    commands see is that, on top of what the process has been given before ([p_c p]). *)
Theorem C86_explained fl dest tmp exists_ status j ss p p' t ok : to_some_end ss -> build fl dest tmp exists_ status j ss p = (p', t, ok) ->
  let reads := fresh fl dest tmp exists_ (p_initial p) (p_initial p) j in
  let sees := fresh fl dest tmp exists_ (p_initial p) (p_c p) j in
  (~ startable fl exists_ (p_initial p) /\ t = [] /\ ok = false) \/
  (startable fl exists_ (p_initial p) /\ exists t1 t2, t = (t1 ++ t2)%list /\ explained reads sees t1 /\
    explained (updated (exporting reads t1) "SRC_DIR" (sources dest tmp j)) (updated (exporting sees t1) "SRC_DIR" (sources dest tmp j)) t2).
Proof. exact (build_explained fl dest tmp exists_ status j ss p p' t ok). Qed.
Print Assumptions C86_explained.
(** In particular the directories of the package are its own, for the commands too *)
Theorem C86_own fl dest tmp exists_ initial inherited j k : In k own_names ->
  exists v, own fl dest tmp j k = Some v /\ fresh fl dest tmp exists_ initial inherited j k = Some v.
Proof. intros I. destruct (own_in fl dest tmp exists_ j k) as [[_ [v E]]|[N _]]; [|contradiction]. exists v. split; [exact E|]. unfold fresh. now rewrite E. Qed.
Print Assumptions C86_own.
(** The initial environment is not touched by builds, whatever their outcome *)
Theorem C86_initial fl dest tmp exists_ status ds p : (forall d, In d ds -> exists j ss, d = Build j ss /\ to_some_end ss) ->
  p_initial (live fl dest tmp exists_ status ds p).1 = p_initial p.
Proof. intros N. exact (initial_kept fl dest tmp exists_ status ds N p). Qed.
Print Assumptions C86_initial.
(** After builds that succeeded and exported nothing but variables of which each build has its
    own, any build does what it does in a new process. *)
Theorem C86_isolated_partial fl dest tmp exists_ status e d ds p ts j ss :
  live fl dest tmp exists_ status ds (started e d) = (p, ts) -> Forall full ds -> Forall good_end ts -> silent (j_load j) -> job_no_scons j ->
  (build fl dest tmp exists_ status j ss p).1.2 = (build fl dest tmp exists_ status j ss (started e d)).1.2 /\
  (build fl dest tmp exists_ status j ss p).2 = (build fl dest tmp exists_ status j ss (started e d)).2.
Proof. exact (isolated fl dest tmp exists_ status e d ds p ts j ss). Qed.
Print Assumptions C86_isolated_partial.
(** They leave the directory, and the environment that is read at the next start, as they were *)
Theorem C86_restored_partial fl dest tmp exists_ status e d ds p ts :
  live fl dest tmp exists_ status ds (started e d) = (p, ts) -> Forall full ds -> Forall good_end ts -> p_initial p = e /\ p_py p = e /\ p_cwd p = d.
Proof. intros H F G. destruct (live_inv fl dest tmp exists_ status ds (started e d) p ts eq_refl H F G) as (A & B & C & _). auto. Qed.
Print Assumptions C86_restored_partial.

(** ** Samples *)
Definition fl0 : flags := mkFlags "i686-pc-linux-gnu" "-O2" "-O2" "" "-j2" "None".
Definition env0 : environment := <["PATH" := "/bin"]> ∅.
Definition quick (name : string) (setup install : prog) : job := mkJob name "1" "1" PDone None (Some setup) None (Some install) true None.
Definition do1 (c : string) : prog := PRun c (fun _ => PDone).
Definition fine (_ : environment) (_ _ : string) : Z := 0%Z.
Definition run0 (ds : list deed) : proc * list (list happening * bool) := live fl0 "/" "tmp" (fun _ => true) fine ds (started env0 "/home").
Definition build0 (j : job) (p : proc) : outcome := build fl0 "/" "tmp" (fun _ => true) fine j all_stages p.
Lemma all_end : to_the_end all_stages.
Proof. exists [Setup; Compile; Install]. split; [reflexivity|]. intros [K|[K|[K|[]]]]; discriminate. Qed.
Definition plain_a : job := quick "a" (PExport "CFLAGS" "-O0" (do1 "./configure")) (PGet "INSTALL_DIR" (fun v => do1 ("make install DESTDIR=" ++ shown v))).
Definition job_b : job := quick "b" (do1 "./configure") (PCd "sub" (PGet "INSTALL_DIR" (fun v => PGet "CFLAGS" (fun _ => do1 ("make install DESTDIR=" ++ shown v))))).
Definition loud_a : job := quick "a" (PExport "PERL_MM_USE_DEFAULT" "1" (do1 "perl Makefile.PL")) PDone.
Definition heard (t : list happening) (k : string) : list (option string) := omap (fun x => match x with Ran e _ _ => Some (e !! k) | _ => None end) t.
Definition commands (t : list happening) : list string := omap (fun x => match x with Ran _ _ c => Some c | _ => None end) t.
Definition places (t : list happening) : list string := omap (fun x => match x with Ran _ d _ => Some d | _ => None end) t.

Lemma tidy_check t : forallb (fun x => match x with Exported k _ => existsb (String.eqb k) own_names | _ => true end) t = true -> tidy t.
Proof.
  intros H k v I. rewrite forallb_forall in H. specialize (H _ I). cbv beta iota in H. apply existsb_exists in H as (x & Hx & E). apply String.eqb_eq in E. now subst.
Qed.
Example C86_nontrivial : Forall full [Build plain_a all_stages; Initialise] /\ Forall good_end (run0 [Build plain_a all_stages; Initialise]).2 /\ silent (j_load job_b) /\ job_no_scons job_b /\
  (let p := (run0 [Build plain_a all_stages; Initialise]).1 in
   commands (build0 job_b p).1.2 = ["./configure"; "make install DESTDIR=/tmp/b-1-1/install"] /\ (build0 job_b p).2 = true /\
   heard (build0 job_b p).1.2 "CFLAGS" = [Some "-O2"; Some "-O2"] /\ heard (build0 job_b p).1.2 "SRC_DIR" = [Some "/tmp/b-1-1/work/b-1"; Some "/tmp/b-1-1/work/b-1"] /\
   places (build0 job_b p).1.2 = ["/tmp/b-1-1/work/b-1"; "sub"] /\ p_cwd (build0 job_b p).1.1 = "/home") /\
  map (fun r => heard r.1 "CFLAGS") (run0 [Build plain_a all_stages]).2 = [[Some "-O0"; Some "-O0"]].
Proof.
  split; [constructor; [split; [apply all_end|exact Logic.I]|constructor; [exact Logic.I|constructor]]|].
  split; [constructor; [split; [vm_compute; reflexivity|apply tidy_check; vm_compute; reflexivity]|constructor; [split; [reflexivity|intros k v []]|constructor]]|].
  split; [exact Logic.I|]. split; [split; [exact Logic.I|intros q [K|[K|K]]; try discriminate K; injection K as <-; cbn; auto]|].
  split; [|vm_compute; reflexivity]. intros p. repeat (split; [vm_compute; reflexivity|]). vm_compute. reflexivity.
Qed.

(** ** What does not hold *)
(** A variable exported by one script is seen by the commands of the next build. *)
Theorem C86_exports_refuted : exists j j' ds, ds = [Build j all_stages] /\ (forall r, In r (run0 ds).2 -> r.2 = true) /\ silent (j_load j') /\ job_no_scons j' /\
  heard (build0 j' (run0 ds).1).1.2 "PERL_MM_USE_DEFAULT" = [Some "1"; Some "1"] /\
  heard (build0 j' (started env0 "/home")).1.2 "PERL_MM_USE_DEFAULT" = [None; None].
Proof.
  exists loud_a, job_b, [Build loud_a all_stages]. split; [reflexivity|]. split; [intros r [<-|[]]; vm_compute; reflexivity|]. split; [exact Logic.I|].
  split; [split; [exact Logic.I|intros q [K|[K|K]]; try discriminate K; injection K as <-; cbn; auto]|]. split; vm_compute; reflexivity.
Qed.
Print Assumptions C86_exports_refuted.
(** A package installed by scons.install() goes where the first package of the process went. *)
Definition scons_job (name : string) : job := quick name PDone (PScons (fun _ => PDone)).
Theorem C86_scons_refuted : exists ds, Forall full ds /\ Forall good_end (run0 ds).2 /\
  commands (build0 (scons_job "b") (run0 ds).1).1.2 = ["scons prefix=/tmp/a-1-1/install install"] /\
  commands (build0 (scons_job "b") (started env0 "/home")).1.2 = ["scons prefix=/tmp/b-1-1/install install"].
Proof.
  exists [Build (scons_job "a") all_stages]. split; [constructor; [split; [apply all_end|exact Logic.I]|constructor]|].
  split; [constructor; [split; [vm_compute; reflexivity|apply tidy_check; vm_compute; reflexivity]|constructor]|]. split; vm_compute; reflexivity.
Qed.
Print Assumptions C86_scons_refuted.
(** A build that fails leaves its variables and its directory: reading the configuration again
    makes them the initial ones. *)
Definition broken : job := quick "a" (PExport "LANG" "C" PRaise) PDone.
Theorem C86_failed_refuted : exists ds, Forall full ds /\ (run0 ds).2 = [([Exported "LANG" "C"], false); ([], true)] /\
  p_initial (run0 ds).1 !! "LANG" = Some "C" /\ p_initial (run0 ds).1 !! "INSTALL_DIR" = Some "/tmp/a-1-1/install" /\ p_cwd (run0 ds).1 = "/tmp/a-1-1/work/a-1".
Proof.
  exists [Build broken all_stages; Initialise]. split; [constructor; [split; [apply all_end|exact Logic.I]|constructor; [exact Logic.I|constructor]]|]. repeat (split; [vm_compute; reflexivity|]). vm_compute. reflexivity.
Qed.
Print Assumptions C86_failed_refuted.
