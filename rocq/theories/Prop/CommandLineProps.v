(** * C78: a command line means what it says *)
From Coq Require Import String Ascii ZArith List Bool.
From stdpp Require Import gmap strings.
From Verif Require Import Model.Py Model.Package Model.ItemByRepo Model.ComponentDB Model.Databases Model.InstallDB Model.System Model.Plan Model.Path Model.Ops Model.Security Spec.PathSpec Spec.OpsSpec.
Require Import Verif.Prop.PlanProps Verif.Prop.OpsProps.
From Verif Require Import Model.CommandLine Spec.CommandLineSpec Proof.CommandLineFacts Proof.CommandLineTop Proof.CommandLineRun.
Import ListNotations.
Open Scope string_scope.

(** ** Which command runs, with what *)
(** A line runs a command exactly if it can be read as one: its first bare word is the name of
    the command, and all of it is words and options that the command has, with their values. *)
Theorem C78_runs_exact number argv k v args : CommandLine.start number argv = Runs k v args <->
  exists c t is tail l, first_bare argv c /\ named c k /\ make_parser k = Ok t /\ says number t argv is tail l /\
    v = set_all (defaults t) l /\ args = tl (concat (map word is) ++ tail).
Proof. exact (start_exact number argv k v args). Qed.
Print Assumptions C78_runs_exact.
Theorem C78_help_exact number argv c k t : first_bare argv c -> named c k -> make_parser k = Ok t ->
  (CommandLine.start number argv = Exits 0 <-> exists is l rest, meaning number t is l /\ argv = (concat (map spelled is) ++ rest)%list /\ asks t rest).
Proof. exact (start_shown number argv c k t). Qed.
Print Assumptions C78_help_exact.
Theorem C78_unknown number argv c : first_bare argv c -> (forall k, ~ named c k) -> CommandLine.start number argv = Fails EError.
Proof. exact (start_unknown number argv c). Qed.
Print Assumptions C78_unknown.

(** False as stated: a value before the command is taken for the command.  The line names the
    user "remove" and asks for an installation; it removes. *)
Theorem C78_value_as_command_refuted number pkgs : (forall p, In p pkgs -> CommandLineSpec.bare p) ->
  exists v, CommandLine.start number ("-u" :: "remove" :: "install" :: pkgs) = Runs Remove v pkgs.
Proof. exact (hidden_command number pkgs). Qed.
Print Assumptions C78_value_as_command_refuted.
(** Also false: two of the documented commands never start. *)
Theorem C78_search_refuted number argv c : first_bare argv c ->
  (named c Search -> CommandLine.start number argv = Fails EValue) /\ (named c ListUpgrades -> CommandLine.start number argv = Fails EName).
Proof. exact (start_broken number argv c). Qed.
Print Assumptions C78_search_refuted.

(** What holds: the command first, or after options none of which has a bare word for a value.
    Missing: these values. *)
Theorem C78_reads_partial number pre c post tail k t l rest : named c k -> make_parser k = Ok t ->
  meaning number t (pre ++ Word c :: post) l -> (forall i, In i pre -> open_ i) -> closing rest tail ->
  CommandLine.start number (concat (map spelled (pre ++ Word c :: post)) ++ rest) = Runs k (set_all (defaults t) l) (concat (map word post) ++ tail).
Proof. exact (start_reads number pre c post tail k t l rest). Qed.
Print Assumptions C78_reads_partial.
(** All other commands start. *)
Theorem C78_starts_partial number c k : named c k -> k <> Search -> k <> ListUpgrades ->
  exists t, make_parser k = Ok t /\ CommandLine.start number [c] = Runs k (defaults t) [].
Proof. exact (alone number c k). Qed.
Print Assumptions C78_starts_partial.

(** ** Options *)
(** install has the options of the manual. *)
Theorem C78_install_options : exists t, make_parser Install = Ok t /\
  (forall s n b, In (s, n, b) install_documented <-> exists o, In o t /\ opt_long o = n /\ s = match opt_short o with Some c => String c "" | None => "" end /\ b = takes_value o).
Proof. exact install_table. Qed.
Print Assumptions C78_install_options.
(** Every command that starts has the general options. *)
Theorem C78_general_options k t : make_parser k = Ok t -> forall c n d, In (c, n, d) general_documented -> exists o, In o t /\ opt_short o = Some c /\ opt_long o = n /\ opt_kind o = d.
Proof. exact (general_options k t). Qed.
Print Assumptions C78_general_options.
(** A switch is on exactly if it is given. *)
Theorem C78_switches number k t is l o : make_parser k = Ok t -> meaning number t is l -> In o t -> opt_kind o = Flag ->
  (on (set_all (defaults t) l) (dest o) = true <-> gives l (dest o)).
Proof. exact (flag_on number k t is l o). Qed.
Print Assumptions C78_switches.
(** An option with a value has the last one given, or else its default. *)
Theorem C78_values number k t is l o : make_parser k = Ok t -> meaning number t is l -> In o t -> opt_kind o = Text ->
  ((forall y, ~ In (dest o, y) l) -> set_all (defaults t) l !! dest o = Some (opt_default o)) /\
  (forall a b y, l = (a ++ (dest o, y) :: b)%list -> (forall y', ~ In (dest o, y') b) -> set_all (defaults t) l !! dest o = Some y /\ exists x, y = VText x).
Proof. exact (text_value number k t is l o). Qed.
Print Assumptions C78_values.

(** The name and password for a server are those of the line; a missing password is asked for. *)
Theorem C78_authinfo number k t is l typed u p : make_parser k = Ok t -> meaning number t is l ->
  (authinfo typed (set_all (defaults t) l) = Some (u, p) <->
   last_text l "username" u /\ u <> "" /\ (last_text l "password" p /\ p <> "" \/ p = typed /\ forall x, last_text l "password" x -> x = "")).
Proof. exact (authinfo_exact number k t is l typed u p). Qed.
Print Assumptions C78_authinfo.

(** ** What the operations get *)
(** install, remove and upgrade run with the options of the line and with no others, for the
    packages of the line, and ask nothing if --yes-all is given; without packages the first two
    do nothing, and the last takes all that are installed. *)
Theorem C78_install h realpath configured update_repo repos history other number argv c t is tail l w :
  first_bare argv c -> named c Install -> make_parser Install = Ok t -> says number t argv is tail l ->
  exists h' o r, given_options l o /\ answers_with l h h' /\ goes_to realpath configured l (o_dest o) /\ (r = true <-> gives l "reinstall") /\
    pisi h realpath configured update_repo repos history other number argv w =
      match tl (concat (map word is) ++ tail) with [] => (w, Ok tt) | args => install h' o args r w end.
Proof. exact (runs_install h realpath configured update_repo repos history other number argv c t is tail l w). Qed.
Print Assumptions C78_install.
Theorem C78_remove h realpath configured update_repo repos history other number argv c t is tail l w :
  first_bare argv c -> named c Remove -> make_parser Remove = Ok t -> says number t argv is tail l ->
  exists h' o, given_options l o /\ answers_with l h h' /\ goes_to realpath configured l (o_dest o) /\
    let run := pisi h realpath configured update_repo repos history other number argv w in
    match tl (concat (map word is) ++ tail) with
    | [] => run = (w, Ok tt)
    | args => run.1 = (remove h' o args false w).1 /\ (forall e, run.2 = Err e <-> (remove h' o args false w).2 = Err e)
    end.
Proof. exact (runs_remove h realpath configured update_repo repos history other number argv c t is tail l w). Qed.
Print Assumptions C78_remove.
Theorem C78_configure_pending h realpath configured update_repo repos history other number argv c t is tail l w :
  first_bare argv c -> named c ConfigurePending -> make_parser ConfigurePending = Ok t -> says number t argv is tail l ->
  exists h' o, given_options l o /\ answers_with l h h' /\ goes_to realpath configured l (o_dest o) /\
    pisi h realpath configured update_repo repos history other number argv w = configure_pending h' o w.
Proof. exact (runs_configure h realpath configured update_repo repos history other number argv c t is tail l w). Qed.
Print Assumptions C78_configure_pending.
Theorem C78_upgrade_partial h realpath configured update_repo repos history other number argv c t is tail l w :
  first_bare argv c -> named c Upgrade -> make_parser Upgrade = Ok t -> says number t argv is tail l -> ~ gives l "security" ->
  exists h' o, given_options l o /\ answers_with l h h' /\ goes_to realpath configured l (o_dest o) /\
  forall w1, gives l "bypass_update_repo" /\ w1 = w \/ ~ gives l "bypass_update_repo" /\ eachM update_repo (repos (w_sys w)) w = (w1, Ok tt) ->
  exists A, A = match tl (concat (map word is) ++ tail) with [] => list_installed (y_inst (w_sys w1)) | args => args end /\
    let run := pisi h realpath configured update_repo repos history other number argv w in
    run.1 = (upgrade_pkg_names h' o A w1).1 /\ (forall e, run.2 = Err e <-> (upgrade_pkg_names h' o A w1).2 = Err e).
Proof. exact (runs_upgrade h realpath configured update_repo repos history other number argv c t is tail l w). Qed.
Print Assumptions C78_upgrade_partial.
Theorem C78_upgrade_security_partial h realpath configured update_repo repos history other number argv c t is tail l w :
  first_bare argv c -> named c Upgrade -> make_parser Upgrade = Ok t -> says number t argv is tail l -> gives l "security" ->
  exists h' o, given_options l o /\ answers_with l h h' /\ goes_to realpath configured l (o_dest o) /\
  forall w1, gives l "bypass_update_repo" /\ w1 = w \/ ~ gives l "bypass_update_repo" /\ eachM update_repo (repos (w_sys w)) w = (w1, Ok tt) ->
  exists A, A = match tl (concat (map word is) ++ tail) with [] => list_installed (y_inst (w_sys w1)) | args => args end /\
    let run := pisi h realpath configured update_repo repos history other number argv w in
    run.1 = (upgrade_security h' o history A w1).1 /\ (forall e, run.2 = Err e <-> (upgrade_security h' o history A w1).2 = Err e).
Proof. exact (runs_security h realpath configured update_repo repos history other number argv c t is tail l w). Qed.
Print Assumptions C78_upgrade_security_partial.
(** A line that gives --dry-run changes nothing. *)
Theorem C78_dry_run_partial h realpath configured update_repo repos history other number argv c k t is tail l w :
  first_bare argv c -> named c k -> make_parser k = Ok t -> says number t argv is tail l -> gives l "dry_run" ->
  (k = Remove \/
   k = Install /\ (forall x r, tl (concat (map word is) ++ tail)%list = x :: r -> py_endswith x package_suffix = false) \/
   k = Upgrade /\ gives l "bypass_update_repo") ->
  untouched w (pisi h realpath configured update_repo repos history other number argv w).1.
Proof. exact (dry_line h realpath configured update_repo repos history other number argv c k t is tail l w). Qed.
Print Assumptions C78_dry_run_partial.
(** A line that is refused, or that only asks for a text, changes nothing. *)
Theorem C78_refused h realpath configured update_repo repos history other number argv w :
  (forall n, CommandLine.start number argv = Exits n -> pisi h realpath configured update_repo repos history other number argv w = (w, Ok tt)) /\
  (forall e, CommandLine.start number argv = Fails e -> pisi h realpath configured update_repo repos history other number argv w = (w, Err e)).
Proof. exact (refused h realpath configured update_repo repos history other number argv w). Qed.
Print Assumptions C78_refused.

(** ** Not vacuous *)
Definition no_number (s : string) : option Z := None.
Definition here (s : string) : string := s.
Definition nobody (p : package) : list update := [].
Definition nothing (k : CommandLine.command) (v : settings) (l : list string) : M unit := ret tt.
Definition sh (h : host) : list string -> M unit := pisi h here "/" (fun _ => ret tt) (fun _ => []) nobody nothing no_number.
Definition a_line : list string := ["-yD/mnt"; "--dry"; "rm"; "one"; "--"; "-x"].
Example C78_nontrivial :
  (exists t is tail l, first_bare a_line "rm" /\ named "rm" Remove /\ make_parser Remove = Ok t /\ says no_number t a_line is tail l /\ tl (concat (map word is) ++ tail)%list = ["one"; "-x"] /\
     gives l "dry_run" /\ gives l "yes_all" /\ ~ gives l "ignore_dependency") /\
  (exists v, CommandLine.start no_number a_line = Runs Remove v ["one"; "-x"]) /\
  CommandLine.start no_number ["install"; "--re"; "--ign"; "foo"] = Exits 2 /\
  CommandLine.start no_number ["install"; "--help"] = Exits 0 /\
  CommandLine.start no_number ["-D"; "/mnt"; "install"; "foo"] = Fails EError /\
  CommandLine.start no_number ["--reinstall"] = Fails EError /\
  names_of (w_sys (sh plain ["rm"; "-B"; "one"] (OpsProps.start house ∅)).1) <> names_of house /\
  names_of (w_sys (sh plain ["rm"; "-Bn"; "one"] (OpsProps.start house ∅)).1) = names_of house /\
  names_of (w_sys (sh (host_with (fun _ _ => false) OpsProps.bare (fun _ => Err EError)) ["rm"; "-B"; "one"] (OpsProps.start house ∅)).1) = names_of house /\
  names_of (w_sys (sh (host_with (fun _ _ => false) OpsProps.bare (fun _ => Err EError)) ["rm"; "-By"; "one"] (OpsProps.start house ∅)).1) <> names_of house.
Proof.
  assert (R : CommandLine.start no_number a_line = Runs Remove (match CommandLine.start no_number a_line with Runs _ v _ => v | _ => ∅ end) ["one"; "-x"]) by (vm_compute; reflexivity).
  split; [|split; [eexists; exact R|]].
  - set (v := match _ with Runs _ v _ => v | _ => _ end) in R. assert (D : on v "dry_run" = true /\ on v "yes_all" = true /\ on v "ignore_dependency" = false) by (repeat split; vm_compute; reflexivity). clearbody v.
    apply start_exact in R as (c & t & is & tail & l & F & N & T & S & -> & A). assert (c = "rm") as ->. { apply first_bare_iff in F as [ws F]. vm_compute in F. congruence. }
    exists t, is, tail, l. split; [exact F|]. split; [exact N|]. split; [exact T|]. split; [exact S|]. split; [now rewrite <- A|]. destruct S as [M _].
    pose proof (fun d => switch_iff no_number Remove t is l d T M) as K. destruct D as (D1 & D2 & D3).
    split; [apply K; [cbn; tauto|exact D1]|]. split; [apply K; [cbn; tauto|exact D2]|]. intros G. apply K in G; [congruence|cbn; tauto].
  - split; [vm_compute; reflexivity|]. split; [vm_compute; reflexivity|]. split; [vm_compute; reflexivity|]. split; [vm_compute; reflexivity|]. split; [vm_compute; discriminate|]. split; [vm_compute; reflexivity|]. split; [vm_compute; reflexivity|]. vm_compute; discriminate.
Qed.
