(** * C74: what the configuration file says is what takes effect *)
From Coq Require Import String Ascii ZArith List Bool.
From stdpp Require Import gmap strings.
From Verif Require Import Model.Py Model.Path Model.Search Model.Config Model.Fs Spec.PathSpec Spec.FsSpec Spec.VersionSpec Spec.ConfigSpec Proof.PyFacts Proof.ConfigFacts.
Import ListNotations.
Open Scope string_scope.

(** A file made of headers, entries, comments and blank lines is read, and read as it is written:
    in each section the last value of each key, or that of [DEFAULT]. *)
Theorem C74_file_read lines items : Forall2 reads_as lines items -> headed items ->
  exists p, read_lines lines = Ok p /\ forall s k v, s <> "DEFAULT" -> k <> "__name__" -> items_of p s !! k = Some v <-> given items s k v.
Proof. exact (parse_items lines items). Qed.
Print Assumptions C74_file_read.

Theorem C74_no_header lines items : Forall2 reads_as lines items -> ~ headed items -> read_lines lines = Err EError.
Proof. exact (no_header lines items). Qed.
Print Assumptions C74_no_header.

Theorem C74_setting_given env lines items p s k v : Forall2 reads_as lines items -> headed items -> read_lines lines = Ok p -> s <> "DEFAULT" -> k <> "__name__" ->
  given items s k v -> stands_for v (setting env p s k).
Proof. exact (setting_given env lines items p s k v). Qed.
Print Assumptions C74_setting_given.

Theorem C74_setting_standard env lines items p s k x : Forall2 reads_as lines items -> headed items -> read_lines lines = Ok p ->
  (forall v, ~ given items s k v) -> In (s, k, x) standard -> setting env p s k = x.
Proof. exact (setting_standard env lines items p s k x). Qed.
Print Assumptions C74_setting_standard.

Theorem C74_proxies_from_environment env lines items p k var : Forall2 reads_as lines items -> headed items -> read_lines lines = Ok p ->
  (forall v, ~ given items "general" k v) -> In (k, var) [("http_proxy", "HTTP_PROXY"); ("https_proxy", "HTTPS_PROXY"); ("ftp_proxy", "FTP_PROXY")] ->
  (forall t, env var = Some t -> t <> "" -> setting env p "general" k = CStr t) /\ (env var = None \/ env var = Some "" -> setting env p "general" k = CNone).
Proof. exact (setting_environment env lines items p k var). Qed.
Print Assumptions C74_proxies_from_environment.

(** Switches are on if and only if there is some text other than "False". *)
Theorem C74_switches_partial env lines items p s k : Forall2 reads_as lines items -> headed items -> read_lines lines = Ok p ->
  In (s, k) [("general", "xdelta"); ("build", "buildno"); ("build", "generatedebug")] ->
  switched_on (setting env p s k) = true <-> exists v, given items s k v /\ v <> "" /\ v <> "False".
Proof. exact (fun F H E => switch_iff env lines items p F H E s k). Qed.
Print Assumptions C74_switches_partial.

(** But for autoclean, which takes "True" only. *)
Theorem C74_autoclean env lines items p : Forall2 reads_as lines items -> headed items -> read_lines lines = Ok p ->
  autoclean (setting env p "general" "autoclean") = true <-> given items "general" "autoclean" "True".
Proof. exact (autoclean_iff env lines items p). Qed.
Print Assumptions C74_autoclean.

Theorem C74_compression_default env lines items p : Forall2 reads_as lines items -> headed items -> read_lines lines = Ok p ->
  (forall v, ~ given items "build" "compressionlevel" v) -> lzma_command (setting env p "build" "compressionlevel") = Ok "lzma -z -7".
Proof. exact (lzma_missing env lines items p). Qed.
Print Assumptions C74_compression_default.

(** Whatever level is given, packages of format 1.1 cannot be written. *)
Theorem C74_compression_refuted env lines items p v : Forall2 reads_as lines items -> headed items -> read_lines lines = Ok p ->
  given items "build" "compressionlevel" v -> v <> "" -> v <> "True" -> v <> "False" -> lzma_command (setting env p "build" "compressionlevel") = Err EType.
Proof. exact (fun F H E => lzma_given env lines items p F H E v). Qed.
Print Assumptions C74_compression_refuted.

Theorem C74_bandwidth_option t n conf : number t n -> bandwidth_limit (CStr t) conf = Ok (1024 * n)%Z.
Proof. exact (limit_option t n conf). Qed.
Print Assumptions C74_bandwidth_option.
Theorem C74_bandwidth_given env lines items p t n : Forall2 reads_as lines items -> headed items -> read_lines lines = Ok p ->
  given items "general" "bandwidth_limit" t -> number t n -> bandwidth_limit (CInt 0) (setting env p "general" "bandwidth_limit") = Ok (1024 * n)%Z.
Proof. exact (fun F H E => limit_given env lines items p F H E t n). Qed.
Print Assumptions C74_bandwidth_given.
Theorem C74_bandwidth_default env lines items p : Forall2 reads_as lines items -> headed items -> read_lines lines = Ok p ->
  (forall t, ~ given items "general" "bandwidth_limit" t) -> bandwidth_limit (CInt 0) (setting env p "general" "bandwidth_limit") = Ok 0%Z.
Proof. exact (limit_missing env lines items p). Qed.
Print Assumptions C74_bandwidth_default.

Theorem C74_destination cwd opt conf :
  (forall d, opt = Some d -> absolute d -> dest_dir cwd opt conf = CStr d) /\
  (forall d, opt = Some d -> absolute cwd -> relative_path d -> (forall c r, d = String c r -> is_space c = false) -> dest_dir cwd opt conf = CStr (located cwd d)) /\
  (opt = None \/ opt = Some "" -> dest_dir cwd opt conf = conf).
Proof. exact (dest_dir_at cwd opt conf). Qed.
Print Assumptions C74_destination.
Theorem C74_directories dest conf path : destination dest -> relative_path path -> conf = path \/ conf = "/" ++ path -> sub_dir dest (CStr conf) = Ok (located dest path).
Proof. exact (sub_dir_at dest conf path). Qed.
Print Assumptions C74_directories.

(** ** A file *)
Definition file_text : list string :=
  ["# pisi.conf"; ""; "[general]"; "destinationdirectory = /mnt/target   ; the new disk"; "bandwidth_limit: 16"; "AutoClean = True"; "autoclean=False"; "";
   "[build]"; "buildno=True"; "CFLAGS= -march=i686 -O2"; "[directories]"; "[DEFAULT]"; "jobs = -j4"; "[general]"; "xdelta = True"].
Definition file_items : list item :=
  [Skip; Skip; Section_ "general"; Assign "destinationdirectory" "/mnt/target"; Assign "bandwidth_limit" "16"; Assign "AutoClean" "True"; Assign "autoclean" "False"; Skip;
   Section_ "build"; Assign "buildno" "True"; Assign "CFLAGS" "-march=i686 -O2"; Section_ "directories"; Section_ "DEFAULT"; Assign "jobs" "-j4"; Section_ "general"; Assign "xdelta" "True"].
Definition asked (lines : list string) (s k : string) : option cvalue :=
  match read_lines lines with Ok p => Some (setting (fun _ => None) p s k) | Err _ => None end.
Lemma file_reads : Forall2 reads_as file_text file_items.
Proof.
  repeat apply Forall2_cons_2; try apply Forall2_nil_2.
  - apply reads_comment. now left.
  - apply reads_blank. now apply spaces_b_ok.
  - exact (header_ok "general" "" eq_refl eq_refl).
  - exact (entry_comment_ok "destinationdirectory" " " "=" " " "/mnt/target" "   " " the new disk" eq_refl eq_refl eq_refl eq_refl eq_refl eq_refl eq_refl eq_refl).
  - exact (entry_ok "bandwidth_limit" "" ":" " " "16" "" eq_refl eq_refl eq_refl eq_refl eq_refl eq_refl).
  - exact (entry_ok "AutoClean" " " "=" " " "True" "" eq_refl eq_refl eq_refl eq_refl eq_refl eq_refl).
  - exact (entry_ok "autoclean" "" "=" "" "False" "" eq_refl eq_refl eq_refl eq_refl eq_refl eq_refl).
  - apply reads_blank. now apply spaces_b_ok.
  - exact (header_ok "build" "" eq_refl eq_refl).
  - exact (entry_ok "buildno" "" "=" "" "True" "" eq_refl eq_refl eq_refl eq_refl eq_refl eq_refl).
  - exact (entry_ok "CFLAGS" "" "=" " " "-march=i686 -O2" "" eq_refl eq_refl eq_refl eq_refl eq_refl eq_refl).
  - exact (header_ok "directories" "" eq_refl eq_refl).
  - exact (header_ok "DEFAULT" "" eq_refl eq_refl).
  - exact (entry_ok "jobs" " " "=" " " "-j4" "" eq_refl eq_refl eq_refl eq_refl eq_refl eq_refl).
  - exact (header_ok "general" "" eq_refl eq_refl).
  - exact (entry_ok "xdelta" " " "=" " " "True" "" eq_refl eq_refl eq_refl eq_refl eq_refl eq_refl).
Qed.
Example C74_nontrivial :
  Forall2 reads_as file_text file_items /\ headed file_items /\
  given file_items "general" "autoclean" "False" /\ given file_items "build" "cflags" "-march=i686 -O2" /\ given file_items "build" "jobs" "-j4" /\
  (forall v, ~ given file_items "build" "compressionlevel" v) /\
  asked file_text "general" "destinationdirectory" = Some (CStr "/mnt/target") /\ asked file_text "general" "autoclean" = Some (CBool false) /\
  asked file_text "general" "xdelta" = Some (CBool true) /\ asked file_text "build" "jobs" = Some (CStr "-j4") /\ asked file_text "directories" "tmp_dir" = Some (CStr "/var/tmp/pisi") /\
  bandwidth_limit (CInt 0) (CStr "16") = Ok 16384%Z /\ sub_dir "/mnt/target" (CStr "/var/db/pisi") = Ok "/mnt/target/var/db/pisi".
Proof.
  split; [exact file_reads|]. split; [now apply headed_b_ok|]. split; [apply given_b_ok; vm_compute; reflexivity|]. split; [apply given_b_ok; vm_compute; reflexivity|]. split; [apply given_b_ok; vm_compute; reflexivity|].
  split; [apply not_given_b; vm_compute; reflexivity|]. repeat split; vm_compute; reflexivity.
Qed.

(** ** What users would not expect *)
(** A switch is turned on by "false", by "0", by "no", and by "False" with a comment of the kind the
    documented file has; autoclean is not turned on by "true". *)
Theorem C74_switches_refuted :
  Forall (fun line => asked ["[build]"; line] "build" "buildno" <> None /\ option_map switched_on (asked ["[build]"; line] "build" "buildno") = Some true)
    ["buildno = false"; "buildno = 0"; "buildno = no"; "buildno=False     # necessary for generating build nos"] /\
  option_map autoclean (asked ["[general]"; "autoclean = true"] "general" "autoclean") = Some false.
Proof. split; [repeat constructor; vm_compute; (discriminate || reflexivity)|vm_compute; reflexivity]. Qed.
Print Assumptions C74_switches_refuted.
(** The level in the documented file *)
Theorem C74_documented_level_refuted : option_map lzma_command (asked ["[build]"; "compressionlevel = 7"] "build" "compressionlevel") = Some (Err EType) /\
  option_map lzma_command (asked [] "build" "compressionlevel") = Some (Ok "lzma -z -7").
Proof. split; vm_compute; reflexivity. Qed.
Print Assumptions C74_documented_level_refuted.
(** A comment that is indented becomes part of the value before, and a comment in place of a value
    is the value. *)
Theorem C74_comments_refuted :
  asked ["[general]"; "destinationdirectory = /mnt"; "   # not here"] "general" "destinationdirectory" = Some (CStr ("/mnt" ++ String newline "# not here")) /\
  asked ["[build]"; "ldflags = ; none"] "build" "ldflags" = Some (CStr "; none").
Proof. split; vm_compute; reflexivity. Qed.
Print Assumptions C74_comments_refuted.
(** A section with another capital is not looked at, and directories may lead out of the destination. *)
Theorem C74_section_refuted : asked ["[General]"; "destinationdirectory = /mnt"] "general" "destinationdirectory" = Some (CStr "/") /\
  sub_dir "/mnt" (CStr "/../etc") = Ok "/mnt/../etc".
Proof. split; vm_compute; reflexivity. Qed.
Print Assumptions C74_section_refuted.
Example C74_no_header_nontrivial : Forall2 reads_as ["# late"; "a = b"; "[general]"] [Skip; Assign "a" "b"; Section_ "general"] /\ ~ headed [Skip; Assign "a" "b"; Section_ "general"].
Proof.
  split.
  - repeat apply Forall2_cons_2; try apply Forall2_nil_2; [apply reads_comment; now left|exact (entry_ok "a" " " "=" " " "b" "" eq_refl eq_refl eq_refl eq_refl eq_refl eq_refl)|exact (header_ok "general" "" eq_refl eq_refl)].
  - intros H. destruct (H [Skip] "a" "b" [Section_ "general"] eq_refl) as [s [X|[]]]. discriminate X.
Qed.
