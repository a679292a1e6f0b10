(** * C55, C61: verifying installed files *)
From Coq Require Import String List ZArith.
From stdpp Require Import gmap strings relations.
From Verif Require Import Proof.GraphFacts.
From Verif Require Import Model.Py Model.ItemByRepo Model.Dependency Model.Package Model.ComponentDB Model.Databases
  Model.InstallDB Model.System Model.Graph Model.Plan Model.Path Model.Fs Model.Ops Model.Check
  Spec.ItemByRepoSpec Spec.DependencySpec Spec.DatabaseSpec Spec.SystemSpec Spec.GraphSpec Spec.PlanSpec Spec.PathSpec Spec.FsSpec Spec.OpsSpec Spec.CheckSpec
  Proof.InstallDBFacts Proof.SystemFacts Proof.FsFacts Proof.FsChecks Proof.OpsFacts Proof.KeepConfig Proof.CheckFacts.
Require Import Verif.Prop.PlanProps Verif.Prop.OpsProps Verif.Prop.KeepConfigProps.
Open Scope string_scope.

(** ** C55 *)
(** Asked to verify an installed package by its name, check always fails: it imports a module
    that does not exist. *)
Theorem C55_by_name_refuted h s f n : system s -> is_installed (y_inst s) n = true -> py_endswith n ".pisi" = false -> check h s f n = Err EImport.
Proof. exact (fun S => check_installed_name h s f n (lived_yinv _ _ S)). Qed.
Print Assumptions C55_by_name_refuted.
(** The command fails at the first installed package: the function it calls does not exist. *)
Theorem C55_command_refuted s args : (exists n, In n args /\ is_installed (y_inst s) n = true) -> (check_command s args).2 = Err EAttribute.
Proof. exact (command_fails s args). Qed.
Print Assumptions C55_command_refuted.

(** Verifying against a package file.  If check reports, then in the order of the package's
    list exactly the files with a recorded hash, not configuration files, at whose place below
    "/" is a regular file with another hash.  Missing: files that are gone or were replaced,
    see below. *)
Theorem C55_report_partial h s f file k bad : (forall fi, In fi (k_files k) -> relative_path (f_path fi)) -> py_endswith file ".pisi" = true -> h_open h file = Ok k ->
  check h s f file = Ok bad ->
  bad `sublist_of` k_files k /\
  forall fi, In fi bad <-> In fi (k_files k) /\ to_verify fi /\ altered (h_sha1 h) f (located "/" (f_path fi)) fi.
Proof. exact (check_report h s f file k bad). Qed.
Print Assumptions C55_report_partial.
(** It fails exactly if something to be verified is gone, or is neither file nor link. *)
Theorem C55_fails_iff h s f file k e : (forall fi, In fi (k_files k) -> relative_path (f_path fi)) -> py_endswith file ".pisi" = true -> h_open h file = Ok k ->
  (check h s f file = Err e <-> e = EError /\ exists fi, In fi (k_files k) /\ to_verify fi /\ unreadable f (located "/" (f_path fi))).
Proof. exact (check_fails h s f file k e). Qed.
Print Assumptions C55_fails_iff.
(** The command with any checking function: if it ends well it names exactly the packages with
    a report, and the ones not installed; it ends badly exactly if one cannot be checked. *)
Theorem C55_command_partial chk s pkgs : let r := check_packages chk s pkgs in
  (r.2 = Ok tt -> (forall p, In (Corrupt p) r.1 <-> In p pkgs /\ is_installed (y_inst s) p = true /\ exists bad, chk p = Ok bad /\ bad <> []) /\
     (forall p, In (NotInstalled p) r.1 <-> In p pkgs /\ is_installed (y_inst s) p = false)) /\
  (forall e, r.2 = Err e <-> exists before p after, pkgs = (before ++ p :: after)%list /\ is_installed (y_inst s) p = true /\ chk p = Err e /\
     forall q, In q before -> is_installed (y_inst s) q = true -> exists bad, chk q = Ok bad).
Proof. exact (check_packages_ok chk s pkgs). Qed.
Print Assumptions C55_command_partial.

Definition tools : list finfo := [mkFile "bin/a" "executable" (Some "sha1:a") None; mkFile "bin/b" "executable" (Some "sha1:b") None; mkFile "etc/c" "config" (Some "sha1:c") None].
Definition tools_file : pkgfile := mkPkgfile (v_pkg "tools" "1" "1" []) tools [].
Definition shelf_host : host := host_with (fun _ _ => true) bare (fun x => if String.eqb x "tools-1-1.pisi" then Ok tools_file else if String.eqb x "daemon-2-2.pisi" then Ok daemon_2 else Err EError).
Definition checked : sys := with_repo [] [YInstall (v_pkg "tools" "1" "1" []) tools false].
Lemma checked_system : system checked.
Proof. apply with_repo_system. intros d K. repeat (destruct K as [K|K]; [discriminate K|]). destruct K. Qed.
Lemma tools_relative fi : In fi (k_files tools_file) -> relative_path (f_path fi).
Proof. intros [<-|[<-|[<-|[]]]]; apply rel_check_ok; reflexivity. Qed.
Definition intact_disk : fs := {[ "/bin" := NDir; "/bin/a" := NFile "a"; "/bin/b" := NFile "b"; "/etc" := NDir; "/etc/c" := NFile "mine" ]}.
(** A file that is gone is not reported: check fails, and what is wrong with other files is not
    reported either. *)
Theorem C55_missing_file_refuted : exists h s f file k fi fj, (forall fi, In fi (k_files k) -> relative_path (f_path fi)) /\ py_endswith file ".pisi" = true /\ h_open h file = Ok k /\ tree f /\
  In fi (k_files k) /\ to_verify fi /\ f !! located "/" (f_path fi) = None /\ In fj (k_files k) /\ to_verify fj /\ altered (h_sha1 h) f (located "/" (f_path fj)) fj /\
  check h s f file = Err EError.
Proof.
  exists shelf_host, checked, (<["/bin/b" := NFile "x"]> (delete "/bin/a" intact_disk)), "tools-1-1.pisi", tools_file, (mkFile "bin/a" "executable" (Some "sha1:a") None), (mkFile "bin/b" "executable" (Some "sha1:b") None).
  split; [exact tools_relative|]. split; [reflexivity|]. split; [reflexivity|]. split; [apply tree_check_ok; vm_compute; reflexivity|].
  split; [left; reflexivity|]. split; [split; [eexists; split; [reflexivity|discriminate]|discriminate]|].
  split; [vm_compute; reflexivity|]. split; [right; left; reflexivity|]. split; [split; [eexists; split; [reflexivity|discriminate]|discriminate]|].
  split; [exists "x"; split; [vm_compute; reflexivity|discriminate]|]. vm_compute. reflexivity.
Qed.
Print Assumptions C55_missing_file_refuted.
(** A file replaced by a link to something else is not reported. *)
Theorem C55_link_refuted : exists h s f file k fi, (forall fi, In fi (k_files k) -> relative_path (f_path fi)) /\ py_endswith file ".pisi" = true /\ h_open h file = Ok k /\ tree f /\
  In fi (k_files k) /\ to_verify fi /\ f !! located "/" (f_path fi) = Some (NLink "/bin/evil") /\ reads f (located "/" (f_path fi)) "evil" /\ f_hash fi <> Some (h_sha1 h "evil") /\
  check h s f file = Ok [].
Proof.
  exists shelf_host, checked, (<["/bin/evil" := NFile "evil"]> (<["/bin/a" := NLink "/bin/evil"]> intact_disk)), "tools-1-1.pisi", tools_file, (mkFile "bin/a" "executable" (Some "sha1:a") None).
  split; [exact tools_relative|]. split; [reflexivity|]. split; [reflexivity|]. split; [apply tree_check_ok; vm_compute; reflexivity|].
  split; [left; reflexivity|]. split; [split; [eexists; split; [reflexivity|discriminate]|discriminate]|].
  split; [vm_compute; reflexivity|]. split; [vm_compute; reflexivity|]. split; [discriminate|]. vm_compute. reflexivity.
Qed.
Print Assumptions C55_link_refuted.
Example C55_nontrivial : system checked /\ is_installed (y_inst checked) "tools" = true /\ py_endswith "tools" ".pisi" = false /\
  check shelf_host checked intact_disk "tools-1-1.pisi" = Ok [] /\
  check shelf_host checked (<["/bin/b" := NFile "x"]> intact_disk) "tools-1-1.pisi" = Ok [mkFile "bin/b" "executable" (Some "sha1:b") None] /\
  check shelf_host checked (delete "/bin/b" intact_disk) "tools-1-1.pisi" = Err EError /\
  check_packages (check shelf_host checked intact_disk) checked ["vim"] = ([NotInstalled "vim"], Ok tt) /\
  check_packages (fun _ => Ok tools) checked ["tools"] = ([Corrupt "tools"], Ok tt).
Proof.
  split; [apply checked_system|]. split; [vm_compute; reflexivity|]. split; [vm_compute; reflexivity|].
  split; [vm_compute; reflexivity|]. split; [vm_compute; reflexivity|]. split; [vm_compute; reflexivity|]. split; vm_compute; reflexivity.
Qed.

(** ** C61 *)
(** A package in order whose list tells the truth about its archive verifies against its file
    right after it was installed into "/", whatever was there before and whatever the user
    changed. *)
Theorem C61_fresh_package_verifies_partial h o k file i ask w w' s : o_dest o = "/" -> in_order k -> truthful (h_sha1 h) k ->
  py_endswith file ".pisi" = true -> h_open h file = Ok k ->
  install_package h o k i ask w = (w', Ok tt) -> check h s (w_fs w') file = Ok [].
Proof. exact (fun E Ok_ => fresh_passes h o (or_introl E) k Ok_ i ask w w' file s E). Qed.
Print Assumptions C61_fresh_package_verifies_partial.
(** Missing: another destination directory.  The check looks in "/" all the same. *)
Definition elsewhere : opts := mkOpts false false false false false false false "/mnt".
Theorem C61_other_destination_refuted : exists h o k file w w', fair h /\ destination (o_dest o) /\ in_order k /\ system (w_sys w) /\ tree (w_fs w) /\ truthful (h_sha1 h) k /\
  py_endswith file ".pisi" = true /\ h_open h file = Ok k /\
  install_package h o k false false w = (w', Ok tt) /\ check h (w_sys w') (w_fs w') file = Err EError.
Proof.
  exists shelf_host, elsewhere, daemon_2, "daemon-2-2.pisi", (start (with_repo [] []) {[ "/mnt" := NDir ]}), (install_package shelf_host elsewhere daemon_2 false false (start (with_repo [] []) {[ "/mnt" := NDir ]})).1.
  split; [apply host_fair|]. split; [right; apply abs_check_ok; reflexivity|]. split; [apply order_check_ok; vm_compute; reflexivity|].
  split; [apply with_repo_system; intros d []|]. split; [apply tree_check_ok; vm_compute; reflexivity|].
  split; [intros fi Hf V; destruct Hf as [<-|[<-|[<-|[]]]]; [destruct V as [_ V]; now destruct V|left; exists "code"; split; [right; right; right; left; reflexivity|reflexivity]|destruct V as [_ V]; now destruct V]|].
  split; [reflexivity|]. split; [reflexivity|]. split; [apply by_parts; vm_compute; reflexivity|]. vm_compute. reflexivity.
Qed.
Print Assumptions C61_other_destination_refuted.
Example C61_nontrivial : o_dest usual = "/" /\ in_order daemon_2 /\ system daemon_1 /\ truthful (h_sha1 shelf_host) daemon_2 /\ h_open shelf_host "daemon-2-2.pisi" = Ok daemon_2 /\
  (install_package shelf_host usual daemon_2 false false (start daemon_1 tuned)).2 = Ok tt /\
  existsb (fun fi => truthy (f_hash fi) && negb (String.eqb (f_type fi) "config")) (k_files daemon_2) = true.
Proof.
  split; [reflexivity|]. split; [apply order_check_ok; vm_compute; reflexivity|]. split; [apply daemon_system|].
  split; [intros fi Hf V; destruct Hf as [<-|[<-|[<-|[]]]]; [destruct V as [_ V]; now destruct V|left; exists "code"; split; [right; right; right; left; reflexivity|reflexivity]|destruct V as [_ V]; now destruct V]|].
  split; [reflexivity|]. split; vm_compute; reflexivity.
Qed.
