(** * C70, C71: what is built is what is installed, and nothing else is touched *)
From Coq Require Import String List ZArith.
From stdpp Require Import gmap strings relations.
From Verif Require Import Proof.GraphFacts.
From Verif Require Import Model.Py Model.ItemByRepo Model.Dependency Model.Package Model.ComponentDB Model.Databases
  Model.InstallDB Model.System Model.Graph Model.Plan Model.Path Model.Fs Model.Contents Model.Ops Model.Check Model.Pack
  Spec.ItemByRepoSpec Spec.DependencySpec Spec.DatabaseSpec Spec.SystemSpec Spec.GraphSpec Spec.PlanSpec Spec.PathSpec Spec.ContentsSpec Spec.FsSpec Spec.OpsSpec Spec.CheckSpec Spec.PackSpec
  Proof.InstallDBFacts Proof.SystemFacts Proof.FsFacts Proof.FsChecks Proof.OpsFacts Proof.KeepConfig Proof.CheckFacts Proof.ContentsFacts Proof.ContentsTop Proof.PackFacts Proof.Frame Proof.PackTop.
Require Import Verif.Prop.PlanProps Verif.Prop.OpsProps Verif.Prop.KeepConfigProps Verif.Prop.ContentsProps.
Open Scope string_scope.

(** ** C70 *)
(** Explicit paths, none found by accident in the name of a file it does not cover, and every
    file of the package under a path with a type: the package file is written.  It holds
    exactly the files that belong to the package, as they were produced, and lists exactly
    these; its checksums are those of what it holds. *)
Theorem C70_built_partial sha1 install t pkgs listed i pkg fmt :
  proper_dir install -> well_formed t -> all_explicit pkgs -> unambiguous install t pkgs ->
  (forall d, listed d ≡ₚ map_to_list d) -> ~ untyped t pkgs i ->
  exists k, build_package sha1 install t listed pkgs i pkg fmt = Ok k /\ k_pkg k = pkg /\ k_format k = fmt /\
    holds_exactly t pkgs i k /\ lists_exactly sha1 t pkgs i k /\ truthful sha1 k.
Proof.
  intros Pd W X U L T. destruct (build_cases sha1 install t pkgs Pd W X U listed L i pkg fmt) as [(_ & k & H1 & H2 & H3 & H4 & H5 & H6 & _)|[K _]]; [|now destruct T].
  exists k. auto 10.
Qed.
Print Assumptions C70_built_partial.

(** ... and that is the only way it can fail *)
Theorem C70_fails_iff_partial sha1 install t pkgs listed i pkg fmt e :
  proper_dir install -> well_formed t -> all_explicit pkgs -> unambiguous install t pkgs ->
  (forall d, listed d ≡ₚ map_to_list d) ->
  build_package sha1 install t listed pkgs i pkg fmt = Err e <-> e = EError /\ untyped t pkgs i.
Proof.
  intros Pd W X U L. destruct (build_cases sha1 install t pkgs Pd W X U listed L i pkg fmt) as [(T & k & -> & _)|[T ->]].
  - split; [discriminate|]. intros [_ K]. now destruct T.
  - split; [intros [= <-]; auto|intros [-> _]; reflexivity].
Qed.
Print Assumptions C70_fails_iff_partial.

(** Once such a package is installed, in whichever format, every file that belongs to it is at
    its place below the destination directory as it was produced.  Configuration files and
    empty directories: if nothing, or for the latter a directory, was there before. *)
Theorem C70_installed_partial sha1 install t pkgs listed j pkg fmt k h o i ask w w' f x :
  proper_dir install -> well_formed t -> all_explicit pkgs -> unambiguous install t pkgs ->
  (forall d, listed d ≡ₚ map_to_list d) -> build_package sha1 install t listed pkgs j pkg fmt = Ok k -> no_side_names t ->
  destination (o_dest o) -> install_package h o k i ask w = (w', Ok tt) -> belongs t pkgs j f -> lies_at t f x ->
  (listed_config k (short f) \/ x = Contents.NDir [] -> w_fs w !! located (o_dest o) (short f) = None \/
     (w_fs w !! located (o_dest o) (short f) = Some Fs.NDir /\ x = Contents.NDir [])) ->
  exists n, w_fs w' !! located (o_dest o) (short f) = Some n /\ becomes x n.
Proof. exact (fun Pd W X U L => built_installed sha1 install t pkgs Pd W X U listed L j pkg fmt k h o i ask w w' f x). Qed.
Print Assumptions C70_installed_partial.

(** ... and the installation verifies against the package file *)
Theorem C70_verifies_partial install t pkgs listed j pkg fmt k h o i ask w w' file s :
  proper_dir install -> well_formed t -> all_explicit pkgs -> unambiguous install t pkgs ->
  (forall d, listed d ≡ₚ map_to_list d) -> build_package (h_sha1 h) install t listed pkgs j pkg fmt = Ok k -> no_side_names t ->
  o_dest o = "/" -> install_package h o k i ask w = (w', Ok tt) ->
  py_endswith file ".pisi" = true -> h_open h file = Ok k -> check h s (w_fs w') file = Ok [].
Proof.
  intros Pd W X U L E NS D H. destruct (build_cases (h_sha1 h) install t pkgs Pd W X U listed L j pkg fmt) as [(_ & k' & E' & _ & _ & _ & _ & T & O)|[_ E']]; rewrite E in E'; [|discriminate E']. injection E' as <-.
  intros Hf Ho. exact (fresh_passes h o (or_introl D) k (O NS) i ask w w' file s D T Hf Ho H).
Qed.
Print Assumptions C70_verifies_partial.

(** Missing: an empty directory where a link was.  From a package of format 1.0 the link
    stays. *)
Definition store : Contents.node := Contents.NDir [("var", Contents.NDir [("cache", Contents.NDir [])])].
Definition store_paths : list (list pathinfo) := [[kind "data" "/var/cache"]].
Definition store_pkg (fmt : format) : pkgfile := mkPackfile (v_pkg "store" "1" "1" []) [mkFile "var/cache" "data" None None] [("var/cache", ADir)] fmt.
Definition linked : fs := {[ "/var" := Fs.NDir; "/var/cache" := Fs.NLink "/tmp"; "/tmp" := Fs.NDir ]}.
Lemma proper_here : proper_dir here.
Proof. split; [discriminate|]. intros [u H]. apply (f_equal str_rev) in H. rewrite PyFacts.str_rev_app_distr in H. discriminate H. Qed.
Lemma done_by {A} (m : M A) w a : (m w).2 = Ok a -> m w = ((m w).1, Ok a).
Proof. apply by_parts. Qed.
Theorem C70_directory_over_link_refuted : exists w w',
  proper_dir here /\ well_formed store /\ all_explicit store_paths /\ unambiguous here store store_paths /\ no_side_names store /\
  build_package id here store map_to_list store_paths 0 (v_pkg "store" "1" "1" []) Zip = Ok (store_pkg Zip) /\
  system (w_sys w) /\ FsSpec.tree (w_fs w) /\ install_package plain usual (store_pkg Zip) false false w = (w', Ok tt) /\
  belongs store store_paths 0 ["var"; "cache"] /\ lies_at store ["var"; "cache"] (Contents.NDir []) /\
  w_fs w' !! located "/" "var/cache" = Some (Fs.NLink "/tmp").
Proof.
  assert (X : all_explicit store_paths) by (apply paths_check_ok; vm_compute; reflexivity).
  assert (Lx : lies_at store ["var"; "cache"] (Contents.NDir [])) by (repeat (econstructor; [cbn; eauto|]); constructor).
  exists (start (with_repo [] []) linked), (install_package plain usual (store_pkg Zip) false false (start (with_repo [] []) linked)).1.
  split; [exact proper_here|]. split; [apply tree_check_ok; vm_compute; reflexivity|]. split; [exact X|]. split; [apply clear_check_ok; vm_compute; reflexivity|].
  split; [apply plain_check_ok; vm_compute; reflexivity|]. split; [vm_compute; reflexivity|]. split; [apply with_repo_system; intros d []|]. split; [apply FsChecks.tree_check_ok; vm_compute; reflexivity|].
  split; [apply done_by; vm_compute; reflexivity|]. split.
  { exists (Contents.NDir []), ["var"; "cache"]. split; [split; [exact Lx|now intros es [= <-]]|]. split; [apply (all_paths_iff _ X); vm_compute; tauto|]. split; [now exists []|].
    right. intros (j & q & p' & Nj & Nq & _). apply (all_paths_iff _ X) in Nq. vm_compute in Nq. destruct Nq as [[= <- <-]|[]]. now destruct Nj. }
  split; [exact Lx|]. vm_compute. reflexivity.
Qed.
Print Assumptions C70_directory_over_link_refuted.

(** A small source, its two packages, and an installation of the first in both formats *)
Definition x_pkg : package := v_pkg "x" "1" "1" [].
Definition from_tree (fmt : format) (i : nat) : res pkgfile := build_package (h_sha1 plain) here ContentsProps.tree map_to_list [runtime; devel] i x_pkg fmt.
Definition installed_from (fmt : format) : res fs :=
  k <- from_tree fmt 0 ;;
  match install_package plain usual k false false (start (with_repo [] []) {[ "/usr" := Fs.NDir; "/usr/lib" := Fs.NDir; "/usr/lib/libx.so" := Fs.NFile "mine" ]}) with
  | (w, Ok _) => Ok (w_fs w)
  | (_, Err e) => Err e
  end.
Example C70_nontrivial :
  proper_dir here /\ well_formed ContentsProps.tree /\ all_explicit [runtime; devel] /\ unambiguous here ContentsProps.tree [runtime; devel] /\ no_side_names ContentsProps.tree /\
  (exists k, from_tree Tar 0 = Ok k /\ k_data k ≡ₚ [("etc/x.conf", AFile "text"); ("usr/lib/libx.so", ALink "libx.so.1"); ("usr/lib/libx.so.1", AFile "code"); ("usr/share/doc/x/README", AFile "text")]) /\
  (exists k, from_tree Zip 1 = Ok k /\ k_data k ≡ₚ [("usr/lib/libx.a", AFile "text"); ("usr/include/x/x.h", AFile "text"); ("usr/include/old", ADir)]) /\
  (exists f, installed_from Tar = Ok f /\ installed_from Zip = Ok f /\ f !! "/usr/lib/libx.so" = Some (Fs.NLink "libx.so.1") /\ f !! "/usr/share/doc/x/README" = Some (Fs.NFile "text")).
Proof.
  split; [exact proper_here|]. split; [apply tree_check_ok; vm_compute; reflexivity|]. split; [apply paths_check_ok; vm_compute; reflexivity|].
  split; [apply clear_check_ok; vm_compute; reflexivity|]. split; [apply plain_check_ok; vm_compute; reflexivity|].
  assert (G : forall fmt i l, (match from_tree fmt i with Ok k => bool_decide (k_data k ≡ₚ l) | Err _ => false end) = true -> exists k, from_tree fmt i = Ok k /\ k_data k ≡ₚ l).
  { intros fmt i l H. destruct (from_tree fmt i) as [k|e]; [|discriminate H]. exists k. split; [reflexivity|]. now apply bool_decide_eq_true in H. }
  split; [apply G; vm_compute; reflexivity|]. split; [apply G; vm_compute; reflexivity|].
  assert (H : (match installed_from Tar, installed_from Zip with
    | Ok f, Ok g => bool_decide (f = g) && bool_decide (f !! "/usr/lib/libx.so" = Some (Fs.NLink "libx.so.1")) && bool_decide (f !! "/usr/share/doc/x/README" = Some (Fs.NFile "text"))
    | _, _ => false end) = true) by (vm_compute; reflexivity).
  destruct (installed_from Tar) as [f|]; [|discriminate H]. destruct (installed_from Zip) as [g|]; [|discriminate H]. exists f.
  apply andb_prop in H as [H H3]. apply andb_prop in H as [H1 H2]. apply bool_decide_eq_true in H1, H2, H3. subst g. auto.
Qed.

(** ** C71 *)
(** Installing a package with relative paths, whatever comes of it and wherever it is cut
    short: apart from the places of its files and configuration files, and for format 1.0 what
    is below one of its links, nothing in the file system differs but for new directories that
    lead to its files. *)
Theorem C71_nothing_else_partial h o k i ask w w' r : destination (o_dest o) -> relative_paths k -> install_package h o k i ask w = (w', r) ->
  forall f, f = w_fs w' \/ (exists s, crash_point w w' (s, f)) -> forall q,
  own_place (o_dest o) k q \/ (k_format k = Zip /\ below_a_link (o_dest o) k q) \/ f !! q = w_fs w !! q \/
  (w_fs w !! q = None /\ f !! q = Some Fs.NDir /\ on_the_way (o_dest o) k q).
Proof. exact (frame_everywhere h o k i ask w w' r). Qed.
Print Assumptions C71_nothing_else_partial.

(** For packages as they are built, if nothing of another kind is at their places, the format
    makes no difference: the outcome, the records, the file system and the states a crash may
    leave are the same. *)
Theorem C71_formats_alike_partial h o p files data i ask w : destination (o_dest o) -> in_order (mkPackfile p files data Tar) -> nothing_nested data ->
  nothing_in_the_way (o_dest o) data (w_fs w) ->
  install_package h o (mkPackfile p files data Zip) i ask w = install_package h o (mkPackfile p files data Tar) i ask w.
Proof. exact (fun D O F => install_alike h o D p files data O F i ask w). Qed.
Print Assumptions C71_formats_alike_partial.
Theorem C71_built_flat t pkgs i k : well_formed t -> holds_exactly t pkgs i k -> nothing_nested (k_data k).
Proof. exact (built_flat t pkgs i k). Qed.
Print Assumptions C71_built_flat.

(** Missing: a link where a directory is.  From a package of format 1.0 the directory is
    deleted with the user's files in it, and the same package in format 1.1 cannot be
    installed. *)
Definition moved (fmt : format) : pkgfile := mkPackfile (v_pkg "store" "2" "2" []) [mkFile "srv/data" "data" (Some "sha1:../var/data") None] [("srv/data", ALink "../var/data")] fmt.
Definition photos : fs := {[ "/srv" := Fs.NDir; "/srv/data" := Fs.NDir; "/srv/data/photo" := Fs.NFile "mine" ]}.
Theorem C71_link_over_directory_refuted : exists h o w w' w'', fair h /\ destination (o_dest o) /\ system (w_sys w) /\ FsSpec.tree (w_fs w) /\
  in_order (moved Zip) /\ nothing_nested (k_data (moved Zip)) /\ w_fs w !! "/srv/data/photo" = Some (Fs.NFile "mine") /\
  install_package h o (moved Zip) false false w = (w', Ok tt) /\ w_fs w' !! "/srv/data/photo" = None /\
  install_package h o (moved Tar) false false w = (w'', Err EOS) /\ w_fs w'' = w_fs w.
Proof.
  exists plain, usual, (start (with_repo [] []) photos), (install_package plain usual (moved Zip) false false (start (with_repo [] []) photos)).1, (install_package plain usual (moved Tar) false false (start (with_repo [] []) photos)).1.
  split; [apply host_fair|]. split; [now left|]. split; [apply with_repo_system; intros d []|]. split; [apply FsChecks.tree_check_ok; vm_compute; reflexivity|].
  split; [apply order_check_ok; vm_compute; reflexivity|]. split; [intros p e p' e' [[= <- <-]|[]] [[= <- <-]|[]]; apply above_irrefl|].
  split; [vm_compute; reflexivity|]. split; [apply done_by; vm_compute; reflexivity|]. split; [vm_compute; reflexivity|].
  assert (G : forall p : world * res unit, p.2 = Err EOS -> p = (p.1, Err EOS)) by (intros [w r] H; cbn in H; now subst).
  split; [apply G; vm_compute; reflexivity|vm_compute; reflexivity].
Qed.
Print Assumptions C71_link_over_directory_refuted.

Example C71_nontrivial : in_order daemon_2 /\ relative_paths daemon_2 /\ system daemon_1 /\
  (install_package plain usual daemon_2 false false (start daemon_1 tuned)).2 = Ok tt /\
  (let data := List.filter (fun pe => negb (String.eqb pe.1 "etc")) (daemon_data "default 2") in
   nothing_nested data /\ nothing_in_the_way "/" data tuned /\ in_order (mkPackfile (k_pkg daemon_2) (k_files daemon_2) data Tar)).
Proof.
  assert (O : in_order daemon_2) by (apply order_check_ok; vm_compute; reflexivity).
  split; [exact O|]. split; [split; [intros fi Hf; now apply O|intros p e Hp; destruct O as (_ & _ & _ & K & _); now apply (K p e)]|]. split; [apply daemon_system|].
  split; [vm_compute; reflexivity|]. cbv zeta. split; [|split].
  - intros p e p' e' H H' [r E]. repeat (destruct H as [[= <- <-]|H]; [repeat (destruct H' as [[= <- <-]|H']; [discriminate E|]); destruct H'|]). destruct H.
  - intros p e H. repeat (destruct H as [[= <- <-]|H]; [vm_compute; discriminate|]). destruct H.
  - apply order_check_ok. vm_compute. reflexivity.
Qed.
