(** * The size of a package: C73 *)
From Coq Require Import String Ascii List Bool Arith.
From stdpp Require Import gmap strings.
From Verif Require Import Model.Py Model.Path Model.Contents Model.Size Spec.PathSpec Spec.ContentsSpec Spec.SizeSpec
  Proof.ContentsTop Proof.WildFacts Proof.SizeFacts.
Require Import Verif.Prop.ContentsProps.
Import ListNotations.
Open Scope string_scope.

(** C73: the installed size of a package is the sum of the sizes in its list of files, and each of
    these is the size of that file.  Proved if no file is found by two entries of the package,
    nothing that the entries find is left to another package, no links to directories lie below
    what the entries stand for, and there are no brackets in wild cards. *)
Theorem C73_installed_size_partial sha1 install t pkgs i d : proper_dir install -> well_formed t -> all_patterns pkgs ->
  once t (nth i pkgs []) -> undivided t pkgs i -> no_links_below t pkgs i -> gen_files_xml sha1 install t pkgs i = Ok d ->
  installed_size install t (nth i pkgs []) = total (fun e => recorded_size install t (fst e)) (map_to_list d).
Proof. exact (fun Pd W X => size_recorded install t Pd W sha1 pkgs X i d). Qed.
Print Assumptions C73_installed_size_partial.

Theorem C73_recorded_sizes install t sha1 pkgs i d key info : proper_dir install -> well_formed t -> all_patterns pkgs ->
  gen_files_xml sha1 install t pkgs i = Ok d -> d !! key = Some info ->
  exists f x, key = short f /\ produced t f x /\ recorded_size install t key = weight x.
Proof. exact (recorded_weight install t sha1 pkgs i d key info). Qed.
Print Assumptions C73_recorded_sizes.

(** In general: the size of each file produced times the number of entries that find it. *)
Theorem C73_installed_size_exactly install t pinfos l hit : proper_dir install -> well_formed t -> (forall pi, In pi pinfos -> exists p, pattern pi p) ->
  enumerates t l -> (forall pi f x, In pi pinfos -> hit pi f x = true <-> counts pi f x) ->
  installed_size install t pinfos = total (fun e => weight (snd e) * length (List.filter (fun pi => hit pi (fst e) (snd e)) pinfos)) l.
Proof. exact (fun Pd W => size_exact install t Pd W pinfos l hit). Qed.
Print Assumptions C73_installed_size_exactly.

Definition libraries : list pathinfo := [kind "library" "/usr/lib/libx.so*"; kind "doc" "/usr/share/doc"; kind "config" "/etc"].
Definition headers : list pathinfo := [kind "header" "/usr/include"; kind "library" "/usr/lib/libx.a"].
Definition sizes (t : node) (pkgs : list (list pathinfo)) (i : nat) : option (nat * nat) :=
  match gen_files_xml id here t pkgs i with
  | Ok d => Some (installed_size here t (nth i pkgs []), total (fun e => recorded_size here t (fst e)) (map_to_list d))
  | Err _ => None
  end.
Lemma here_proper : proper_dir here.
Proof. split; [discriminate|]. intros [u H]. apply (f_equal str_rev) in H. rewrite PyFacts.str_rev_app_distr in H. discriminate H. Qed.
Example C73_nontrivial :
  proper_dir here /\ well_formed tree /\ all_patterns [libraries; headers] /\ once tree libraries /\ undivided tree [libraries; headers] 0 /\ no_links_below tree [libraries; headers] 0 /\
  sizes tree [libraries; headers] 0 = Some (21, 21) /\ sizes tree [libraries; headers] 1 = Some (8, 8) /\
  enumerates tree (enum tree) /\ (forall pi f x, In pi libraries -> counts_b pi f x = true <-> counts pi f x).
Proof.
  assert (X : all_patterns [libraries; headers]) by (apply patterns_check_ok; vm_compute; reflexivity).
  assert (X0 : forall pi, In pi libraries -> exists p, pattern pi p) by (intros pi I; apply (X 0 pi); exists libraries; now split).
  assert (Wf : well_formed tree) by (apply tree_check_ok; vm_compute; reflexivity).
  split; [exact here_proper|]. split; [exact Wf|]. split; [exact X|]. split; [apply (once_check_ok _ _ X0); vm_compute; reflexivity|].
  split; [apply (undivided_check_ok _ _ _ X); vm_compute; reflexivity|]. split; [apply links_check_ok; vm_compute; reflexivity|].
  split; [vm_compute; reflexivity|]. split; [vm_compute; reflexivity|]. split; [exact (enum_enumerates tree Wf)|].
  intros pi f x I. destruct (X0 pi I) as [p Ep]. exact (counts_b_iff pi p f x Ep).
Qed.

(** A directory and a file in it: the file is counted twice. *)
Theorem C73_overlap_refuted :
  let lib := NDir [("usr", NDir [("lib", NDir [("x", NFile "0123456789")])])] in
  let pkgs := [[kind "library" "/usr/lib"; kind "data" "/usr/lib/x"]] in
  well_formed lib /\ all_explicit pkgs /\ sizes lib pkgs 0 = Some (20, 10).
Proof. cbv zeta. split; [apply tree_check_ok; vm_compute; reflexivity|]. split; [apply paths_check_ok; vm_compute; reflexivity|vm_compute; reflexivity]. Qed.
Print Assumptions C73_overlap_refuted.

(** The files of another package are counted as well. *)
Theorem C73_other_package_refuted :
  let lib := NDir [("usr", NDir [("lib", NDir [("x", NFile "0123"); ("big", NFile "0123456789")])])] in
  let pkgs := [[kind "library" "/usr/lib"]; [kind "data" "/usr/lib/big"]] in
  well_formed lib /\ all_explicit pkgs /\ distinct_paths pkgs /\ sizes lib pkgs 0 = Some (14, 4) /\ sizes lib pkgs 1 = Some (10, 10).
Proof.
  cbv zeta. assert (X : all_explicit [[kind "library" "/usr/lib"]; [kind "data" "/usr/lib/big"]]) by (apply paths_check_ok; vm_compute; reflexivity).
  split; [apply tree_check_ok; vm_compute; reflexivity|]. split; [exact X|]. split; [apply (distinct_check_ok _ X); vm_compute; reflexivity|]. split; vm_compute; reflexivity.
Qed.
Print Assumptions C73_other_package_refuted.

(** Links to directories are in the list of files, but not in the size - unless listed themselves. *)
Theorem C73_link_refuted :
  let lib := NDir [("usr", NDir [("lib", NDir [("x", NFile "0123")]); ("lib64", NLink "lib" ToDir)])] in
  well_formed lib /\ sizes lib [[kind "library" "/usr"]] 0 = Some (4, 7) /\ sizes lib [[kind "library" "/usr/*"]] 0 = Some (7, 7).
Proof. cbv zeta. split; [apply tree_check_ok; vm_compute; reflexivity|]. split; vm_compute; reflexivity. Qed.
Print Assumptions C73_link_refuted.
