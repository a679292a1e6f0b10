(** * C85: which files a build reports as abandoned *)
From Coq Require Import String Ascii List Bool Arith Lia.
From stdpp Require Import gmap strings.
From Verif Require Import Model.Py Model.Path Model.Contents Model.Abandoned Spec.PathSpec Spec.ContentsSpec Spec.AbandonedSpec.
From Verif Require Import Proof.ContentsFacts Proof.ContentsTop Proof.WildFacts Proof.AbandonedFacts.
Require Import Verif.Prop.ContentsProps.
Import ListNotations.
Open Scope string_scope.

(** The files reported are exactly those whose names do not begin with the text of anything
    that a listed path stands for *)
Theorem C85_report_partial install t pkgs : proper_dir install -> well_formed t -> is_directory t -> all_patterns pkgs ->
  forall m, In m (get_abandoned_files install t pkgs) <->
    exists f x, m = install ++ text f /\ lies_at t f x /\ is_file x /\ ~ exists q, collected t pkgs q /\ begins_like f q.
Proof. intros Pd W D X. exact (abandoned_iff install Pd t W D pkgs X). Qed.

(** No file that is reported is in any package *)
Theorem C85_sound install t pkgs : proper_dir install -> well_formed t -> is_directory t -> all_patterns pkgs ->
  forall sha1 f i d, List.Forall good_name f -> In (install ++ text f) (get_abandoned_files install t pkgs) ->
  gen_files_xml sha1 install t pkgs i = Ok d -> d !! short f = None.
Proof. intros Pd W D X sha1 f i d G H. exact (reported_in_none install Pd t W D pkgs X sha1 f i d H G). Qed.

(** With explicit paths, none found by accident in the name of a file it does not cover, none
    listed twice and none between two of another package, every file in no package is reported *)
Theorem C85_complete_partial install t pkgs : proper_dir install -> well_formed t -> is_directory t ->
  all_explicit pkgs -> unambiguous install t pkgs -> distinct_paths pkgs -> no_sandwich pkgs ->
  forall sha1 f x, lies_at t f x -> is_file x ->
  In (install ++ text f) (get_abandoned_files install t pkgs) <-> forall i d, gen_files_xml sha1 install t pkgs i = Ok d -> d !! short f = None.
Proof. intros Pd W D X U Dp Sw sha1 f x. exact (in_none_reported install Pd t W D pkgs X U sha1 f x Dp Sw). Qed.

Lemma here_proper : proper_dir here.
Proof. split; [discriminate|]. intros [u H]. apply (f_equal str_rev) in H. rewrite PyFacts.str_rev_app_distr in H. discriminate H. Qed.

Definition leftovers : node := NDir [
  ("usr", NDir [("lib", NDir [("libx.so", NLink "libx.so.1" (ToFile "code")); ("libx.so.1", NFile "code"); ("libx.a", file_)]); ("info", NDir [("dir", file_); ("x", NLink "../gone" Nowhere)])]);
  ("etc", NDir [("x.conf", file_)])].
Example C85_nontrivial : proper_dir here /\ well_formed leftovers /\ is_directory leftovers /\ all_explicit [runtime; devel] /\
  unambiguous here leftovers [runtime; devel] /\ distinct_paths [runtime; devel] /\ no_sandwich [runtime; devel] /\
  get_abandoned_files here leftovers [runtime; devel] = map (fun s => here ++ s) ["/usr/info/dir"; "/usr/info/x"].
Proof.
  assert (X : all_explicit [runtime; devel]) by (apply paths_check_ok; vm_compute; reflexivity).
  split; [exact here_proper|]. split; [apply tree_check_ok; vm_compute; reflexivity|]. split; [eexists; reflexivity|]. split; [exact X|]. split; [apply clear_check_ok; vm_compute; reflexivity|].
  split; [apply (distinct_check_ok _ X); vm_compute; reflexivity|]. split; [apply (sandwich_check_ok _ X); vm_compute; reflexivity|]. vm_compute. reflexivity.
Qed.

(** In no package, and not reported: a file whose name begins like that of another that is
    listed, an empty directory, a link to a directory *)
Theorem C85_unreported_refuted :
  let bin := NDir [("usr", NDir [("bin", NDir [("foo", file_); ("foobar", file_)]); ("tmp", NDir []); ("old", NLink "bin" ToDir)])] in
  let pkgs := [[kind "executable" "/usr/bin/foo"]] in
  well_formed bin /\ is_directory bin /\ all_explicit pkgs /\ distinct_paths pkgs /\ no_sandwich pkgs /\
  (forall f, In f [["usr"; "bin"; "foobar"]; ["usr"; "tmp"]; ["usr"; "old"]] ->
    (exists x, produced bin f x) /\ forall i d, gen_files_xml id here bin pkgs i = Ok d -> d !! short f = None) /\
  get_abandoned_files here bin pkgs = [].
Proof.
  cbv zeta. set (bin := NDir _). set (pkgs := [_]). assert (X : all_explicit pkgs) by (apply paths_check_ok; vm_compute; reflexivity).
  split; [apply tree_check_ok; vm_compute; reflexivity|]. split; [eexists; reflexivity|]. split; [exact X|].
  split; [apply (distinct_check_ok _ X); vm_compute; reflexivity|]. split; [apply (sandwich_check_ok _ X); vm_compute; reflexivity|]. split; [|vm_compute; reflexivity].
  assert (G : forall f x, lies_at bin f x -> (forall es, x = NDir es -> es = []) -> holders bin pkgs (short f) = [] ->
    (exists x, produced bin f x) /\ forall i d, gen_files_xml id here bin pkgs i = Ok d -> d !! short f = None).
  { intros f x L E H. split; [exists x; now split|]. intros i d Ed. destruct (d !! short f) as [v|] eqn:Ev; [|reflexivity].
    assert (I : In i (holders bin pkgs (short f))) by (apply holders_iff; exists d; split; [exact Ed|rewrite Ev; now eexists]). rewrite H in I. destruct I. }
  intros f [<-|[<-|[<-|[]]]].
  - apply (G _ file_); [repeat (econstructor; [cbn; auto 6|]); constructor|discriminate|vm_compute; reflexivity].
  - apply (G _ (NDir [])); [repeat (econstructor; [cbn; auto 6|]); constructor|intros es H; now injection H|vm_compute; reflexivity].
  - apply (G _ (NLink "bin" ToDir)); [repeat (econstructor; [cbn; auto 6|]); constructor|discriminate|vm_compute; reflexivity].
Qed.

Print Assumptions C85_report_partial.
Print Assumptions C85_sound.
Print Assumptions C85_complete_partial.
Print Assumptions C85_unreported_refuted.
