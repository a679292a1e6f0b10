(** * C63, C64: which files go into which package, and with which type *)
From Coq Require Import String Ascii List Bool Arith Lia.
From stdpp Require Import gmap strings.
From Verif Require Import Model.Py Model.Path Model.Contents Spec.PathSpec Spec.ContentsSpec Proof.ContentsFacts Proof.ContentsTop Proof.WildFacts.
Import ListNotations.
Open Scope string_scope.

(** ** C63 *)

(** Explicit paths, none found by accident in the name of a file it does not cover: listing the
    files succeeds, and the files are exactly those that belong *)
Theorem C63_contents_partial sha1 install t pkgs :
  proper_dir install -> well_formed t -> all_explicit pkgs -> unambiguous install t pkgs ->
  forall i, exists d, gen_files_xml sha1 install t pkgs i = Ok d /\
    forall key, is_Some (d !! key) <-> exists f, key = short f /\ belongs t pkgs i f.
Proof. exact (contents_exact sha1 install t pkgs). Qed.

(** ... if also no path is listed by two packages, no file is in two packages *)
Theorem C63_at_most_one_partial sha1 install t pkgs :
  proper_dir install -> well_formed t -> all_explicit pkgs -> unambiguous install t pkgs -> distinct_paths pkgs ->
  forall i j di dj key, gen_files_xml sha1 install t pkgs i = Ok di -> gen_files_xml sha1 install t pkgs j = Ok dj ->
  is_Some (di !! key) -> is_Some (dj !! key) -> i = j.
Proof.
  intros Pd W X U D i j di dj key Ei Ej Hi Hj.
  destruct (contents_exact sha1 install t pkgs Pd W X U i) as (d & E & C). rewrite Ei in E. injection E as <-. apply C in Hi as (f & -> & B).
  destruct (contents_exact sha1 install t pkgs Pd W X U j) as (d & E & C'). rewrite Ej in E. injection E as <-. apply C' in Hj as (g & Eg & B').
  apply short_inj in Eg; [|exact (belongs_good t pkgs W i f B)|exact (belongs_good t pkgs W j g B')]. subst g.
  exact (one_package t pkgs W i j f D B B').
Qed.

(** ... and if also no package lists a path between two paths of another, every file that a
    listed path covers is in exactly one package, the one that lists the nearest path *)
Theorem C63_exactly_one_partial sha1 install t pkgs :
  proper_dir install -> well_formed t -> all_explicit pkgs -> unambiguous install t pkgs ->
  distinct_paths pkgs -> no_sandwich pkgs ->
  forall f x i p, produced t f x -> names pkgs i p -> covers p f ->
  exists j q, nearest_of_all pkgs f q j /\
    forall k, (exists d, gen_files_xml sha1 install t pkgs k = Ok d /\ is_Some (d !! short f)) <-> k = j.
Proof. intros Pd W X U D S f x i p. exact (exactly_one sha1 install t pkgs Pd W X U f x i p D S). Qed.

(** The files of each package of a small source *)
Definition here : string := "/var/pisi/x-1-1/install".
Definition kind (s : string) (p : string) : pathinfo := mkPathinfo p (Some s) None.
Definition file_ : node := NFile "text".
Definition tree : node := NDir [
  ("usr", NDir [
    ("lib", NDir [("libx.so", NLink "libx.so.1" (ToFile "code")); ("libx.so.1", NFile "code"); ("libx.a", file_)]);
    ("include", NDir [("x", NDir [("x.h", file_)]); ("old", NDir [])]);
    ("share", NDir [("doc", NDir [("x", NDir [("README", file_)])])])]);
  ("etc", NDir [("x.conf", file_)])].
Definition runtime : list pathinfo := [kind "library" "/usr/lib"; kind "doc" "/usr/share/doc"; kind "config" "/etc"].
Definition devel : list pathinfo := [kind "header" "/usr/include"; kind "library" "/usr/lib/libx.a"; kind "data" "/usr/share"].

Example C63_nontrivial :
  proper_dir here /\ well_formed tree /\ all_explicit [runtime; devel] /\ unambiguous here tree [runtime; devel] /\
  distinct_paths [runtime; devel] /\ no_sandwich [runtime; devel] /\
  (exists d, gen_files_xml id here tree [runtime; devel] 0 = Ok d /\ map fst (map_to_list d) ≡ₚ
     ["usr/lib/libx.so"; "usr/lib/libx.so.1"; "usr/share/doc/x/README"; "etc/x.conf"]) /\
  (exists d, gen_files_xml id here tree [runtime; devel] 1 = Ok d /\ map fst (map_to_list d) ≡ₚ
     ["usr/lib/libx.a"; "usr/include/x/x.h"; "usr/include/old"]).
Proof.
  assert (X : all_explicit [runtime; devel]) by (apply paths_check_ok; vm_compute; reflexivity).
  split. { split; [discriminate|]. intros [u H]. apply (f_equal str_rev) in H. rewrite PyFacts.str_rev_app_distr in H. discriminate H. }
  split; [apply tree_check_ok; vm_compute; reflexivity|]. split; [exact X|]. split; [apply clear_check_ok; vm_compute; reflexivity|].
  split; [apply (distinct_check_ok _ X); vm_compute; reflexivity|]. split; [apply (sandwich_check_ok _ X); vm_compute; reflexivity|].
  assert (G : forall i l, (match gen_files_xml id here tree [runtime; devel] i with Ok d => bool_decide (map fst (map_to_list d) ≡ₚ l) | Err _ => false end) = true ->
    exists d, gen_files_xml id here tree [runtime; devel] i = Ok d /\ map fst (map_to_list d) ≡ₚ l).
  { intros i l H. destruct (gen_files_xml id here tree [runtime; devel] i) as [d|e]; [|discriminate H]. exists d. split; [reflexivity|]. now apply bool_decide_eq_true in H. }
  split; apply G; vm_compute; reflexivity.
Qed.

(** Paths with stars and question marks, of any number of packages, and also ambiguous ones:
    the files are exactly those that lie at or below something a listed path stands for, apart
    from those whose name begins like the text of a path of another package that is at or below
    one of this package - unless a listed path stands for the file itself.  Missing: brackets. *)
Theorem C63_wild_cards_partial sha1 install t pkgs i :
  proper_dir install -> well_formed t -> all_patterns pkgs ->
  exists d, gen_files_xml sha1 install t pkgs i = Ok d /\
    forall key, is_Some (d !! key) <-> exists f, key = short f /\ belongs_wild t pkgs i f.
Proof. exact (fun Pd W X => wild_exact sha1 install t Pd W pkgs X i). Qed.

(** A package alone gets everything below what its paths stand for *)
Theorem C63_alone_partial sha1 install t pinfos :
  proper_dir install -> well_formed t -> all_patterns [pinfos] ->
  exists d, gen_files_xml sha1 install t [pinfos] 0 = Ok d /\
    forall key, is_Some (d !! key) <-> exists f x pi p q, key = short f /\ produced t f x /\ In pi pinfos /\ pattern pi p /\ matches_path p q /\ covers q f.
Proof. exact (fun Pd W X => wild_alone sha1 install t Pd W pinfos X). Qed.

Definition stars : list pathinfo := [kind "library" "/usr/lib/lib?.so*"; kind "config" "/*/.x?"; kind "doc" "/usr/*/doc"].
Definition starry : node := NDir [
  ("usr", NDir [
    ("lib", NDir [("libx.so", NLink "libx.so.1" (ToFile "code")); ("libx.so.1", NFile "code"); ("libx.a", file_); ("libxy.so", file_)]);
    ("share", NDir [("doc", NDir [("x", NDir [("README", file_)])]); ("man", file_)]);
    (".hidden", NDir [("doc", file_)])]);
  ("etc", NDir [(".xz", file_); ("xz", file_)])].
Example C63_wild_nontrivial : proper_dir here /\ well_formed starry /\ all_patterns [stars] /\
  (exists d, gen_files_xml id here starry [stars] 0 = Ok d /\ map fst (map_to_list d) ≡ₚ
     ["usr/lib/libx.so"; "usr/lib/libx.so.1"; "usr/share/doc/x/README"; "etc/.xz"]).
Proof.
  split. { split; [discriminate|]. intros [u H]. apply (f_equal str_rev) in H. rewrite PyFacts.str_rev_app_distr in H. discriminate H. }
  split; [apply tree_check_ok; vm_compute; reflexivity|]. split; [apply patterns_check_ok; vm_compute; reflexivity|].
  assert (G : forall l, (match gen_files_xml id here starry [stars] 0 with Ok d => bool_decide (map fst (map_to_list d) ≡ₚ l) | Err _ => false end) = true ->
    exists d, gen_files_xml id here starry [stars] 0 = Ok d /\ map fst (map_to_list d) ≡ₚ l).
  { intros l H. destruct (gen_files_xml id here starry [stars] 0) as [d|e]; [|discriminate H]. exists d. split; [reflexivity|]. now apply bool_decide_eq_true in H. }
  apply G; vm_compute; reflexivity.
Qed.

(** The packages a file goes into, by their places *)
Definition holders (t : node) (pkgs : list (list pathinfo)) (key : string) : list nat :=
  List.filter (fun i => match gen_files_xml id here t pkgs i with Ok d => bool_decide (is_Some (d !! key)) | Err _ => false end) (seq 0 (length pkgs)).
Lemma holders_iff t pkgs key i : In i (holders t pkgs key) <-> exists d, gen_files_xml id here t pkgs i = Ok d /\ is_Some (d !! key).
Proof.
  unfold holders. rewrite filter_In, in_seq. split.
  - intros [_ H]. destruct (gen_files_xml id here t pkgs i) as [d|e]; [|discriminate H]. exists d. split; [reflexivity|]. now apply bool_decide_eq_true in H.
  - intros (d & E & H). split.
    + split; [lia|]. destruct (le_lt_dec (length pkgs) i) as [L|L]; [|exact L]. rewrite no_such_package in E by exact L. injection E as <-.
      destruct H as [v H]. rewrite lookup_empty in H. discriminate H.
    + rewrite E. now apply bool_decide_eq_true.
Qed.

(** Two packages that list the same file both get it; the same directory, neither *)
Theorem C63_same_path_refuted :
  let bin := NDir [("usr", NDir [("bin", NDir [("x", file_)])])] in
  (let pkgs := [[kind "executable" "/usr/bin/x"]; [kind "executable" "/usr/bin/x"]] in
   well_formed bin /\ all_explicit pkgs /\ unambiguous here bin pkgs /\
   forall i, (exists d, gen_files_xml id here bin pkgs i = Ok d /\ is_Some (d !! "usr/bin/x")) <-> i = 0 \/ i = 1) /\
  (let pkgs := [[kind "executable" "/usr/bin"]; [kind "executable" "/usr/bin"]] in
   well_formed bin /\ all_explicit pkgs /\ unambiguous here bin pkgs /\
   ~ exists i d, gen_files_xml id here bin pkgs i = Ok d /\ is_Some (d !! "usr/bin/x")).
Proof.
  cbv zeta. split; (split; [apply tree_check_ok; vm_compute; reflexivity|]; split; [apply paths_check_ok; vm_compute; reflexivity|]; split; [apply clear_check_ok; vm_compute; reflexivity|]).
  - intros i. rewrite <- holders_iff. replace (holders _ _ _) with [0; 1]; [cbn; intuition congruence|]. symmetry. vm_compute. reflexivity.
  - intros (i & H). apply holders_iff in H. revert H. replace (holders _ _ _) with (@nil nat); [tauto|]. symmetry. vm_compute. reflexivity.
Qed.

(** A path of one package is the beginning of the name of a file of another: the file is lost *)
Theorem C63_textual_prefix_refuted :
  let lib := NDir [("usr", NDir [("lib", NDir [("libx", file_); ("libxml", file_)])])] in
  let pkgs := [[kind "library" "/usr/lib"]; [kind "library" "/usr/lib/libx"]] in
  well_formed lib /\ all_explicit pkgs /\ distinct_paths pkgs /\ no_sandwich pkgs /\
  produced lib ["usr"; "lib"; "libxml"] file_ /\ nearest_of_all pkgs ["usr"; "lib"; "libxml"] ["usr"; "lib"] 0 /\
  ~ exists i d, gen_files_xml id here lib pkgs i = Ok d /\ is_Some (d !! "usr/lib/libxml").
Proof.
  cbv zeta. assert (X : all_explicit [[kind "library" "/usr/lib"]; [kind "library" "/usr/lib/libx"]]) by (apply paths_check_ok; vm_compute; reflexivity).
  split; [apply tree_check_ok; vm_compute; reflexivity|]. split; [exact X|]. split; [apply (distinct_check_ok _ X); vm_compute; reflexivity|].
  split; [apply (sandwich_check_ok _ X); vm_compute; reflexivity|]. split.
  { split; [|intros ? K; discriminate K]. repeat (econstructor; [cbn; eauto|]). constructor. }
  split.
  { split; [apply (all_paths_iff _ X); vm_compute; tauto|]. split; [now exists ["libxml"]|]. intros j q Nq [r E]. apply (all_paths_iff _ X) in Nq.
    vm_compute in Nq. destruct Nq as [K|[K|[]]]; injection K as <- <-; [apply covers_refl|]. discriminate E. }
  intros (i & H). apply holders_iff in H. revert H. replace (holders _ _ _) with (@nil nat); [tauto|]. symmetry. vm_compute. reflexivity.
Qed.

(** A package lists a path between two paths of another: the files below the inner one are lost *)
Theorem C63_sandwich_refuted :
  let lib := NDir [("usr", NDir [("lib", NDir [("x", NDir [("plugins", NDir [("p", file_)])])])])] in
  let pkgs := [[kind "data" "/usr"; kind "library" "/usr/lib/x/plugins"]; [kind "library" "/usr/lib"]] in
  well_formed lib /\ all_explicit pkgs /\ unambiguous here lib pkgs /\ distinct_paths pkgs /\
  produced lib ["usr"; "lib"; "x"; "plugins"; "p"] file_ /\
  ~ exists i d, gen_files_xml id here lib pkgs i = Ok d /\ is_Some (d !! "usr/lib/x/plugins/p").
Proof.
  cbv zeta. assert (X : all_explicit [[kind "data" "/usr"; kind "library" "/usr/lib/x/plugins"]; [kind "library" "/usr/lib"]]) by (apply paths_check_ok; vm_compute; reflexivity).
  split; [apply tree_check_ok; vm_compute; reflexivity|]. split; [exact X|]. split; [apply clear_check_ok; vm_compute; reflexivity|]. split; [apply (distinct_check_ok _ X); vm_compute; reflexivity|]. split.
  { split; [|intros ? K; discriminate K]. repeat (econstructor; [cbn; eauto|]). constructor. }
  intros (i & H). apply holders_iff in H. revert H. replace (holders _ _ _) with (@nil nat); [tauto|]. symmetry. vm_compute. reflexivity.
Qed.

(** With a wild card the file goes into both packages *)
Theorem C63_wild_card_refuted :
  let lib := NDir [("usr", NDir [("lib", NDir [("libx.so", file_); ("libx.a", file_)])])] in
  let pkgs := [[kind "library" "/usr/lib"]; [kind "library" "/usr/lib/*.a"]] in
  well_formed lib /\
  forall i, (exists d, gen_files_xml id here lib pkgs i = Ok d /\ is_Some (d !! "usr/lib/libx.a")) <-> i = 0 \/ i = 1.
Proof.
  cbv zeta. split; [apply tree_check_ok; vm_compute; reflexivity|]. intros i. rewrite <- holders_iff.
  replace (holders _ _ _) with [0; 1]; [cbn; intuition congruence|]. symmetry. vm_compute. reflexivity.
Qed.

(** ** C64 *)

(** Under the same conditions every listed file has the type and the permanence of the nearest
    path of its package, and the checksum of what it is *)
Theorem C64_types_partial sha1 install t pkgs :
  proper_dir install -> well_formed t -> all_explicit pkgs -> unambiguous install t pkgs ->
  forall i d key info, gen_files_xml sha1 install t pkgs i = Ok d -> d !! key = Some info ->
  exists f x p pi, key = short f /\ produced t f x /\ nearest pkgs i f p /\ first_entry pkgs i p pi /\
    gi_type info = pi_type pi /\ gi_permanent info = pi_permanent pi /\ fingerprint sha1 x (gi_hash info).
Proof. intros Pd W X U i d key info. exact (types_exact sha1 install t pkgs Pd W X U i d key info). Qed.

Definition type_in (t : node) (pkgs : list (list pathinfo)) (i : nat) (key : string) : option (option string) :=
  match gen_files_xml id here t pkgs i with Ok d => gi_type <$> d !! key | Err _ => None end.

(** Its hypotheses are those of C63, met by the same case; the types there *)
Example C64_nontrivial :
  let pkgs := [[kind "data" "/usr"; kind "doc" "/usr/share/doc"; kind "library" "/usr/lib"; kind "config" "/etc"]] in
  all_explicit pkgs /\ unambiguous here tree pkgs /\
  type_in tree pkgs 0 "usr/share/doc/x/README" = Some (Some "doc") /\ type_in tree pkgs 0 "usr/lib/libx.a" = Some (Some "library") /\
  type_in tree pkgs 0 "usr/include/x/x.h" = Some (Some "data") /\ type_in tree pkgs 0 "etc/x.conf" = Some (Some "config").
Proof.
  cbv zeta. split; [apply paths_check_ok; vm_compute; reflexivity|]. split; [apply clear_check_ok; vm_compute; reflexivity|].
  repeat split; vm_compute; reflexivity.
Qed.

(** A configuration file whose name goes on after that of a listed data file is taken for data:
    it is not kept when the package is upgraded *)
Theorem C64_textual_prefix_refuted :
  let etc := NDir [("etc", NDir [("x", file_); ("x.conf", file_)])] in
  let pkgs := [[kind "config" "/etc"; kind "data" "/etc/x"]] in
  well_formed etc /\ all_explicit pkgs /\ nearest pkgs 0 ["etc"; "x.conf"] ["etc"] /\
  type_in etc pkgs 0 "etc/x.conf" = Some (Some "data").
Proof.
  cbv zeta. assert (X : all_explicit [[kind "config" "/etc"; kind "data" "/etc/x"]]) by (apply paths_check_ok; vm_compute; reflexivity).
  split; [apply tree_check_ok; vm_compute; reflexivity|]. split; [exact X|]. split; [|vm_compute; reflexivity].
  split; [apply (all_paths_iff _ X); vm_compute; tauto|]. split; [now exists ["x.conf"]|]. intros q Nq [r E]. apply (all_paths_iff _ X) in Nq.
  vm_compute in Nq. destruct Nq as [K|[K|[]]]; injection K as <-; [apply covers_refl|]. discriminate E.
Qed.

(** A path without its leading slash is expanded, but no type is found for its files *)
Theorem C64_leading_slash_refuted :
  let etc := NDir [("etc", NDir [("x.conf", file_)])] in
  gen_files_xml id here etc [[kind "config" "etc"]] 0 = Err EError /\
  exists d, gen_files_xml id here etc [[kind "config" "/etc"]] 0 = Ok d /\ is_Some (d !! "etc/x.conf").
Proof. cbv zeta. split; [vm_compute; reflexivity|]. apply holders_iff. vm_compute. now left. Qed.

Print Assumptions C63_contents_partial.
Print Assumptions C63_at_most_one_partial.
Print Assumptions C63_exactly_one_partial.
Print Assumptions C63_wild_cards_partial.
Print Assumptions C63_alone_partial.
Print Assumptions C63_same_path_refuted.
Print Assumptions C63_textual_prefix_refuted.
Print Assumptions C63_sandwich_refuted.
Print Assumptions C63_wild_card_refuted.
Print Assumptions C64_types_partial.
Print Assumptions C64_textual_prefix_refuted.
Print Assumptions C64_leading_slash_refuted.
