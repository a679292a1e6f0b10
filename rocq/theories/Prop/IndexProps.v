(** * C68, C69: making an index, and what the repository then offers *)
From Coq Require Import String Ascii List ZArith.
From stdpp Require Import gmap strings.
From Verif Require Import Model.Py Model.Path Model.ItemByRepo Model.Dependency Model.Package Model.ComponentDB Model.Databases Model.Index
  Spec.PathSpec Spec.ItemByRepoSpec Spec.DatabaseSpec Spec.PlanSpec Spec.IndexSpec Proof.DatabaseFacts Proof.RevDepFacts Proof.IndexFacts Proof.IndexTop.
Open Scope string_scope.
Open Scope list_scope.

(** A directory with two builds of one package and, below it, a component and another package *)
Definition numbered (name : string) (build : Z) : package :=
  mkPackage name "1.0" "1" (Some build) [] [] [] (Some "misc") [] [] [] false "".
Definition nothing_in : content := mkContent (Err EError) (Err EError) (Err EError) (Err EError).
Definition holding (p : package) : content := mkContent (Ok (p, true)) (Err EError) (Err EError) (Err EError).
Definition shop : tree :=
  Dir [("nano-1.0-1-2.pisi", holding (numbered "nano" 2)); ("README", nothing_in); ("nano-1.0-1-1.pisi", holding (numbered "nano" 1))]
      [("base", Dir [("bash-1.0-1-1.pisi", holding (numbered "bash" 1))] [])].
Definition found_in (r : res made) : list (string * option Z * string) :=
  match r with Ok ix => map (fun pu => (p_name pu.1, p_build pu.1, pu.2)) (m_packages ix) | Err _ => [] end.
Lemma shop_fine : well_named shop /\ told_apart shop.
Proof.
  split.
  - assert (F : forall n : string, forallb (fun a => negb (Ascii.eqb a "/")) (list_ascii_of_string n) = true -> n <> "" -> n <> "" /\ free_of "/" n).
    { intros n K N. split; [exact N|]. intros I. rewrite forallb_forall in K. specialize (K _ I). discriminate K. }
    constructor.
    + intros f c K. apply F; (repeat destruct K as [[= <- _]|K]; [reflexivity|reflexivity|reflexivity|destruct K] || (repeat destruct K as [[= <- _]|K]; [discriminate|discriminate|discriminate|destruct K])).
    + intros d t [[= <- <-]|[]]. split; [discriminate|]. split; [apply (F "base"); [reflexivity|discriminate]|]. constructor; [|intros ? ? []]. intros f c [[= <- _]|[]]. apply F; [reflexivity|discriminate].
  - constructor; [| |intros d t [[= <- <-]|[]]; constructor; [| |intros ? ? []]]; cbn [map fst]; repeat (apply NoDup_cons_iff; split; [cbn [In]; intuition discriminate|]); constructor.
Qed.

(** ** C68: an index lists exactly what is there *)
Theorem C68_packages : forall absolute skip nr at_ dirs ix p uri, (forall d, gone_through dirs d -> d <> "" /\ well_named (at_ d)) ->
  make_index absolute skip nr at_ dirs = Ok ix ->
  (In (p, uri) (m_packages ix) <-> package_found absolute nr at_ dirs p uri).
Proof. intros. now apply (made_packages absolute skip nr at_ dirs). Qed.
Print Assumptions C68_packages.
Theorem C68_components : forall absolute skip nr at_ dirs ix x, (forall d, gone_through dirs d -> d <> "" /\ well_named (at_ d)) ->
  make_index absolute skip nr at_ dirs = Ok ix ->
  (In x (m_components ix) <-> component_found nr at_ dirs x).
Proof. intros. now apply (made_components absolute skip nr at_ dirs). Qed.
Print Assumptions C68_components.
Theorem C68_sources : forall absolute skip nr at_ dirs ix x uri, (forall d, gone_through dirs d -> d <> "" /\ well_named (at_ d)) ->
  make_index absolute skip nr at_ dirs = Ok ix ->
  (In (x, uri) (m_specs ix) <-> skip = false /\ source_found absolute nr at_ dirs x uri).
Proof. intros. now apply (made_specs absolute skip nr at_ dirs). Qed.
Print Assumptions C68_sources.
Theorem C68_succeeds : forall absolute skip nr at_ dirs, (forall d, gone_through dirs d -> d <> "" /\ well_named (at_ d)) ->
  ((exists ix, make_index absolute skip nr at_ dirs = Ok ix) <->
   forall d path c, gone_through dirs d -> looked_at nr (at_ d) path c -> readable_file skip path c).
Proof. exact made_succeeds. Qed.
Print Assumptions C68_succeeds.
Theorem C68_once : forall skip nr at_ d ix, d <> "" -> well_named (at_ d) -> told_apart (at_ d) ->
  make_index None skip nr at_ [d] = Ok ix -> List.NoDup (map snd (m_packages ix)) /\ List.NoDup (map snd (m_specs ix)).
Proof. exact made_once. Qed.
Print Assumptions C68_once.
(** With the index in the directory it describes, the address of a package leads back to its
    file, if the name has no '#' and no '?' in it. *)
Theorem C68_address_partial : forall skip nr at_ d ix idx at_idx p uri, (d = "/" \/ d <> "" /\ ~ ends_in_slash d) -> well_named (at_ d) ->
  make_index None skip nr at_ [d] = Ok ix -> In (p, uri) (m_packages ix) ->
  free_of "/" idx -> stands_at d [idx] at_idx -> free_of "#" uri -> free_of "?" uri ->
  exists path c full, looked_at nr (at_ d) path c /\ f_package c = Ok (p, true) /\ stands_at d path full /\ download_from at_idx uri = Ok full.
Proof. exact address_back. Qed.
Print Assumptions C68_address_partial.
(** ... but not if it has, *)
Theorem C68_address_refuted : exists at_ ix p uri, well_named (at_ "/srv") /\ make_index None false false at_ ["/srv"] = Ok ix /\
  In (p, uri) (m_packages ix) /\ stands_at "/srv" ["pisi-index.xml"] "/srv/pisi-index.xml" /\
  forall path c full, looked_at false (at_ "/srv") path c -> stands_at "/srv" path full -> download_from "/srv/pisi-index.xml" uri <> Ok full.
Proof.
  exists (fun _ => Dir [("c#-1.0-1-1.pisi", holding (numbered "c#" 1))] []), (mkMade [(numbered "c#" 1, "c#-1.0-1-1.pisi")] [] [] None), (numbered "c#" 1), "c#-1.0-1-1.pisi".
  split; [|split; [reflexivity|split; [now left|split]]].
  - constructor; [|intros ? ? []]. intros f c [[= <- _]|[]]. split; [discriminate|]. intros K. cbn in K. intuition discriminate.
  - split; [|reflexivity]. intros [t K]. assert (E : Py.py_endswith "/srv" "/" = true) by (apply PyFacts.endswith_iff; now exists t). discriminate E.
  - intros path c full [K _] S. inversion K as [? ? f c' I|? ? ? ? ? ? I]; subst; [|destruct I]. destruct I as [[= <- <-]|[]]. destruct S as [_ S]. rewrite S; [vm_compute; discriminate|].
    intros [t E]. assert (X : Py.py_endswith "/srv" "/" = true) by (apply PyFacts.endswith_iff; now exists t). discriminate X.
Qed.
Print Assumptions C68_address_refuted.
(** ... nor with two directories: one address may then stand for two packages. *)
Theorem C68_two_directories_refuted : exists at_ ix p q uri, (forall d, d = "/a" \/ d = "/b" -> well_named (at_ d) /\ told_apart (at_ d)) /\
  make_index None false false at_ ["/a"; "/b"] = Ok ix /\ p <> q /\ In (p, uri) (m_packages ix) /\ In (q, uri) (m_packages ix).
Proof.
  exists (fun d => Dir [("nano.pisi", holding (numbered "nano" (if String.eqb d "/a" then 1 else 2)))] []),
    (mkMade [(numbered "nano" 1, "nano.pisi"); (numbered "nano" 2, "nano.pisi")] [] [] None), (numbered "nano" 1), (numbered "nano" 2), "nano.pisi".
  split; [|split; [reflexivity|split; [discriminate|split; [now left|right; now left]]]].
  intros d _. split; [constructor; [|intros ? ? []]|constructor; [|constructor|intros ? ? []]].
  - intros f c [[= <- _]|[]]. split; [discriminate|]. intros K. cbn in K. intuition discriminate.
  - apply NoDup_cons_iff. split; [intros []|constructor].
Qed.
Print Assumptions C68_two_directories_refuted.
Example C68_nontrivial : well_named shop /\ told_apart shop /\
  found_in (make_index None false false (fun _ => shop) ["/srv"]) =
    [("nano", Some 2%Z, "nano-1.0-1-2.pisi"); ("nano", Some 1%Z, "nano-1.0-1-1.pisi"); ("bash", Some 1%Z, "base/bash-1.0-1-1.pisi")] /\
  found_in (make_index None false true (fun _ => shop) ["/srv"]) = [("nano", Some 2%Z, "nano-1.0-1-2.pisi"); ("nano", Some 1%Z, "nano-1.0-1-1.pisi")] /\
  found_in (make_index (Some (fun p => p)) false false (fun _ => shop) []) =
    [("nano", Some 2%Z, "./nano-1.0-1-2.pisi"); ("nano", Some 1%Z, "./nano-1.0-1-1.pisi"); ("bash", Some 1%Z, "./base/bash-1.0-1-1.pisi")] /\
  download_from "/srv/pisi-index.xml" "base/bash-1.0-1-1.pisi" = Ok "/srv/base/bash-1.0-1-1.pisi".
Proof. destruct shop_fine as [A B]. split; [exact A|]. split; [exact B|]. vm_compute. auto. Qed.

(** ** C69: the repository offers what was indexed *)
Theorem C69_last_listed : forall s r ix s' n p, reachable s -> op_update_repo s r (published ix) = Ok s' ->
  (get_package s' n (RName r) = Ok p <-> listed_last n p (map fst (m_packages ix))).
Proof. exact offers_last. Qed.
Print Assumptions C69_last_listed.
Theorem C69_offered_partial : forall absolute skip nr at_ dirs ix s r s', (forall d, gone_through dirs d -> d <> "" /\ well_named (at_ d)) ->
  make_index absolute skip nr at_ dirs = Ok ix -> reachable s -> op_update_repo s r (published ix) = Ok s' ->
  (forall p q u v, package_found absolute nr at_ dirs p u -> package_found absolute nr at_ dirs q v -> p_name p = p_name q -> p = q) ->
  forall n p, get_package s' n (RName r) = Ok p <-> p_name p = n /\ exists uri, package_found absolute nr at_ dirs p uri.
Proof. exact offers_found. Qed.
Print Assumptions C69_offered_partial.
(** With several builds of one package in the directory, it need not be the newest. *)
Theorem C69_newest_refuted : exists at_ ix s s' p q uri, well_named (at_ "/srv") /\ told_apart (at_ "/srv") /\ make_index None false false at_ ["/srv"] = Ok ix /\ reachable s /\
  op_update_repo s "main" (published ix) = Ok s' /\ get_package s' "nano" (RName "main") = Ok p /\
  package_found None false at_ ["/srv"] q uri /\ p_name q = p_name p /\ newer false (p_release p) (p_build p) q.
Proof.
  set (s := run_ops [OAddRepo "main" "/srv/pisi-index.xml" None]).
  set (o := OUpdateRepo "main" (mkIndex [] [numbered "nano" 2; numbered "nano" 1; numbered "bash" 1] [])).
  exists (fun _ => shop), (mkMade [(numbered "nano" 2, "nano-1.0-1-2.pisi"); (numbered "nano" 1, "nano-1.0-1-1.pisi"); (numbered "bash" 1, "base/bash-1.0-1-1.pisi")] [] [] None), s,
    (match apply_op s o with Ok s' => s' | Err _ => s end), (numbered "nano" 1), (numbered "nano" 2), "nano-1.0-1-2.pisi".
  destruct shop_fine as [A B]. split; [exact A|]. split; [exact B|]. split; [reflexivity|]. split; [apply run_ops_reachable|].
  assert (G : match apply_op s o with Ok _ => true | Err _ => false end = true) by (vm_compute; reflexivity).
  split; [change (apply_op s o = Ok (match apply_op s o with Ok s' => s' | Err _ => s end)); destruct (apply_op s o); [reflexivity|discriminate]|].
  split; [vm_compute; reflexivity|]. split; [|split; [reflexivity|]].
  - exists "/srv", ["nano-1.0-1-2.pisi"], (holding (numbered "nano" 2)). split; [left; now left|]. split; [split; [constructor; now left|discriminate]|]. split; [now exists "nano-1.0-1-2"|]. split; reflexivity.
  - left. exists 1%Z, 2%Z. repeat split; discriminate.
Qed.
Print Assumptions C69_newest_refuted.
Definition after_index : dbs := run_ops [OAddRepo "main" "/srv/pisi-index.xml" None; OUpdateRepo "main" (mkIndex [] [numbered "nano" 2; numbered "bash" 1] [])].
Example C69_nontrivial : reachable after_index /\
  get_package after_index "nano" (RName "main") = Ok (numbered "nano" 2) /\ get_package after_index "bash" (RName "main") = Ok (numbered "bash" 1).
Proof. split; [apply run_ops_reachable|]. vm_compute. auto. Qed.
