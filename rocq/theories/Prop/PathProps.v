(** * C44, C45 *)
From Coq Require Import String Ascii List Bool ZArith Lia.
From Verif Require Import Model.Py Model.Path Spec.PathSpec Proof.PyFacts Proof.PathFacts.
Import ListNotations.
Open Scope string_scope.

(** ** C44: sequences.  [eqb] is Python's == on the elements. *)
Theorem C44_prefix_exact (A : Type) (eqb : A -> A -> bool) (eqb_iff : forall x y, eqb x y = true <-> x = y) (a b : list A) :
  (prefix eqb a b = true <-> exists r, b = (a ++ r)%list) /\
  (forall r, remove_prefix eqb a b = Ok r <-> b = (a ++ r)%list).
Proof. split; [exact (prefix_iff eqb eqb_iff a b)|exact (remove_prefix_iff eqb eqb_iff a b)]. Qed.
Print Assumptions C44_prefix_exact.

Theorem C44_suffix_exact (A : Type) (eqb : A -> A -> bool) (eqb_iff : forall x y, eqb x y = true <-> x = y) (a b : list A) :
  suffix eqb a b = true <-> exists r, b = (r ++ a)%list.
Proof. exact (suffix_iff eqb eqb_iff a b). Qed.
Print Assumptions C44_suffix_exact.

(** Missing: the empty suffix. *)
Theorem C44_remove_suffix_partial (A : Type) (eqb : A -> A -> bool) (eqb_iff : forall x y, eqb x y = true <-> x = y) (a b r : list A) :
  a <> [] -> (remove_suffix eqb a b = Ok r <-> b = (r ++ a)%list).
Proof. exact (remove_suffix_iff eqb eqb_iff a b r). Qed.
Print Assumptions C44_remove_suffix_partial.

(** Removing the empty suffix, which is present in every sequence, removes everything. *)
Theorem C44_remove_suffix_refuted :
  ~ forall (a b r : list string), remove_suffix String.eqb a b = Ok r <-> b = (r ++ a)%list.
Proof.
  intros H. specialize (H [] ["x"] []). destruct H as [H _]. specialize (H eq_refl). discriminate.
Qed.
Print Assumptions C44_remove_suffix_refuted.

Theorem C44_all_same (A : Type) (eqb : A -> A -> bool) (eqb_iff : forall x y, eqb x y = true <-> x = y) (l : list A) :
  same eqb l = true <-> forall x y, In x l -> In y l -> x = y.
Proof. exact (same_iff eqb eqb_iff l). Qed.
Print Assumptions C44_all_same.

(** ** C44: paths *)
(** A path joined to any root, with or without a leading slash, is given back when the root
    is removed. *)
Theorem C44_join_then_remove (root p : string) : relative_path p ->
  removepathprefix root (join_path root [p]) = Ok p /\
  removepathprefix root (join_path root ["/" ++ p]) = Ok p.
Proof.
  intros H. pose proof (rel_lstrip p H) as L. split; [now apply removepathprefix_join|].
  apply removepathprefix_join; [assumption|]. change "/" with (String "/" ""). exact L.
Qed.
Print Assumptions C44_join_then_remove.

(** subpath: [b] is [a] or lies under [a]. *)
Theorem C44_subpath_exact (a b : string) :
  (a <> "" -> ~ ends_in_slash a -> (subpath a b = true <-> b = a \/ exists r, b = a ++ "/" ++ r)) /\
  (subpath (a ++ "/") b = true <-> (b = a /\ a <> "" /\ ~ ends_in_slash a) \/ exists r, b = a ++ "/" ++ r) /\
  subpath "" b = true.
Proof. split; [exact (subpath_plain a b)|]. split; [exact (subpath_slash a b)|exact (subpath_nil b)]. Qed.
Print Assumptions C44_subpath_exact.

Theorem C44_split_then_make (p : string) : ~ ends_in_slash p -> makepath (splitpath p) true = p.
Proof. exact (makepath_splitpath p). Qed.
Print Assumptions C44_split_then_make.

Theorem C44_parent (d n : string) : n <> "" -> free_of "/" n -> parentpath (d ++ "/" ++ n) = d.
Proof. exact (parentpath_under d n). Qed.
Print Assumptions C44_parent.

Lemma free_check c s : char_in c s = false -> free_of c s.
Proof. intros H K. apply char_in_iff in K. congruence. Qed.
Lemma not_end_check s : py_endswith s "/" = false -> ~ ends_in_slash s.
Proof. intros H K. apply endswith_iff in K. congruence. Qed.

Example C44_nontrivial :
  relative_path "usr/lib/libz.so" /\ join_path "/dest/" ["/usr/lib/libz.so"] = "/dest/usr/lib/libz.so" /\
  removepathprefix "/dest/" "/dest/usr/lib/libz.so" = Ok "usr/lib/libz.so" /\
  ~ ends_in_slash "/usr/lib" /\ subpath "/usr/lib" "/usr/library" = false /\ subpath "/usr/lib" "/usr/lib/libz.so" = true /\
  remove_suffix String.eqb ["c"] ["b"; "c"] = Ok ["b"].
Proof.
  split.
  - apply (rel_under "usr" "lib/libz.so"); [discriminate|now apply free_check|].
    apply (rel_under "lib" "libz.so"); [discriminate|now apply free_check|].
    apply rel_name; [discriminate|now apply free_check].
  - repeat split; try reflexivity. now apply not_end_check.
Qed.

(** ** C45 *)
Theorem C45_parse_generated (n v r : string) (b : option Z) : plain_name n -> digit_first v ->
  parse_package_name (package_name n v r b false) = Ok (n, v ++ "-" ++ r ++ build_shown b) /\
  pure_package_name (package_name n v r b true) = Ok n.
Proof. intros P D. split; [exact (parse_generated n v r b P D)|exact (proj1 (pure_generated n v r b P D))]. Qed.
Print Assumptions C45_parse_generated.

(** Asked for the package's own name, is_package_name says yes.  Missing: the call without a
    name. *)
Theorem C45_recognised_partial (n v r : string) (b : option Z) :
  digit_first v -> free_of "-" v -> digit_first r -> free_of "-" r -> (forall z, b = Some z -> (0 <= z)%Z) ->
  is_package_name (package_name n v r b true) (Some n) = Ok true.
Proof. exact (is_package_name_ok n v r b). Qed.
Print Assumptions C45_recognised_partial.

(** With the name, the answer is yes exactly when every part after the name starts with a
    digit. *)
Theorem C45_recognised_exactly (n v r : string) (b : option Z) :
  is_package_name (package_name n v r b true) (Some n) = Ok true <->
  forall w, In w (py_split "-" (v ++ "-" ++ r ++ build_shown b)) -> digit_first w.
Proof. exact (is_package_name_generated n v r b). Qed.
Print Assumptions C45_recognised_exactly.

(** Without a name every generated file name makes it fail with a TypeError. *)
Theorem C45_unnamed_refuted (n v r : string) (b : option Z) :
  is_package_name (package_name n v r b true) None = Err EType.
Proof. exact (is_package_name_unnamed n v r b). Qed.
Print Assumptions C45_unnamed_refuted.

Example C45_nontrivial :
  plain_name "kde-base" /\ digit_first "3.5.6" /\
  package_name "kde-base" "3.5.6" "12" (Some 4%Z) true = "kde-base-3.5.6-12-4.pisi" /\
  parse_package_name "kde-base-3.5.6-12-4" = Ok ("kde-base", "3.5.6-12-4") /\
  plain_name "855resolution" /\ pure_package_name "855resolution-0.4-1.pisi" = Ok "855resolution" /\
  is_package_name "kde-base-3.5.6-12-4.pisi" (Some "kde-base") = Ok true /\
  is_package_name "kde-base-3.5.6-12-4.pisi" (Some "kde") = Ok false.
Proof.
  split; [exists "kde", "-base"; split; [now apply free_check|split; [|reflexivity]]|].
  - apply (words_cons "base" ""); [discriminate|now apply free_check| |constructor]. intros (c & t & E & D). injection E as <- _. discriminate.
  - split; [now exists "3"%char, ".5.6"|]. split; [reflexivity|]. split; [reflexivity|].
    split; [exists "855resolution", ""; split; [now apply free_check|split; [constructor|reflexivity]]|].
    repeat split; reflexivity.
Qed.
