(** * C01-C04: versions *)
From Coq Require Import String Ascii List Bool ZArith Arith.
From Verif Require Import Model.Py Model.Version Spec.VersionSpec
  Proof.PyFacts Proof.VersionFacts Proof.VersionSyntax Proof.VersionAppend Proof.VersionMain.
Import ListNotations.
Open Scope string_scope.

(** ** C01 *)
Theorem C01_compare_total_preorder : forall a b c : version,
  vcompare a a = 0%Z /\
  vcompare b a = (- vcompare a b)%Z /\
  (vcompare a b = (-1) \/ vcompare a b = 0 \/ vcompare a b = 1)%Z /\
  ((vcompare a b <= 0)%Z -> (vcompare b c <= 0)%Z -> (vcompare a c <= 0)%Z) /\
  ((vcompare a b < 0)%Z -> (vcompare b c <= 0)%Z -> (vcompare a c < 0)%Z) /\
  ((vcompare a b <= 0)%Z -> (vcompare b c < 0)%Z -> (vcompare a c < 0)%Z) /\
  (vcompare a b = 0%Z -> vcompare a c = vcompare b c /\ vcompare c a = vcompare c b).
Proof. exact compare_preorder. Qed.
Print Assumptions C01_compare_total_preorder.

Theorem C01_operators_agree : forall a b : version,
  (v_lt a b = true <-> (vcompare a b < 0)%Z) /\ (v_le a b = true <-> (vcompare a b <= 0)%Z) /\
  (v_gt a b = true <-> (vcompare a b > 0)%Z) /\ (v_ge a b = true <-> (vcompare a b >= 0)%Z) /\
  (v_eq a b = true <-> vcompare a b = 0%Z) /\
  (v_le a b = true \/ v_le b a = true) /\
  (v_lt a b = true <-> v_gt b a = true) /\ (v_le a b = true <-> v_ge b a = true) /\
  (v_eq a b = true <-> v_le a b = true /\ v_ge a b = true).
Proof. exact operators_agree. Qed.
Print Assumptions C01_operators_agree.

(** The same through the public API: comparing three accepted strings. *)
Theorem C01_strings : forall a b c va vb vc,
  parse_version a = Ok va -> parse_version b = Ok vb -> parse_version c = Ok vc ->
  str_compare a a = Ok 0%Z /\
  (exists x, str_compare a b = Ok x /\ str_compare b a = Ok (- x)%Z) /\
  (forall x y z, str_compare a b = Ok x -> str_compare b c = Ok y -> str_compare a c = Ok z ->
                 (x <= 0 -> y <= 0 -> z <= 0)%Z).
Proof. exact strings_preorder. Qed.
Print Assumptions C01_strings.

Example C01_nontrivial :
  str_compare "1.0_rc2" "1.0" = Ok (-1)%Z /\ str_compare "1.0" "1.0.0b" = Ok (-1)%Z /\
  str_compare "1.0.0" "1-0" = Ok 0%Z /\ str_compare "1.0_p1" "1.0a" = Ok 1%Z.
Proof. vm_compute. auto. Qed.

(** ** C02 *)
Theorem C02_lexicographic : forall a b : version,
  (vcompare a b = (-1)%Z <-> ver_before a b) /\
  (vcompare a b = 0%Z <-> ver_same a b) /\
  (vcompare a b = 1%Z <-> ver_before b a).
Proof. exact (fun a b => conj (vcompare_lt a b) (conj (vcompare_eq a b) (vcompare_gt a b))). Qed.
Print Assumptions C02_lexicographic.

(** Item-level operators of VersionItem: the same order. *)
Theorem C02_items : forall a b : item,
  (item_ltb a b = true <-> item_before a b) /\ (item_gtb a b = true <-> item_before b a) /\
  (item_leb a b = true <-> item_before a b \/ a = b) /\ (item_geb a b = true <-> item_before b a \/ a = b) /\
  (item_eqb a b = true <-> a = b).
Proof. exact item_ops. Qed.
Print Assumptions C02_items.

(** "2.10 > 2.9", for every prefix and every two numbers. *)
Theorem C02_numeric_components : forall s c ds1 n1 ds2 n2 v v1 v2,
  parse_version s = Ok v -> separator c -> decimal ds1 n1 -> decimal ds2 n2 -> (n1 < n2)%Z ->
  parse_version (s ++ String c ds1) = Ok v1 -> parse_version (s ++ String c ds2) = Ok v2 ->
  vcompare v1 v2 = (-1)%Z.
Proof. exact numeric_components. Qed.
Print Assumptions C02_numeric_components.

(** Appending ".0" (or "-00", ...) changes no comparison. *)
Theorem C02_zero_suffix : forall s v c ds,
  parse_version s = Ok v -> separator c -> decimal ds 0 ->
  exists v', parse_version (s ++ String c ds) = Ok v' /\
             forall w, vcompare v' w = vcompare v w /\ vcompare w v' = vcompare w v.
Proof. exact zero_suffix. Qed.
Print Assumptions C02_zero_suffix.

(** v_alphaN, v_betaN, v_preN, v_rcN, v_mN are before v, and v_pN is after v. *)
Theorem C02_prerelease : forall k s v c ds n,
  In k [KAlpha; KBeta; KPre; KRc; KM] -> parse_version s = Ok v -> separator c -> decimal ds n ->
  exists v', parse_version (s ++ String c (kw_name k ++ ds)) = Ok v' /\ vcompare v' v = (-1)%Z.
Proof. exact prerelease. Qed.
Print Assumptions C02_prerelease.

Theorem C02_patch : forall s v c ds n,
  parse_version s = Ok v -> separator c -> decimal ds n ->
  exists v', parse_version (s ++ String c ("p" ++ ds)) = Ok v' /\ vcompare v v' = (-1)%Z.
Proof. exact patch_release. Qed.
Print Assumptions C02_patch.

Example C02_nontrivial :
  str_compare "2.10" "2.9" = Ok 1%Z /\ str_compare "2.6.20_rc3" "2.6.20" = Ok (-1)%Z /\
  str_compare "2.6.20" "2.6.20_p1" = Ok (-1)%Z /\ str_compare "1.0a" "1.0.99" = Ok 1%Z /\
  decimal "10" 10 /\ decimal "00" 0.
Proof.
  repeat split; try reflexivity; try discriminate; repeat constructor;
    unfold digit, code_in; simpl; repeat constructor.
Qed.

(** ** C03 *)
Theorem C03_parse_exactly_the_grammar : forall s v,
  parse_version s = Ok v <-> version_syntax s v.
Proof. exact (fun s v => parse_version_iff all_keywords s v all_keywords_all). Qed.
Print Assumptions C03_parse_exactly_the_grammar.

Theorem C03_otherwise_raises : forall s,
  (exists v, parse_version s = Ok v /\ version_syntax s v) \/
  (parse_version s = Err EValue /\ forall v, ~ version_syntax s v).
Proof. exact (fun s => parse_version_total all_keywords s all_keywords_all). Qed.
Print Assumptions C03_otherwise_raises.

(** The result does not depend on the iteration order of the keyword dictionary. *)
Theorem C03_dict_order_irrelevant : forall ks s,
  (forall k, In k ks) -> parse_version_ks ks s = parse_version s.
Proof. exact parse_order_irrelevant. Qed.
Print Assumptions C03_dict_order_irrelevant.

(** Two components at most per piece, and one at least. *)
Theorem C03_component_count : forall s v ps,
  parse_version s = Ok v -> splits s ps -> length ps <= length v <= 2 * length ps.
Proof. exact component_count. Qed.
Print Assumptions C03_component_count.

(** The grammar a packager would expect (digits, digits+letter, keyword+digits per
    piece) is strictly smaller: a bare two-letter keyword is read as two letters, which
    makes "1.0_rc" *newer* than "1.0". *)
Theorem C03_bare_keyword_is_prerelease_refuted :
  exists v, parse_version "1.0_rc" = Ok v /\ v_gt v [mkItem KNone (VInt 1); mkItem KNone (VInt 0)] = true.
Proof. exact bare_rc. Qed.
Print Assumptions C03_bare_keyword_is_prerelease_refuted.

Example C03_nontrivial :
  parse_version "2.6_rc3-12b" =
    Ok [mkItem KNone (VInt 2); mkItem KNone (VInt 6); mkItem KRc (VInt 3);
        mkItem KNone (VInt 12); mkItem KNone (VLetter "b")] /\
  parse_version "1..2" = Err EValue /\ parse_version "1.a" = Err EValue /\
  parse_version "1.0_alpha" = Err EValue /\ parse_version "" = Err EValue.
Proof. vm_compute. auto. Qed.

(** ** C04 *)
Theorem C04_comparison_has_no_memory : forall objs log objs',
  comparisons objs log objs' ->
  Forall (fun e => exists a b, nth_error objs (fst (fst e)) = Some a /\ nth_error objs (snd (fst e)) = Some b /\
                               snd e = vcompare a b) log.
Proof. exact (fun objs log objs' H => proj2 (comparisons_same objs objs log objs' (heap_same_refl objs) H)). Qed.
Print Assumptions C04_comparison_has_no_memory.

(** ... and a comparison between two existing objects can always be made. *)
Theorem C04_comparison_total : forall objs i j, i < length objs -> j < length objs ->
  exists c objs', heap_compare objs i j = Some (c, objs').
Proof. exact heap_compare_some. Qed.
Print Assumptions C04_comparison_total.

Example C04_nontrivial :
  let v1 := [mkItem KNone (VInt 1)] in
  let v2 := [mkItem KNone (VInt 1); mkItem KNone (VInt 0); mkItem KRc (VInt 1)] in
  exists h', comparisons [v1; v2] [(0, 1, 1%Z); (1, 0, (-1)%Z); (0, 0, 0%Z)] h' /\
             h' <> [v1; v2].
Proof.
  eexists. split.
  - repeat (eapply cmp_step; [vm_compute; reflexivity|]). apply cmp_none.
  - discriminate.
Qed.
