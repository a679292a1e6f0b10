(** * The version lemmas in the shape the property file uses *)
From Coq Require Import String Ascii List Bool ZArith Arith Lia.
From Verif Require Import Model.Py Model.Version Spec.VersionSpec
  Proof.PyFacts Proof.VersionFacts Proof.VersionSyntax Proof.VersionAppend.
Import ListNotations.
Open Scope string_scope.

Lemma vcompare_range a b : (vcompare a b = (-1) \/ vcompare a b = 0 \/ vcompare a b = 1)%Z.
Proof. destruct (vcompare_cases a b) as [[H _]|[[H _]|[H _]]]; auto. Qed.

Lemma compare_preorder : forall a b c : version,
  vcompare a a = 0%Z /\
  vcompare b a = (- vcompare a b)%Z /\
  (vcompare a b = (-1) \/ vcompare a b = 0 \/ vcompare a b = 1)%Z /\
  ((vcompare a b <= 0)%Z -> (vcompare b c <= 0)%Z -> (vcompare a c <= 0)%Z) /\
  ((vcompare a b < 0)%Z -> (vcompare b c <= 0)%Z -> (vcompare a c < 0)%Z) /\
  ((vcompare a b <= 0)%Z -> (vcompare b c < 0)%Z -> (vcompare a c < 0)%Z) /\
  (vcompare a b = 0%Z -> vcompare a c = vcompare b c /\ vcompare c a = vcompare c b).
Proof.
  intros a b c. split; [apply vcompare_refl|]. split; [apply vcompare_opp|]. split; [apply vcompare_range|].
  pose proof (vcompare_range a b) as Rab. pose proof (vcompare_range b c) as Rbc.
  split; [|split; [|split]].
  - intros H1 H2. pose proof (v_le_trans a b c) as T. unfold v_le in T. rewrite !Z.leb_le in T. auto.
  - intros H1 H2. assert (E : vcompare a b = (-1)%Z) by lia. apply vcompare_lt in E.
    assert (K : vcompare a c = (-1)%Z); [apply vcompare_lt|lia].
    destruct Rbc as [X|[X|X]]; [|apply vcompare_eq in X; eapply ver_before_same_r; eassumption|lia].
    apply vcompare_lt in X. eapply ver_before_trans; eassumption.
  - intros H1 H2. assert (E : vcompare b c = (-1)%Z) by lia. apply vcompare_lt in E.
    assert (K : vcompare a c = (-1)%Z); [apply vcompare_lt|lia].
    destruct Rab as [X|[X|X]]; [|apply vcompare_eq in X; apply ver_same_sym in X; eapply ver_before_same_l; eassumption|lia].
    apply vcompare_lt in X. eapply ver_before_trans; eassumption.
  - intros E. apply vcompare_eq in E. split; apply vcompare_same; auto using ver_same_refl.
Qed.

Lemma operators_agree : forall a b : version,
  (v_lt a b = true <-> (vcompare a b < 0)%Z) /\ (v_le a b = true <-> (vcompare a b <= 0)%Z) /\
  (v_gt a b = true <-> (vcompare a b > 0)%Z) /\ (v_ge a b = true <-> (vcompare a b >= 0)%Z) /\
  (v_eq a b = true <-> vcompare a b = 0%Z) /\
  (v_le a b = true \/ v_le b a = true) /\
  (v_lt a b = true <-> v_gt b a = true) /\ (v_le a b = true <-> v_ge b a = true) /\
  (v_eq a b = true <-> v_le a b = true /\ v_ge a b = true).
Proof.
  intros a b. unfold v_lt, v_le, v_gt, v_ge, v_eq. rewrite (vcompare_opp a b).
  rewrite ?Z.ltb_lt, ?Z.leb_le, ?Z.eqb_eq. lia.
Qed.

Lemma str_compare_eq a b va vb : parse_version a = Ok va -> parse_version b = Ok vb ->
  str_compare a b = Ok (vcompare va vb).
Proof. intros Ha Hb. unfold str_compare. now rewrite Ha, Hb. Qed.

Lemma strings_preorder : forall a b c va vb vc,
  parse_version a = Ok va -> parse_version b = Ok vb -> parse_version c = Ok vc ->
  str_compare a a = Ok 0%Z /\
  (exists x, str_compare a b = Ok x /\ str_compare b a = Ok (- x)%Z) /\
  (forall x y z, str_compare a b = Ok x -> str_compare b c = Ok y -> str_compare a c = Ok z ->
                 (x <= 0 -> y <= 0 -> z <= 0)%Z).
Proof.
  intros a b c va vb vc Ha Hb Hc.
  rewrite (str_compare_eq _ _ _ _ Ha Ha), (str_compare_eq _ _ _ _ Ha Hb), (str_compare_eq _ _ _ _ Hb Ha),
    (str_compare_eq _ _ _ _ Hb Hc), (str_compare_eq _ _ _ _ Ha Hc).
  split; [now rewrite vcompare_refl|]. split.
  - eexists. split; [reflexivity|]. now rewrite (vcompare_opp va vb).
  - intros x y z [= <-] [= <-] [= <-]. apply compare_preorder.
Qed.

Lemma val_eqb_iff a b : val_eqb a b = true <-> a = b.
Proof.
  destruct a, b; simpl; try (split; [discriminate|congruence]).
  - rewrite Z.eqb_eq. split; congruence.
  - rewrite Ascii.eqb_eq. split; congruence.
Qed.
Lemma kw_rank_eqb a b : Z.eqb (kw_rank a) (kw_rank b) = true <-> a = b.
Proof. rewrite Z.eqb_eq. split; [apply kw_rank_inj|congruence]. Qed.

Lemma item_eq a b : a = b <-> i_kw a = i_kw b /\ i_val a = i_val b.
Proof. destruct a, b; simpl. split; [intros [= -> ->]; auto|intros [-> ->]; reflexivity]. Qed.

Lemma item_leb_iff a b : item_leb a b = true <-> item_before a b \/ a = b.
Proof.
  unfold item_leb, item_before. rewrite kw_before_rank, <- val_ltb_iff, item_eq, <- val_eqb_iff.
  destruct (Z.ltb_spec (kw_rank (i_kw a)) (kw_rank (i_kw b))) as [H|H]; [tauto|].
  destruct (Z.eqb_spec (kw_rank (i_kw a)) (kw_rank (i_kw b))) as [E|E].
  - apply kw_rank_inj in E. rewrite orb_true_iff. split; [tauto|]. intros [[K|K]|K]; [lia|tauto|tauto].
  - split; [discriminate|]. assert (i_kw a <> i_kw b) by congruence. intros [[K|K]|K]; [lia|tauto|tauto].
Qed.
Lemma item_geb_leb a b : item_geb a b = item_leb b a.
Proof. unfold item_geb, item_leb. now rewrite (Z.eqb_sym (kw_rank (i_kw a))). Qed.

Lemma item_ops : forall a b : item,
  (item_ltb a b = true <-> item_before a b) /\ (item_gtb a b = true <-> item_before b a) /\
  (item_leb a b = true <-> item_before a b \/ a = b) /\ (item_geb a b = true <-> item_before b a \/ a = b) /\
  (item_eqb a b = true <-> a = b).
Proof.
  intros a b. split; [apply item_ltb_iff|]. split; [rewrite item_gtb_ltb; apply item_ltb_iff|].
  split; [apply item_leb_iff|]. split.
  - rewrite item_geb_leb, item_leb_iff. split; (intros [H|H]; [now left|right; congruence]).
  - unfold item_eqb. rewrite andb_true_iff, kw_rank_eqb, val_eqb_iff, item_eq. reflexivity.
Qed.

Lemma numeric_components : forall s c ds1 n1 ds2 n2 v v1 v2,
  parse_version s = Ok v -> separator c -> decimal ds1 n1 -> decimal ds2 n2 -> (n1 < n2)%Z ->
  parse_version (s ++ String c ds1) = Ok v1 -> parse_version (s ++ String c ds2) = Ok v2 ->
  vcompare v1 v2 = (-1)%Z.
Proof. intros s c ds1 n1 ds2 n2 v v1 v2 H H0 H1 H2 H3 H4 H5. apply vcompare_lt.
  exact (component_greater s v c ds1 n1 ds2 n2 v1 v2 H H0 H1 H2 H3 H4 H5). Qed.

Lemma zero_suffix : forall s v c ds,
  parse_version s = Ok v -> separator c -> decimal ds 0 ->
  exists v', parse_version (s ++ String c ds) = Ok v' /\
             forall w, vcompare v' w = vcompare v w /\ vcompare w v' = vcompare w v.
Proof.
  intros s v c ds Hv Hc Hd. destruct (zero_suffix_same _ _ _ _ Hv Hc Hd) as (v' & Hv' & S).
  exists v'. split; [exact Hv'|]. intros w. split; apply vcompare_same; auto using ver_same_refl.
Qed.

Lemma prerelease : forall k s v c ds n,
  In k [KAlpha; KBeta; KPre; KRc; KM] -> parse_version s = Ok v -> separator c -> decimal ds n ->
  exists v', parse_version (s ++ String c (kw_name k ++ ds)) = Ok v' /\ vcompare v' v = (-1)%Z.
Proof.
  intros k s v c ds n Hk Hv Hc Hd.
  destruct (kw_suffix_before k s v c ds n) as (v' & Hv' & L); try assumption.
  - apply kw_before_rank. simpl in Hk. decompose [or] Hk; subst; simpl; try lia.
  - exists v'. split; [exact Hv'|]. now apply vcompare_lt.
Qed.

Lemma patch_release : forall s v c ds n,
  parse_version s = Ok v -> separator c -> decimal ds n ->
  exists v', parse_version (s ++ String c ("p" ++ ds)) = Ok v' /\ vcompare v v' = (-1)%Z.
Proof.
  intros s v c ds n Hv Hc Hd. destruct (p_suffix_after s v c ds n Hv Hc Hd) as (v' & Hv' & L).
  exists v'. split; [exact Hv'|]. now apply vcompare_lt.
Qed.

Lemma mk_item_order ks s : (forall k, In k ks) -> mk_item ks s = mk_item all_keywords s.
Proof. intros H. unfold mk_item. now rewrite (pick_keyword_order ks all_keywords s H all_keywords_all). Qed.
Lemma parse_piece_order ks s : (forall k, In k ks) -> parse_piece ks s = parse_piece all_keywords s.
Proof.
  intros H. unfold parse_piece. destruct (tail_match s) as [[h t]|]; now rewrite !(mk_item_order ks) by exact H.
Qed.
Lemma mapM_ext {A B} (f g : A -> res B) l : (forall x, f x = g x) -> mapM f l = mapM g l.
Proof. intros H. induction l; simpl; [reflexivity|]. now rewrite H, IHl. Qed.
Lemma parse_order_irrelevant : forall ks s,
  (forall k, In k ks) -> parse_version_ks ks s = parse_version s.
Proof.
  intros ks s H. unfold parse_version, parse_version_ks.
  rewrite (mapM_ext _ (parse_piece all_keywords)); [reflexivity|]. intros; now apply parse_piece_order.
Qed.

Lemma splits_fun s ps ps' : splits s ps -> splits s ps' -> ps = ps'.
Proof. intros H H'. apply splitp_splits in H, H'. congruence. Qed.

Lemma component_count : forall s v ps,
  parse_version s = Ok v -> splits s ps -> length ps <= length v <= 2 * length ps.
Proof.
  intros s v ps Hv Hs. apply (parse_version_iff _ _ _ all_keywords_all) in Hv.
  destruct Hv as (ps' & ls & Hs' & H2 & ->). rewrite (splits_fun _ _ _ Hs Hs'). clear - H2.
  induction H2 as [|p l ps ls Hp _ IH]; simpl; [lia|]. rewrite app_length.
  assert (1 <= length l <= 2) by (inversion Hp; simpl; lia). lia.
Qed.

Lemma bare_rc :
  exists v, parse_version "1.0_rc" = Ok v /\ v_gt v [mkItem KNone (VInt 1); mkItem KNone (VInt 0)] = true.
Proof. eexists. split; vm_compute; reflexivity. Qed.
