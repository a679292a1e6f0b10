(** * Dependency.satisfies decides the window *)
From Coq Require Import String Ascii List Bool ZArith Lia.
From Verif Require Import Model.Py Model.Version Model.Dependency Spec.VersionSpec Spec.DependencySpec
  Proof.PyFacts Proof.VersionFacts Proof.VersionSyntax Proof.VersionMain.
Import ListNotations.
Open Scope string_scope.

Lemma parse_iff s v : parse_version s = Ok v <-> version_syntax s v.
Proof. apply (parse_version_iff all_keywords), all_keywords_all. Qed.

Lemma version_syntax_fun s v w : version_syntax s v -> version_syntax s w -> v = w.
Proof. rewrite <- !parse_iff. congruence. Qed.

Lemma readable_dec s : (exists v, parse_version s = Ok v) \/ (parse_version s = Err EValue /\ ~ readable s).
Proof.
  destruct (parse_version_total all_keywords s all_keywords_all) as [(v & H & _)|[H K]].
  - left; now exists v.
  - right. split; [exact H|]. intros [v Hv]. now apply (K v).
Qed.

Lemma truthy_given b : truthy b = true <-> exists s, given b s.
Proof.
  destruct b as [[|c s]|]; simpl; split; intros H; try discriminate H; try reflexivity.
  - destruct H as (s & [= <-] & H). congruence.
  - exists (String c s). split; [reflexivity|discriminate].
  - destruct H as (s & H & _). discriminate H.
Qed.
Lemma given_fun b s t : given b s -> given b t -> s = t.
Proof. intros [-> _] [[= ->] _]. reflexivity. Qed.

(** What a test on [compare]'s result says. *)
Definition test_means (test : Z -> bool) (P : version -> version -> Prop) : Prop :=
  forall v w, test (vcompare v w) = true <-> P v w.

Lemma is_eq_means : test_means is_eq ver_same.
Proof. intros v w. unfold is_eq. rewrite Z.eqb_eq. apply vcompare_eq. Qed.
Lemma is_ge_means : test_means is_ge (fun v w => ~ ver_before v w).
Proof.
  intros v w. unfold is_ge. rewrite Z.leb_le, <- vcompare_lt.
  destruct (vcompare_range v w) as [H|[H|H]]; lia.
Qed.
Lemma is_le_means : test_means is_le (fun v w => ~ ver_before w v).
Proof.
  intros v w. unfold is_le. rewrite Z.leb_le, <- vcompare_gt.
  destruct (vcompare_range v w) as [H|[H|H]]; lia.
Qed.

Lemma check_bound_spec test P bound st v0 s0 :
  test_means test P -> ver_same (snd st) v0 -> version_syntax s0 v0 ->
  (exists st', check_bound test bound st = Ok st' /\ ver_same (snd st') v0 /\
     (forall b, given bound b -> readable b) /\
     (fst st' = true <-> fst st = true /\
        forall b, given bound b -> exists v w, version_syntax s0 v /\ version_syntax b w /\ P v w)) \/
  (check_bound test bound st = Err EValue /\ exists b, given bound b /\ ~ readable b).
Proof.
  intros Ht Hs H0. unfold check_bound. destruct (truthy bound) eqn:E.
  - apply truthy_given in E. destruct E as (b & Hb). destruct Hb as [-> Hne].
    destruct (readable_dec b) as [(w & Hw)|[Hw Hr]].
    + left. rewrite Hw. simpl.
      assert (Hc : vcompare (snd st) w = vcompare v0 w).
      { apply vcompare_same; [exact Hs|apply ver_same_refl]. }
      unfold vcompare in Hc. pose proof (pad_spec (snd st) w) as Hp.
      unfold compare_mut in *. destruct (pad (snd st) w) as [l' r']. simpl in Hc.
      destruct Hp as (Hp & _ & _).
      eexists. split; [reflexivity|]. simpl. split; [eapply ver_same_trans; eassumption|]. split.
      * intros b' Hb'. assert (b' = b) as -> by (eapply given_fun; [exact Hb'|split; [reflexivity|exact Hne]]).
        exists w. now apply parse_iff.
      * rewrite andb_true_iff, Hc. fold (compare_mut v0 w). fold (vcompare v0 w).
        rewrite (Ht v0 w). split.
        -- intros [H1 H2]. split; [exact H1|]. intros b' Hb'.
           assert (b' = b) as -> by (eapply given_fun; [exact Hb'|split; [reflexivity|exact Hne]]).
           exists v0, w. repeat split; [exact H0|now apply parse_iff|exact H2].
        -- intros [H1 H2]. split; [exact H1|].
           destruct (H2 b (conj eq_refl Hne)) as (v & w' & K1 & K2 & K3).
           rewrite (version_syntax_fun _ _ _ H0 K1). apply parse_iff in K2.
           assert (w = w') as -> by congruence. exact K3.
    + right. rewrite Hw. split; [reflexivity|]. exists b. split; [split; [reflexivity|exact Hne]|exact Hr].
  - left. exists st. split; [reflexivity|]. split; [exact Hs|].
    assert (N : forall b, ~ given bound b).
    { intros b Hb. assert (truthy bound = true) by (apply truthy_given; eauto). congruence. }
    split; [intros b Hb; now apply N in Hb|]. split; [|tauto].
    intros H; split; [exact H|]. intros b Hb. now apply N in Hb.
Qed.

(** [satisfies] never fails when everything is readable, and then decides the window;
    it raises ValueError exactly when something is not readable. *)
Lemma satisfies_spec d n ver rel :
  (window_readable d ver rel /\ exists b, satisfies d n ver rel = Ok b /\ (b = true <-> in_window d ver rel)) \/
  (~ window_readable d ver rel /\ satisfies d n ver rel = Err EValue).
Proof.
  unfold satisfies.
  destruct (readable_dec ver) as [(v & Hv)|[Hv Nv]]; rewrite Hv; simpl.
  2: { right. split; [|reflexivity]. intros (H & _). contradiction. }
  apply parse_iff in Hv.
  destruct (check_bound_spec _ _ (dep_version d) (true, v) v ver is_eq_means (ver_same_refl v) Hv)
    as [(s1 & -> & S1 & R1 & T1)|[-> (b & Hb & Nb)]]; simpl.
  2: { right. split; [|reflexivity]. intros (_ & _ & H). apply Nb. eapply (H dep_version); [simpl; tauto|exact Hb]. }
  destruct (check_bound_spec _ _ (dep_versionFrom d) s1 v ver is_ge_means S1 Hv)
    as [(s2 & -> & S2 & R2 & T2)|[-> (b & Hb & Nb)]]; simpl.
  2: { right. split; [|reflexivity]. intros (_ & _ & H). apply Nb. eapply (H dep_versionFrom); [simpl; tauto|exact Hb]. }
  destruct (check_bound_spec _ _ (dep_versionTo d) s2 v ver is_le_means S2 Hv)
    as [(s3 & -> & S3 & R3 & T3)|[-> (b & Hb & Nb)]]; simpl.
  2: { right. split; [|reflexivity]. intros (_ & _ & H). apply Nb. eapply (H dep_versionTo); [simpl; tauto|exact Hb]. }
  destruct (readable_dec rel) as [(r & Hr)|[Hr Nr]]; rewrite Hr; simpl.
  2: { right. split; [|reflexivity]. intros (_ & H & _). contradiction. }
  apply parse_iff in Hr.
  destruct (check_bound_spec _ _ (dep_release d) (fst s3, r) r rel is_eq_means (ver_same_refl r) Hr)
    as [(t1 & -> & S4 & R4 & T4)|[-> (b & Hb & Nb)]]; simpl.
  2: { right. split; [|reflexivity]. intros (_ & _ & H). apply Nb. eapply (H dep_release); [simpl; tauto|exact Hb]. }
  destruct (check_bound_spec _ _ (dep_releaseFrom d) t1 r rel is_ge_means S4 Hr)
    as [(t2 & -> & S5 & R5 & T5)|[-> (b & Hb & Nb)]]; simpl.
  2: { right. split; [|reflexivity]. intros (_ & _ & H). apply Nb. eapply (H dep_releaseFrom); [simpl; tauto|exact Hb]. }
  destruct (check_bound_spec _ _ (dep_releaseTo d) t2 r rel is_le_means S5 Hr)
    as [(t3 & -> & S6 & R6 & T6)|[-> (b & Hb & Nb)]]; simpl.
  2: { right. split; [|reflexivity]. intros (_ & _ & H). apply Nb. eapply (H dep_releaseTo); [simpl; tauto|exact Hb]. }
  left. split.
  - split; [now exists v|]. split; [now exists r|]. intros f b Hf. simpl in Hf.
    decompose [or] Hf; subst; auto; contradiction.
  - eexists. split; [reflexivity|]. rewrite T6, T5, T4. simpl. rewrite T3, T2, T1. simpl.
    unfold in_window, text_eq, text_ge, text_le. tauto.
Qed.

Lemma satisfies_true d n ver rel : satisfies d n ver rel = Ok true <->
  window_readable d ver rel /\ in_window d ver rel.
Proof.
  destruct (satisfies_spec d n ver rel) as [(H & b & -> & K)|[H ->]].
  - split; [intros [= ->]; tauto|]. intros [_ X]. apply K in X. now subst.
  - split; [discriminate|tauto].
Qed.
Lemma satisfies_false d n ver rel : satisfies d n ver rel = Ok false <->
  window_readable d ver rel /\ ~ in_window d ver rel.
Proof.
  destruct (satisfies_spec d n ver rel) as [(H & b & -> & K)|[H ->]].
  - split; [intros [= ->]; split; [exact H|rewrite <- K; discriminate]|].
    intros [_ X]. destruct b; [exfalso; tauto|reflexivity].
  - split; [discriminate|tauto].
Qed.
Lemma satisfies_err d n ver rel e : satisfies d n ver rel = Err e <->
  e = EValue /\ ~ window_readable d ver rel.
Proof.
  destruct (satisfies_spec d n ver rel) as [(H & b & -> & K)|[H ->]].
  - split; [discriminate|tauto].
  - split; [intros [= <-]; auto|intros [-> _]; reflexivity].
Qed.

(** convexity *)
Definition range_only (d : dependency) : Prop :=
  (forall b, ~ given (dep_version d) b) /\ (forall b, ~ given (dep_release d) b).

Lemma ver_before_trichotomy a b : ver_before a b \/ ver_same a b \/ ver_before b a.
Proof. destruct (vcompare_cases a b) as [[_ H]|[[_ H]|[_ H]]]; auto. Qed.

Lemma text_ge_mono lo x b vlo vx : version_syntax lo vlo -> version_syntax x vx -> ~ ver_before vx vlo ->
  text_ge lo b -> text_ge x b.
Proof.
  intros Hlo Hx Hle (v & w & Hv & Hw & N). rewrite (version_syntax_fun _ _ _ Hv Hlo) in N.
  exists vx, w. repeat split; auto. intros C. apply N.
  destruct (ver_before_trichotomy vlo vx) as [T|[T|T]]; [|apply ver_same_sym in T|contradiction].
  - eapply ver_before_trans; eassumption.
  - eapply ver_before_same_l; eassumption.
Qed.
Lemma text_le_mono hi x b vhi vx : version_syntax hi vhi -> version_syntax x vx -> ~ ver_before vhi vx ->
  text_le hi b -> text_le x b.
Proof.
  intros Hhi Hx Hle (v & w & Hv & Hw & N). rewrite (version_syntax_fun _ _ _ Hv Hhi) in N.
  exists vx, w. repeat split; auto. intros C. apply N.
  destruct (ver_before_trichotomy vx vhi) as [T|[T|T]]; [| |contradiction].
  - eapply ver_before_trans; eassumption.
  - eapply ver_before_same_r; eassumption.
Qed.

Lemma window_convex d n v1 v2 v3 r1 r2 r3 a1 a2 a3 b1 b2 b3 :
  range_only d ->
  version_syntax v1 a1 -> version_syntax v2 a2 -> version_syntax v3 a3 ->
  version_syntax r1 b1 -> version_syntax r2 b2 -> version_syntax r3 b3 ->
  ~ ver_before a2 a1 -> ~ ver_before a3 a2 -> ~ ver_before b2 b1 -> ~ ver_before b3 b2 ->
  satisfies d n v1 r1 = Ok true -> satisfies d n v3 r3 = Ok true -> satisfies d n v2 r2 = Ok true.
Proof.
  intros [Ro1 Ro2] A1 A2 A3 B1 B2 B3 L1 L2 L3 L4 S1 S3.
  apply satisfies_true in S1, S3. destruct S1 as [(_ & _ & R1) W1], S3 as [(_ & _ & R3) W3].
  apply satisfies_true. split.
  - split; [now exists a2|]. split; [now exists b2|]. exact R1.
  - destruct W1 as (_ & W12 & _ & _ & W15 & _), W3 as (_ & _ & W33 & _ & _ & W36).
    repeat split.
    + intros b Hb. exfalso. eapply Ro1; eassumption.
    + intros b Hb. eapply (text_ge_mono v1 v2); eauto.
    + intros b Hb. eapply (text_le_mono v3 v2); eauto.
    + intros b Hb. exfalso. eapply Ro2; eassumption.
    + intros b Hb. eapply (text_ge_mono r1 r2); eauto.
    + intros b Hb. eapply (text_le_mono r3 r2); eauto.
Qed.
