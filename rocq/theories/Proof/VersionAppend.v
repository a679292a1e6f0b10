(** * Appending pieces to a version string *)
From Coq Require Import String Ascii List Bool ZArith Arith Lia.
From Verif Require Import Model.Py Model.Version Spec.VersionSpec Proof.PyFacts Proof.VersionFacts Proof.VersionSyntax.
Import ListNotations.
Open Scope string_scope.

Lemma splits_append s ps c q :
  splits s ps -> separator c -> Forall (fun c => ~ separator c) (chars q) ->
  splits (s ++ String c q) (ps ++ [q])%list.
Proof.
  intros H Hc Hq. induction H as [p Hp|p d s ps Hp Hd Hs IH].
  - simpl. apply sp_more; [exact Hp|exact Hc|]. now constructor.
  - rewrite str_app_assoc. simpl. now apply sp_more.
Qed.

Lemma version_syntax_append s v c q items :
  version_syntax s v -> separator c -> Forall (fun c => ~ separator c) (chars q) -> piece_items q items ->
  version_syntax (s ++ String c q) (v ++ items)%list.
Proof.
  intros (ps & ls & Hs & H2 & ->) Hc Hq Hi.
  exists (ps ++ [q])%list, (ls ++ [items])%list. split; [now apply splits_append|]. split.
  - apply Forall2_app; [exact H2|]. constructor; [exact Hi|constructor].
  - rewrite concat_app. simpl. now rewrite app_nil_r.
Qed.

Lemma parse_version_append s v c q items :
  parse_version s = Ok v -> separator c -> Forall (fun c => ~ separator c) (chars q) -> piece_items q items ->
  parse_version (s ++ String c q) = Ok (v ++ items)%list.
Proof.
  intros H. unfold parse_version in *. intros. apply (parse_version_iff _ _ _ all_keywords_all).
  apply version_syntax_append; try assumption. now apply (parse_version_iff _ _ _ all_keywords_all).
Qed.

Lemma comp_app_l v w i : i < length v -> comp (v ++ w)%list i = comp v i.
Proof. intros H. unfold comp. now apply app_nth1. Qed.
Lemma comp_app_here v x w : comp (v ++ x :: w)%list (length v) = x.
Proof. unfold comp. rewrite app_nth2 by lia. now rewrite Nat.sub_diag. Qed.
Lemma comp_over v i : length v <= i -> comp v i = {| i_kw := KNone; i_val := VInt 0 |}.
Proof. intros H. unfold comp. now apply nth_overflow. Qed.

(** a digit string contains no separator *)
Lemma digits_no_sep s : Forall digit (chars s) -> Forall (fun c => ~ separator c) (chars s).
Proof.
  intros H. eapply Forall_impl; [|exact H]. intros c Hd Hs.
  unfold digit, code_in in Hd. destruct Hs as [->|[->| ->]]; codelia.
Qed.

Lemma decimal_number s n : decimal s n -> number s n.
Proof.
  intros H. pose proof (num_intro "" "" s "" n n) as K. simpl in K. rewrite str_app_nil_r in K.
  apply K; [constructor|constructor|exact H|now left].
Qed.

Lemma kw_suffix_before k s v c ds n :
  kw_before k KNone -> parse_version s = Ok v -> separator c -> decimal ds n ->
  exists v', parse_version (s ++ String c (kw_name k ++ ds)) = Ok v' /\ ver_before v' v.
Proof.
  intros Hk Hv Hc Hd.
  assert (Hne : k <> KNone) by (intros ->; apply kw_before_rank in Hk; lia).
  eexists. split.
  - apply parse_version_append; [exact Hv|exact Hc| |].
    + unfold chars. rewrite los_app, Forall_app. split.
      * destruct k; simpl; repeat constructor; intros [X|[X|X]]; discriminate X.
      * apply digits_no_sep. apply Hd.
    + apply pi_keyword; [exact Hne|]. apply decimal_number; exact Hd.
  - exists (length v). split.
    + intros j Hj. now apply comp_app_l.
    + rewrite comp_app_here, comp_over by lia. left. exact Hk.
Qed.

Lemma p_suffix_after s v c ds n :
  parse_version s = Ok v -> separator c -> decimal ds n ->
  exists v', parse_version (s ++ String c ("p" ++ ds)) = Ok v' /\ ver_before v v'.
Proof.
  intros Hv Hc Hd. eexists. split.
  - apply parse_version_append; [exact Hv|exact Hc| |].
    + constructor; [intros [X|[X|X]]; discriminate X|]. apply digits_no_sep. apply Hd.
    + apply (pi_keyword KP); [discriminate|]. apply decimal_number; exact Hd.
  - exists (length v). split.
    + intros j Hj. symmetry. now apply comp_app_l.
    + rewrite comp_app_here, comp_over by lia. left. apply kw_before_rank. simpl. lia.
Qed.

Lemma zero_suffix_same s v c ds :
  parse_version s = Ok v -> separator c -> decimal ds 0 ->
  exists v', parse_version (s ++ String c ds) = Ok v' /\ ver_same v' v.
Proof.
  intros Hv Hc Hd. eexists. split.
  - apply parse_version_append; [exact Hv|exact Hc| |].
    + apply digits_no_sep. apply Hd.
    + apply pi_number. apply decimal_number; exact Hd.
  - change [{| i_kw := KNone; i_val := VInt 0 |}] with (repeat zero_item 1).
    intros i. apply comp_pad.
Qed.

Lemma component_greater s v c ds1 n1 ds2 n2 v1 v2 :
  parse_version s = Ok v -> separator c -> decimal ds1 n1 -> decimal ds2 n2 -> (n1 < n2)%Z ->
  parse_version (s ++ String c ds1) = Ok v1 -> parse_version (s ++ String c ds2) = Ok v2 ->
  ver_before v1 v2.
Proof.
  intros Hv Hc H1 H2 Hlt P1 P2.
  rewrite (parse_version_append _ _ _ _ _ Hv Hc (digits_no_sep _ (proj1 (proj2 H1))) (pi_number _ _ (decimal_number _ _ H1))) in P1.
  rewrite (parse_version_append _ _ _ _ _ Hv Hc (digits_no_sep _ (proj1 (proj2 H2))) (pi_number _ _ (decimal_number _ _ H2))) in P2.
  injection P1 as <-. injection P2 as <-.
  exists (length v). split.
  - intros j Hj. now rewrite !comp_app_l.
  - rewrite !comp_app_here. right. split; [reflexivity|]. now constructor.
Qed.
