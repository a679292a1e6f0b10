From Coq Require Import String ZArith QArith Lqa List Bool Lia.
From Verif Require Import Model.Py Model.Human Spec.HumanSpec.
Import ListNotations.
Open Scope string_scope.

Lemma over_value n : over_1000 n = true <-> (inject_Z 1000 < value n)%Q.
Proof.
  destruct n as [z|q]; cbn [over_1000 value].
  - rewrite Z.ltb_lt, <- Zlt_Qlt. lia.
  - rewrite negb_true_iff. destruct (Qle_bool q (inject_Z 1000)) eqn:E.
    + apply Qle_bool_iff in E. split; [discriminate|lra].
    + split; [intros _|easy]. destruct (Qlt_le_dec (inject_Z 1000) q) as [|L]; [easy|]. apply Qle_bool_iff in L. congruence.
Qed.

Lemma not_over_value n : over_1000 n = false <-> (value n <= inject_Z 1000)%Q.
Proof.
  destruct (over_1000 n) eqn:E.
  - apply over_value in E. split; [discriminate|lra].
  - split; [intros _|easy]. destruct (Qlt_le_dec (inject_Z 1000) (value n)) as [L|]; [|easy]. apply over_value in L. congruence.
Qed.

(** The loop on floats. *)
Lemma float_cases q :
  let k := inject_Z 1024 in
  (q <= inject_Z 1000 /\ human_readable_size (PFloat q) = (PFloat q, " B") \/
   inject_Z 1000 < q /\ q / k <= inject_Z 1000 /\ human_readable_size (PFloat q) = (PFloat (q / k), "KB") \/
   inject_Z 1000 < q / k /\ q / k / k <= inject_Z 1000 /\ human_readable_size (PFloat q) = (PFloat (q / k / k), "MB") \/
   inject_Z 1000 < q / k / k /\ human_readable_size (PFloat q) = (PFloat (q / k / k / k), "GB"))%Q.
Proof.
  intros k. unfold human_readable_size. cbn [shrink].
  destruct (over_1000 (PFloat q)) eqn:A; [|left; split; [now apply not_over_value in A|reflexivity]].
  cbn [div_1024 to_float]. fold k. destruct (over_1000 (PFloat (q / k))) eqn:B.
  2: { right; left. repeat split; [now apply over_value in A|now apply not_over_value in B]. }
  cbn [div_1024 to_float]. fold k. destruct (over_1000 (PFloat (q / k / k))) eqn:C.
  2: { right; right; left. repeat split; [now apply over_value in B|now apply not_over_value in C]. }
  right; right; right. split; [now apply over_value in C|reflexivity].
Qed.

Lemma back q : (q / inject_Z 1024 * inject_Z 1024 == q)%Q.
Proof. field. Qed.

Lemma float_shown q n u :
  human_readable_size (PFloat q) = (n, u) -> says n u q /\ fitting n u.
Proof.
  intros H. pose proof (float_cases q) as C. cbv zeta in C.
  pose proof (back q) as B1. pose proof (back (q / inject_Z 1024)) as B2. pose proof (back (q / inject_Z 1024 / inject_Z 1024)) as B3.
  set (a := (q / inject_Z 1024)%Q) in *. set (b := (a / inject_Z 1024)%Q) in *. set (c := (b / inject_Z 1024)%Q) in *.
  destruct C as [(L & E)|[(L & R & E)|[(L & R & E)|(L & E)]]]; rewrite E in H; injection H as <- <-;
    unfold says, fitting; cbn [value];
    (split; [eexists; split; [constructor|]|split]); change (inject_Z 1) with 1%Q; try change (inject_Z (1024 * 1024)) with (inject_Z 1024 * inject_Z 1024)%Q; try change (inject_Z (1024 * 1024 * 1024)) with (inject_Z 1024 * inject_Z 1024 * inject_Z 1024)%Q; auto; try lra.
  - rewrite Qmult_assoc. rewrite B2. exact B1.
  - rewrite !Qmult_assoc. rewrite B3, B2. exact B1.
Qed.

(** The first step on whole numbers. *)
Lemma int_small z : (z <= 1000)%Z -> human_readable_size (PInt z) = (PInt z, " B").
Proof. intros L. unfold human_readable_size. cbn [shrink over_1000]. now replace (1000 <? z)%Z with false by (symmetry; apply Z.ltb_ge; lia). Qed.

Lemma int_cases z :
  (1000 < z)%Z ->
  let w := (z / 1024)%Z in let k := inject_Z 1024 in
  (w <= 1000)%Z /\ human_readable_size (PInt z) = (PFloat (inject_Z w), "KB") \/
  (1000 < w <= 1000 * 1024)%Z /\ human_readable_size (PInt z) = (PFloat (inject_Z w / k), "MB") \/
  (1000 * 1024 < w)%Z /\ human_readable_size (PInt z) = (PFloat (inject_Z w / k / k), "GB").
Proof.
  intros L w k. unfold human_readable_size. cbn [shrink over_1000]. replace (1000 <? z)%Z with true by (symmetry; apply Z.ltb_lt; lia).
  cbn [div_1024 to_float]. fold w. fold k.
  destruct (over_1000 (PFloat (inject_Z w))) eqn:B.
  2: { left. apply not_over_value in B. cbn [value] in B. rewrite <- Zle_Qle in B. auto. }
  apply over_value in B. cbn [value] in B. rewrite <- Zlt_Qlt in B.
  cbn [div_1024 to_float]. fold k.
  pose proof (back (inject_Z w)) as E. fold k in E.
  destruct (over_1000 (PFloat (inject_Z w / k))) eqn:C.
  - right; right. apply over_value in C. cbn [value] in C. split; [|reflexivity].
    rewrite Zlt_Qlt, inject_Z_mult. fold k. rewrite <- E. apply Qmult_lt_r; [reflexivity|exact C].
  - right; left. apply not_over_value in C. cbn [value] in C. split; [|reflexivity]. split; [exact B|].
    rewrite Zle_Qle, inject_Z_mult. fold k. rewrite <- E. apply Qmult_le_r; [reflexivity|exact C].
Qed.

Lemma int_unit z n u : human_readable_size (PInt z) = (n, u) -> unit_for z u.
Proof.
  intros H. unfold unit_for. destruct (Z.le_gt_cases z 1000) as [L|L].
  - rewrite (int_small z L) in H. injection H as <- <-. repeat split; intros; try discriminate; lia.
  - pose proof (Z.div_mod z 1024 ltac:(lia)) as D. pose proof (Z.mod_pos_bound z 1024 ltac:(lia)) as M.
    destruct (int_cases z ltac:(lia)) as [(A & E)|[(A & E)|(A & E)]]; rewrite E in H; injection H as <- <-; repeat split; intros; try discriminate; lia.
Qed.

Lemma int_says z n u :
  human_readable_size (PInt z) = (n, u) ->
  says n u (inject_Z (if (z <=? 1000)%Z then z else 1024 * (z / 1024))) /\ ((value n <= inject_Z 1000)%Q \/ u = "GB").
Proof.
  intros H. destruct (Z.leb_spec z 1000) as [L|L].
  - rewrite (int_small z L) in H. injection H as <- <-. unfold says. cbn [value]. split; [|left; now rewrite <- Zle_Qle].
    eexists. split; [constructor|]. change (inject_Z 1) with 1%Q. lra.
  - pose proof (back (inject_Z (z / 1024))) as B1. pose proof (back (inject_Z (z / 1024) / inject_Z 1024)) as B2.
    rewrite inject_Z_mult. unfold says.
    destruct (int_cases z L) as [(A & E)|[(A & E)|(A & E)]]; rewrite E in H; injection H as <- <-; cbn [value];
      (split; [eexists; split; [constructor|]|]).
    + lra.
    + left. now rewrite <- Zle_Qle.
    + change (inject_Z (1024 * 1024)) with (inject_Z 1024 * inject_Z 1024)%Q. rewrite Qmult_assoc, B1. lra.
    + left. destruct A as [_ A]. rewrite Zle_Qle, inject_Z_mult, <- B1 in A. apply Qmult_le_r in A; [exact A|reflexivity].
    + change (inject_Z (1024 * 1024 * 1024)) with (inject_Z 1024 * inject_Z 1024 * inject_Z 1024)%Q. rewrite !Qmult_assoc, B2, B1. lra.
    + now right.
Qed.

Lemma unit_bytes_fun u k j : unit_bytes u k -> unit_bytes u j -> k = j.
Proof. intros [] H; inversion H; reflexivity. Qed.

Lemma says_fun n u a b : says n u a -> says n u b -> (a == b)%Q.
Proof. intros (k & K & <-) (j & J & <-). now rewrite (unit_bytes_fun u k j K J). Qed.

(** How much is lost. *)
Lemma int_close z n u b :
  human_readable_size (PInt z) = (n, u) -> says n u b -> (b <= inject_Z z < b + inject_Z 1024)%Q.
Proof.
  intros H S. destruct (int_says z n u H) as [T _]. rewrite (says_fun n u _ _ S T). rewrite <- inject_Z_plus, <- Zle_Qle, <- Zlt_Qlt.
  pose proof (Z.div_mod z 1024 ltac:(lia)) as D. pose proof (Z.mod_pos_bound z 1024 ltac:(lia)) as M.
  destruct (z <=? 1000)%Z; lia.
Qed.

(** Above 1000 bytes more is never shown as less. *)
Lemma int_mono z y n u m v b c :
  (1000 < z <= y)%Z -> human_readable_size (PInt z) = (n, u) -> human_readable_size (PInt y) = (m, v) -> says n u b -> says m v c -> (b <= c)%Q.
Proof.
  intros L H K S T. destruct (int_says z n u H) as [S' _]. destruct (int_says y m v K) as [T' _].
  rewrite (says_fun n u _ _ S S'), (says_fun m v _ _ T T'). rewrite <- Zle_Qle.
  destruct (Z.leb_spec z 1000); [lia|]. destruct (Z.leb_spec y 1000); [lia|].
  pose proof (Z.div_le_mono z y 1024 ltac:(lia) ltac:(lia)). lia.
Qed.

Lemma sum_ok l acc : sum_from acc (map Some l) = Ok (fold_left Z.add l acc).
Proof. revert acc. induction l as [|z l IH]; intros acc; cbn; [reflexivity|apply IH]. Qed.

Lemma sum_total l acc : fold_left Z.add l acc = (acc + fold_right Z.add 0 l)%Z.
Proof. revert acc. induction l as [|z l IH]; intros acc; cbn; [lia|]. rewrite IH. lia. Qed.

Lemma total_ok l : total_shown (map Some l) = Ok (human_readable_size (PInt (fold_right Z.add 0 l)%Z)).
Proof. unfold total_shown. now rewrite sum_ok, sum_total. Qed.

Lemma sum_none l acc : In None l -> sum_from acc l = Err EType.
Proof. revert acc. induction l as [|[z|] l IH]; intros acc H; cbn; [destruct H|destruct H as [H|H]; [discriminate|auto]|reflexivity]. Qed.

Lemma total_none l : In None l -> total_shown l = Err EType.
Proof. intros H. unfold total_shown. now rewrite (sum_none l 0 H). Qed.
