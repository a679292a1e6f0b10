(** * C106: sizes as they are shown *)
From Coq Require Import String ZArith QArith List Bool Lia.
From Verif Require Import Model.Py Model.Human Spec.HumanSpec Proof.HumanFacts.
Import ListNotations.
Open Scope string_scope.

(** A size that is a float, as a rate of transfer is: what is shown is exactly it, in the right unit. *)
Theorem C106_float (q : Q) (n : num) (u : string) :
  human_readable_size (PFloat q) = (n, u) ->
  says n u q /\ fitting n u /\ human_readable_rate (PFloat q) = (n, u ++ "/s").
Proof. intros H. destruct (float_shown q n u H) as [S F]. repeat split; try apply S; try apply F. unfold human_readable_rate. now rewrite H. Qed.
Print Assumptions C106_float.

(** A size in whole bytes: up to 1000 it is shown exactly, above that less than a kilobyte of it is lost,
    the number shown is at most 1000 below gigabytes, and this is the unit. *)
Theorem C106_whole_partial (z : Z) (n : num) (u : string) :
  human_readable_size (PInt z) = (n, u) ->
  says n u (inject_Z (if (z <=? 1000)%Z then z else 1024 * (z / 1024))) /\
  (forall b, says n u b -> (b <= inject_Z z < b + inject_Z 1024)%Q) /\
  ((value n <= inject_Z 1000)%Q \/ u = "GB") /\ unit_for z u.
Proof.
  intros H. destruct (int_says z n u H) as [S F]. split; [exact S|]. split; [intros b; apply (int_close z n u b H)|]. split; [exact F|exact (int_unit z n u H)].
Qed.
Print Assumptions C106_whole_partial.

(** Above 1000 bytes the order of sizes is that of what is shown. *)
Theorem C106_order_partial (z y : Z) (n m : num) (u v : string) (b c : Q) :
  (1000 < z <= y)%Z -> human_readable_size (PInt z) = (n, u) -> human_readable_size (PInt y) = (m, v) ->
  says n u b -> says m v c -> (b <= c)%Q.
Proof. exact (int_mono z y n u m v b c). Qed.
Print Assumptions C106_order_partial.

(** The total before an installation or upgrade is that of all the packages, if every one of them has its size. *)
Theorem C106_total_partial (l : list Z) :
  total_shown (map Some l) = Ok (human_readable_size (PInt (fold_right Z.add 0 l)%Z)).
Proof. exact (total_ok l). Qed.
Print Assumptions C106_total_partial.

(** A package whose entry has no size, which the format allows, stops the operation. *)
Theorem C106_no_size_refuted (l : list (option Z)) : In None l -> total_shown l = Err EType.
Proof. exact (total_none l). Qed.
Print Assumptions C106_no_size_refuted.

(** Nearly a kilobyte is lost: every size from 1001 to 1023 bytes is shown as nothing, and so as less than 1000 is. *)
Theorem C106_lost_refuted (z : Z) :
  (1000 < z < 1024)%Z ->
  human_readable_size (PInt z) = (PFloat (inject_Z 0), "KB") /\ human_readable_size (PInt 1000) = (PInt 1000, " B").
Proof.
  intros L. split; [|reflexivity]. destruct (int_cases z ltac:(lia)) as [(_ & ->)|[(A & _)|(A & _)]]; rewrite (Z.div_small z 1024 ltac:(lia)) in *; [reflexivity|lia|lia].
Qed.
Print Assumptions C106_lost_refuted.

(** 2047 bytes are shown as 1 kilobyte, though two figures after the point are printed. *)
Theorem C106_rounding_refuted :
  human_readable_size (PInt 2047) = (PFloat (inject_Z 1), "KB") /\
  human_readable_size (PFloat (inject_Z 2047)) = (PFloat (inject_Z 2047 / inject_Z 1024), "KB").
Proof. split; reflexivity. Qed.
Print Assumptions C106_rounding_refuted.

(** ** The hypotheses are met *)
Example C106_nontrivial :
  (exists n, human_readable_size (PInt 1536000) = (n, "MB") /\ says n "MB" (inject_Z 1536000) /\ (1 < value n < 2)%Q) /\
  (exists n, human_readable_size (PInt 5000000000000) = (n, "GB") /\ (4656 < value n < 4657)%Q) /\
  (exists n, human_readable_rate (PFloat (1025 # 2)) = (n, " B/s") /\ value n = (1025 # 2)) /\
  (exists n, total_shown [Some 700; Some 900]%Z = Ok (n, "KB") /\ says n "KB" (inject_Z 1024)) /\
  total_shown [Some 700%Z; None; Some 900%Z] = Err EType /\
  ~ (exists n u, human_readable_size (PInt 2047) = (n, u) /\ says n u (inject_Z 2047)).
Proof.
  split; [eexists; split; [vm_compute; reflexivity|]; split; [eexists; split; [constructor|reflexivity]|split; reflexivity]|].
  split; [eexists; split; [vm_compute; reflexivity|split; reflexivity]|].
  split; [eexists; split; [vm_compute; reflexivity|reflexivity]|].
  split; [eexists; split; [vm_compute; reflexivity|eexists; split; [constructor|reflexivity]]|].
  split; [reflexivity|].
  intros (n & u & H & S). destruct (int_says 2047 n u H) as [T _]. pose proof (says_fun n u _ _ S T) as E. vm_compute in E. discriminate.
Qed.
