(** * Writing a document and reading it *)
From Coq Require Import String ZArith NArith List Bool.
From stdpp Require Import gmap strings.
From Verif Require Import Model.Py Model.Xml Model.Schema Model.XmlFile Spec.XmlSpec Proof.XmlRound Proof.XmlMain Proof.XmlRead.
Import ListNotations.
Open Scope string_scope.

Lemma write_ok keys lang t o n : write keys lang t o = Ok n <->
  errors lang t o = Ok [] /\ encode keys t o (Elem (match t with Object tag _ _ => tag | _ => "" end) [] []) = Ok (n, []).
Proof.
  unfold write, no_errors. destruct (errors lang t o) as [[|x l]|]; cbn [bind]; [|split; [discriminate|intros [E _]; discriminate E]..].
  destruct (encode keys t o _) as [[m e]|]; cbn [bind fst snd]; [|split; [discriminate|intros [_ E]; discriminate E]].
  destruct e; split; try discriminate; [intros [= ->]; auto|intros [_ [= ->]]; reflexivity|intros [_ E]; discriminate E].
Qed.
Lemma read_plain lang t n o : read no_hook lang t n = Ok o <-> decode t n = Ok (o, []) /\ errors lang t o = Ok [].
Proof.
  unfold read, no_hook, no_errors. destruct (decode t n) as [[o1 e]|]; cbn [bind fst snd]; [|split; [discriminate|intros [E _]; discriminate E]].
  destruct e; [|split; [discriminate|intros [E _]; discriminate E]].
  destruct (errors lang t o1) as [[|x l]|] eqn:E; cbn [bind]; split; try discriminate.
  - intros [= <-]. auto.
  - intros [[= <-] _]. reflexivity.
  - intros [[= <-] H]. congruence.
  - intros [[= <-] H]. congruence.
Qed.

Theorem write_read keys lang t o n : any_order keys -> well_formed t = true -> carried_object t o ->
  write keys lang t o = Ok n -> read no_hook lang t n = Ok o.
Proof.
  intros O WF C W. apply write_ok in W as [E W]. apply read_plain. split; [|exact E]. exact (object_round_trip keys t o _ n O WF C W).
Qed.
Theorem read_write keys lang tag ms h n o : any_order keys -> well_formed (Object tag ms h) = true -> ~ zero_inside (VObj o) ->
  read no_hook lang (Object tag ms h) n = Ok o ->
  exists n', write keys lang (Object tag ms h) o = Ok n' /\ read no_hook lang (Object tag ms h) n' = Ok o.
Proof.
  intros O WF Z R. apply read_plain in R as [D E]. destruct (reread keys tag ms h n o tag O WF D Z) as (n' & W & D').
  exists n'. split; [apply write_ok; auto|apply read_plain; auto].
Qed.
