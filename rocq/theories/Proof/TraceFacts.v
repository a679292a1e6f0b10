(** * Reasoning about every state a program passes through *)
From Coq Require Import List.
From Verif Require Import Model.Py Model.Trace.
Import ListNotations.

Lemma last_app {A} (l k : list A) d : List.last (l ++ k) d = List.last k (List.last l d).
Proof.
  destruct k as [|x k _] using rev_ind; [now rewrite app_nil_r|]. now rewrite app_assoc, !last_last.
Qed.

Section trace.
  Context {S : Type}.

  Lemma andthen_err {A B} (p : prog S A) (q : A -> prog S B) s e : result p s = Err e -> andthen p q s = (fst (p s), Err e).
  Proof. unfold andthen, result. destruct (p s) as [t r]. cbn. now intros ->. Qed.
  Lemma andthen_ok {A B} (p : prog S A) (q : A -> prog S B) s a : result p s = Ok a ->
    andthen p q s = ((fst (p s) ++ fst (q a (final p s)))%list, snd (q a (final p s))).
  Proof. unfold andthen, result, final. destruct (p s) as [t r]. cbn. intros ->. now destruct (q a (List.last t s)). Qed.
  Lemma andthen_final {A B} (p : prog S A) (q : A -> prog S B) s a : result p s = Ok a ->
    final (andthen p q) s = final (q a) (final p s).
  Proof. intros H. unfold final at 1. rewrite (andthen_ok p q s a H). cbn. rewrite last_app. reflexivity. Qed.
  Lemma andthen_result {A B} (p : prog S A) (q : A -> prog S B) s b : result (andthen p q) s = Ok b ->
    exists a, result p s = Ok a /\ result (q a) (final p s) = Ok b /\ final (andthen p q) s = final (q a) (final p s).
  Proof.
    intros H. destruct (result p s) as [a|e] eqn:E.
    - exists a. split; [reflexivity|]. split; [|now apply andthen_final]. unfold result in H. rewrite (andthen_ok p q s a E) in H. exact H.
    - unfold result in H. rewrite (andthen_err p q s e E) in H. discriminate H.
  Qed.
  Lemma andthen_raises {A B} (p : prog S A) (q : A -> prog S B) s e : result (andthen p q) s = Err e ->
    (result p s = Err e /\ final (andthen p q) s = final p s) \/
    exists a, result p s = Ok a /\ result (q a) (final p s) = Err e /\ final (andthen p q) s = final (q a) (final p s).
  Proof.
    intros H. destruct (result p s) as [a|e'] eqn:E.
    - right. exists a. split; [reflexivity|]. split; [|now apply andthen_final]. unfold result in H. rewrite (andthen_ok p q s a E) in H. exact H.
    - left. pose proof (andthen_err p q s e' E) as K. unfold result in H. rewrite K in H. cbn in H. injection H as ->. split; [reflexivity|]. unfold final. now rewrite K.
  Qed.
  Lemma final_state {A} (p : prog S A) s : In (final p s) (states p s).
  Proof.
    unfold final, states. destruct (fst (p s)) as [|a t] using rev_ind; [now left|right]. rewrite last_last. apply in_app_iff. right. now left.
  Qed.
  Lemma ask_eq {A B} (f : S -> A) (q : A -> prog S B) s : andthen (ask f) q s = q (f s) s.
  Proof. unfold andthen, ask. cbn. now destruct (q (f s) s). Qed.
  Lemma andthen_states {A B} (p : prog S A) (q : A -> prog S B) s x : In x (states (andthen p q) s) ->
    In x (states p s) \/ exists a, result p s = Ok a /\ In x (states (q a) (final p s)).
  Proof.
    unfold states. destruct (result p s) as [a|e] eqn:E.
    - rewrite (andthen_ok p q s a E). cbn. intros [->|H]; [left; now left|]. apply in_app_iff in H as [H|H]; [left; now right|right].
      exists a. split; [reflexivity|]. now right.
    - rewrite (andthen_err p q s e E). cbn. auto.
  Qed.

  (** From a state with [I] and [P], every state has [I], and a normal end has [Q] *)
  Definition keeps {A} (I P : S -> Prop) (p : prog S A) (Q : A -> S -> Prop) : Prop :=
    forall s, I s -> P s ->
      (forall x, In x (states p s) -> I x) /\ (forall a, result p s = Ok a -> Q a (final p s)).

  Lemma keeps_ret {A} I (P : S -> Prop) (a : A) : keeps I P (ret a) (fun b s => b = a /\ P s).
  Proof. intros s Hi Hp. split; [|]. - intros x [<-|[]]. exact Hi. - intros b H. injection H as <-. now split. Qed.
  Lemma keeps_raise {A} I P e (Q : A -> S -> Prop) : keeps I P (raise e) Q.
  Proof. intros s Hi Hp. split; [|]. - intros x [<-|[]]. exact Hi. - intros b H. discriminate H. Qed.
  Lemma keeps_ask {A} I (P : S -> Prop) (f : S -> A) : keeps I P (ask f) (fun a s => a = f s /\ I s /\ P s).
  Proof. intros s Hi Hp. split; [|]. - intros x [<-|[]]. exact Hi. - intros b H. injection H as <-. now split. Qed.
  Lemma keeps_change (I P Q : S -> Prop) f : (forall s, I s -> P s -> I (f s) /\ Q (f s)) -> keeps I P (change f) (fun _ => Q).
  Proof.
    intros H s Hi Hp. destruct (H s Hi Hp) as [K L]. split.
    - intros x [<-|[<-|[]]]; assumption.
    - intros [] _. exact L.
  Qed.
  Lemma keeps_final {A} I P (p : prog S A) Q s : keeps I P p Q -> I s -> P s -> I (final p s).
  Proof. intros H Hi Hp. apply (H s Hi Hp). apply final_state. Qed.
  Lemma keeps_then {A B} (I P : S -> Prop) (p : prog S A) (Q : A -> S -> Prop) (q : A -> prog S B) R :
    keeps I P p Q -> (forall a, keeps I (Q a) (q a) R) -> keeps I P (andthen p q) R.
  Proof.
    intros Hp Hq s Hi HP. destruct (Hp s Hi HP) as [A1 A2]. split.
    - intros x H. apply andthen_states in H as [H|(a & E & H)]; [now apply A1|].
      destruct (Hq a (final p s)) as [B1 _]; [apply A1, final_state|now apply A2|now apply B1].
    - intros b H. apply andthen_result in H as (a & E & H & ->).
      destruct (Hq a (final p s)) as [_ B2]; [apply A1, final_state|now apply A2|now apply B2].
  Qed.
  (** Reading the state: what is read is the state *)
  Lemma keeps_read {B} (I P : S -> Prop) (q : S -> prog S B) R :
    (forall f, I f -> P f -> keeps I (fun s => s = f) (q f) R) -> keeps I P (andthen (ask (fun s => s)) q) R.
  Proof.
    intros H s Hi HP. destruct (H s Hi HP s Hi eq_refl) as [A1 A2]. unfold states, result, final. rewrite ask_eq. now split.
  Qed.
  Lemma keeps_try {A} (I P : S -> Prop) (p q : prog S A) c Q :
    keeps I P p Q -> keeps I (fun _ => True) q Q -> keeps I P (try_except p c q) Q.
  Proof.
    intros Hp Hq s Hi HP. destruct (Hp s Hi HP) as [A1 A2]. pose proof (A1 _ (final_state p s)) as F.
    destruct (Hq _ F Logic.I) as [B1 B2]. unfold try_except, states, result, final in *. destruct (p s) as [t [a|e]]; cbn [fst snd] in *.
    - split; [exact A1|]. intros b H. now apply A2.
    - destruct (c e).
      + destruct (q (List.last t s)) as [t' r]. cbn [fst snd] in *. split.
        * intros x [<-|H]; [exact Hi|]. apply in_app_iff in H as [H|H]; [apply A1; now right|apply B1; now right].
        * intros b H. rewrite last_app. now apply B2.
      + split; [exact A1|]. intros b H. discriminate H.
  Qed.
  Lemma keeps_weaken {A} (I P P' : S -> Prop) (p : prog S A) (Q Q' : A -> S -> Prop) :
    keeps I P' p Q' -> (forall s, I s -> P s -> P' s) -> (forall a s, I s -> Q' a s -> Q a s) -> keeps I P p Q.
  Proof.
    intros H Hp Hq s Hi HP. destruct (H s Hi (Hp s Hi HP)) as [A1 A2]. split; [exact A1|].
    intros a E. apply Hq; [apply A1, final_state|now apply A2].
  Qed.
  Lemma keeps_each {A} (I P : S -> Prop) (f : A -> prog S unit) l :
    (forall x, keeps I P (f x) (fun _ => P)) -> keeps I P (each f l) (fun _ => P).
  Proof.
    intros H. induction l as [|x l IH]; cbn [each].
    - eapply keeps_weaken; [apply (keeps_ret I P tt)|auto|]. now intros a s _ [_ K].
    - eapply keeps_then; [apply H|]. intros []. exact IH.
  Qed.

  (** The exceptions a program raises *)
  Definition raises_only {A} (p : prog S A) (ok : exn -> Prop) : Prop := forall s e, result p s = Err e -> ok e.
  Lemma raises_then {A B} (p : prog S A) (q : A -> prog S B) ok :
    raises_only p ok -> (forall a, raises_only (q a) ok) -> raises_only (andthen p q) ok.
  Proof. intros Hp Hq s e H. apply andthen_raises in H as [[H _]|(a & _ & H & _)]; [exact (Hp _ _ H)|exact (Hq _ _ _ H)]. Qed.
  Lemma raises_ret {A} (a : A) ok : raises_only (ret a) ok.
  Proof. intros s e H. discriminate H. Qed.
  Lemma raises_ask {A} (f : S -> A) ok : raises_only (ask f) ok.
  Proof. intros s e H. discriminate H. Qed.
  Lemma raises_change f ok : raises_only (change f) ok.
  Proof. intros s e H. discriminate H. Qed.
  Lemma raises_raise {A} e (ok : exn -> Prop) : ok e -> raises_only (A := A) (raise e) ok.
  Proof. intros O s e' H. now injection H as <-. Qed.
  Lemma raises_each {A} (f : A -> prog S unit) l ok : (forall x, raises_only (f x) ok) -> raises_only (each f l) ok.
  Proof. intros H. induction l as [|x l IH]; cbn [each]; [apply raises_ret|]. apply raises_then; [apply H|]. intros []. exact IH. Qed.
  Lemma raises_try {A} (p q : prog S A) c ok : raises_only p ok -> raises_only q ok -> raises_only (try_except p c q) ok.
  Proof.
    intros Hp Hq s e. unfold raises_only, try_except, result in *. specialize (Hp s). destruct (p s) as [t [a|e']]; [discriminate|].
    destruct (c e'); [|apply Hp]. specialize (Hq (List.last t s)). destruct (q (List.last t s)) as [t' r]. apply Hq.
  Qed.
End trace.
