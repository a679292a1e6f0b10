(** * One instance at a time *)
From Coq Require Import String Ascii List Bool Arith Lia.
From stdpp Require Import gmap strings.
From Verif Require Import Model.Locks Spec.LocksSpec Proof.PyFacts.
Import ListNotations.
Open Scope list_scope.

(** ** Where an instance is *)
Inductive phase := Out | Mid | Within.
Fixpoint ok (ph : phase) (l : list act) : Prop :=
  match l with
  | [] => ph = Out
  | a :: l =>
      match ph, a with
      | Out, Stamp _ => ok Out l
      | Out, Open f => f = env /\ ok Mid l
      | Mid, Flock f => f = env /\ ok Within l
      | Within, Close f => if String.eqb f env then ok Out l else ok Within l
      | Within, Open f => f <> env /\ ok Within l
      | Within, Flock f => f <> env /\ ok Within l
      | Within, Unlink f => f <> env /\ ok Within l
      | Within, Modify _ => ok Within l
      | _, _ => False
      end
  end.
Lemma lock_not_env d : lock_of d <> env.
Proof.
  unfold lock_of, env. intros H. apply (f_equal (fun s => nth 5 (rev (list_ascii_of_string s)) " "%char)) in H.
  assert (G : forall s t, 6 <= length (list_ascii_of_string t) -> nth 5 (rev (list_ascii_of_string (String.append s t))) " "%char = nth 5 (rev (list_ascii_of_string t)) " "%char).
  { intros s t L. rewrite los_app, rev_app_distr. apply app_nth1. now rewrite rev_length. }
  rewrite G in H by (vm_compute; lia). vm_compute in H. discriminate H.
Qed.
Lemma stamps_ok l r : ok Out (map Stamp l ++ r) <-> ok Out r.
Proof. induction l as [|x l IH]; [reflexivity|exact IH]. Qed.
Lemma opens_ok l r : ok Within r -> ok Within (flat_map (fun d => [Open (lock_of d); Flock (lock_of d); Modify d]) l ++ r).
Proof. intros H. induction l as [|x l IH]; [exact H|]. cbn [flat_map app ok]. auto using lock_not_env. Qed.
Lemma changes_ok l r : ok Within r -> ok Within (map Modify l ++ r).
Proof. intros H. induction l as [|x l IH]; [exact H|exact IH]. Qed.
Lemma closes_ok l r : ok Within r -> ok Within (flat_map (fun d => [Close (lock_of d); Unlink (lock_of d)]) l ++ r).
Proof. intros H. induction l as [|x l IH]; [exact H|]. cbn [flat_map app ok]. pose proof (lock_not_env x) as N. apply String.eqb_neq in N as ->. auto using lock_not_env. Qed.
Lemma session_ok x r : ok Out r -> ok Out (session_acts x ++ r).
Proof.
  intros H. unfold session_acts. rewrite <- !app_assoc. apply stamps_ok. cbn [app ok]. split; [reflexivity|]. split; [reflexivity|]. apply opens_ok, changes_ok, closes_ok. cbn [app ok]. now rewrite String.eqb_refl.
Qed.
Lemma command_ok l : ok Out (command l).
Proof. induction l as [|x l IH]; [reflexivity|]. cbn [command flat_map]. now apply session_ok. Qed.

Lemma at_work_phase P ph : ok ph (p_todo P) -> (at_work P <-> ph = Within).
Proof.
  unfold at_work. generalize (p_todo P) as l. intros l. revert ph. induction l as [|a l IH]; intros ph H.
  - cbn in H. subst ph. split; [|discriminate]. intros (pre & post & E & _). destruct pre; discriminate E.
  - assert (G : forall ph', ok ph' l -> a <> Close env -> a <> Flock env -> ((exists pre post, a :: l = pre ++ Close "dbenv.lock" :: post /\ ~ In (Flock "dbenv.lock") pre) <-> ph' = Within)).
    { intros ph' H' N1 N2. rewrite <- (IH ph' H'). split; intros (pre & post & E & N).
      - destruct pre as [|b pre]; [injection E as -> ->; now elim N1|]. injection E as -> ->. exists pre, post. split; [reflexivity|]. intros K. apply N. now right.
      - exists (a :: pre), post. cbn [app]. rewrite E. split; [reflexivity|]. intros [K|K]; [now elim N2|now apply N]. }
    destruct a as [f|f|f|d|f|f]; cbn [ok] in H.
    + destruct ph; try contradiction H. apply G; [exact H|discriminate|discriminate].
    + destruct ph; try contradiction H; destruct H as [Hf H].
      * rewrite (G Mid H) by discriminate. split; discriminate.
      * apply G; [exact H|discriminate|discriminate].
    + destruct ph; try contradiction H; destruct H as [Hf H].
      * subst f. split; [|discriminate]. intros (pre & post & E & N). destruct pre as [|b pre]; [discriminate E|]. injection E as <- _. elim N. now left.
      * apply G; [exact H|discriminate|]. intros [= ->]. now elim Hf.
    + destruct ph; try contradiction H. apply G; [exact H|discriminate|discriminate].
    + destruct ph; try contradiction H. destruct (String.eqb_spec f env) as [->|N].
      * split; [reflexivity|]. intros _. exists [], l. split; [reflexivity|]. intros [].
      * apply G; [exact H|intros [= ->]; now elim N|discriminate].
    + destruct ph; try contradiction H. destruct H as [_ H]. apply G; [exact H|discriminate|discriminate].
Qed.

(** ** Open files *)
Definition opened_by (P : proc) (o : nat) : Prop := (exists f, p_fds P !! f = Some o) \/ In o (p_kept P).
Lemma has_open_iff P o : has_open P o = true <-> opened_by P o.
Proof.
  unfold has_open, opened_by. rewrite orb_true_iff, !existsb_exists. split; (intros [H|H]; [left|right]).
  - destruct H as ([f o'] & I & E). apply Nat.eqb_eq in E. cbn in E. subst o'. exists f. apply elem_of_list_In, elem_of_map_to_list in I. exact I.
  - destruct H as (x & I & E). apply Nat.eqb_eq in E. now subst x.
  - destruct H as [f H]. exists (f, o). split; [|apply Nat.eqb_refl]. apply elem_of_list_In, elem_of_map_to_list. exact H.
  - exists o. split; [exact H|apply Nat.eqb_refl].
Qed.
Lemma alive_iff s o : alive s o = true <-> exists p P, s_procs s !! p = Some P /\ opened_by P o.
Proof.
  unfold alive. rewrite existsb_exists. split.
  - intros ([p P] & I & H). apply has_open_iff in H. apply elem_of_list_In, elem_of_map_to_list in I. eauto.
  - intros (p & P & I & H). exists (p, P). split; [|now apply has_open_iff]. apply elem_of_list_In, elem_of_map_to_list. exact I.
Qed.

(** ** The invariant *)
Definition holds (s : system) (P : proc) : Prop := exists o i, p_fds P !! env = Some o /\ s_dir s !! env = Some i /\ s_locks s !! i = Some o.
Definition stands (s : system) (P : proc) (ph : phase) : Prop :=
  match ph with
  | Out => p_fds P !! env = None
  | Mid => exists o, p_fds P !! env = Some o /\ forall i, s_locks s !! i <> Some o
  | Within => holds s P
  end.
Record sane (s : system) : Prop := mkSane {
  n_fds : forall p P f o, s_procs s !! p = Some P -> p_fds P !! f = Some o -> o < s_next s /\ exists i, s_open s !! o = Some i /\ (s_dir s !! env = Some i <-> f = env);
  n_kept : forall p P o, s_procs s !! p = Some P -> In o (p_kept P) -> o < s_next s;
  n_open : forall o i, s_open s !! o = Some i -> i < s_next s;
  n_dir : forall f i, s_dir s !! f = Some i -> i < s_next s;
  n_names : forall f f' i, s_dir s !! f = Some i -> s_dir s !! f' = Some i -> f = f';
  n_locks : forall i o, s_locks s !! i = Some o -> o < s_next s;
  n_locked : forall i o, s_locks s !! i = Some o -> s_open s !! o = Some i;
  n_own : forall p P f q Q g o, s_procs s !! p = Some P -> s_procs s !! q = Some Q -> p_fds P !! f = Some o -> p_fds Q !! g = Some o -> p = q /\ f = g;
  n_phase : forall p P, s_procs s !! p = Some P -> exists ph, ok ph (p_todo P) /\ stands s P ph
}.
Lemma start_sane : sane start.
Proof. constructor; intros; try (match goal with H : _ !! _ = Some _ |- _ => discriminate H end). Qed.

(** another process next to sane ones *)
Lemma new_sane s q kept todo : sane s -> s_procs s !! q = None -> ok Out todo -> (forall o, In o kept -> o < s_next s) ->
  sane (set_proc s q (mkProc ∅ kept [] todo)).
Proof.
  intros [A1 A2 A3 A4 A5 A8 A9 A6 A7] N T K. constructor; cbn [set_proc s_dir s_open s_locks s_procs s_next]; auto.
  - intros p P f o H. apply lookup_insert_Some in H as [[<- <-]|[_ H]]; [cbn; intros G; discriminate G|]. eauto.
  - intros p P o H. apply lookup_insert_Some in H as [[<- <-]|[_ H]]; [apply K|]. eauto.
  - intros p P f q' Q g o H H'. apply lookup_insert_Some in H as [[<- <-]|[_ H]]; [cbn; intros G; discriminate G|]. apply lookup_insert_Some in H' as [[<- <-]|[_ H']]; [cbn; intros _ G; discriminate G|]. eauto.
  - intros p P H. apply lookup_insert_Some in H as [[<- <-]|[_ H]]; [exists Out; split; [exact T|apply lookup_empty]|]. exact (A7 p P H).
Qed.
Lemma drop_sane s p P kept : sane s -> s_procs s !! p = Some P -> (forall o, In o kept -> In o (p_kept P)) -> sane (set_proc s p (mkProc (p_fds P) kept (p_done P) (p_todo P))).
Proof.
  intros [A1 A2 A3 A4 A5 A8 A9 A6 A7] N K. constructor; cbn [set_proc s_dir s_open s_locks s_procs s_next]; auto.
  - intros q Q f o H. apply lookup_insert_Some in H as [[<- <-]|[_ H]]; eauto.
  - intros q Q o H. apply lookup_insert_Some in H as [[<- <-]|[_ H]]; [|eauto]. intros I. apply (A2 p P); auto.
  - intros q Q f q' Q' g o H H'. apply lookup_insert_Some in H as [[<- <-]|[_ H]]; apply lookup_insert_Some in H' as [[<- <-]|[_ H']]; eauto.
  - intros q Q H. apply lookup_insert_Some in H as [[<- <-]|[_ H]]; [|exact (A7 q Q H)]. exact (A7 p P N).
Qed.
Lemma end_sane s p : sane s -> sane (mkSystem (s_dir s) (s_open s) (s_locks s) (delete p (s_procs s)) (s_next s)).
Proof.
  intros [A1 A2 A3 A4 A5 A8 A9 A6 A7]. constructor; cbn [s_dir s_open s_locks s_procs s_next]; auto.
  - intros q Q f o H. apply lookup_delete_Some in H as [_ H]. eauto.
  - intros q Q o H. apply lookup_delete_Some in H as [_ H]. eauto.
  - intros q Q f q' Q' g o H H'. apply lookup_delete_Some in H as [_ H]. apply lookup_delete_Some in H' as [_ H']. eauto.
  - intros q Q H. apply lookup_delete_Some in H as [_ H]. exact (A7 q Q H).
Qed.

(** the next action *)
Lemma quiet_sane s p P a rest ph : sane s -> s_procs s !! p = Some P -> ok ph rest -> stands s P ph ->
  sane (set_proc s p (mkProc (p_fds P) (p_kept P) (p_done P ++ [a]) rest)).
Proof.
  intros [A1 A2 A3 A4 A5 A8 A9 A6 A7] N T H. constructor; cbn [set_proc s_dir s_open s_locks s_procs s_next]; auto.
  - intros q Q f o G. apply lookup_insert_Some in G as [[<- <-]|[_ G]]; eauto.
  - intros q Q o G. apply lookup_insert_Some in G as [[<- <-]|[_ G]]; [|eauto]. apply (A2 p P); auto.
  - intros q Q f q' Q' g o G G'. apply lookup_insert_Some in G as [[<- <-]|[_ G]]; apply lookup_insert_Some in G' as [[<- <-]|[_ G']]; eauto.
  - intros q Q G. apply lookup_insert_Some in G as [[<- <-]|[_ G]]; [|exact (A7 q Q G)]. exists ph. auto.
Qed.
Lemma close_sane s p P f a rest ph : sane s -> s_procs s !! p = Some P -> ok ph rest -> match ph with Out => f = env | Mid => False | Within => f <> env /\ holds s P end ->
  sane (set_proc s p (mkProc (delete f (p_fds P)) (p_kept P) (p_done P ++ [a]) rest)).
Proof.
  intros [A1 A2 A3 A4 A5 A8 A9 A6 A7] N T H. constructor; cbn [set_proc s_dir s_open s_locks s_procs s_next]; auto.
  - intros q Q g o G. apply lookup_insert_Some in G as [[<- <-]|[_ G]]; [|eauto]. cbn [p_fds]. intros K. apply lookup_delete_Some in K as [_ K]. eauto.
  - intros q Q o G. apply lookup_insert_Some in G as [[<- <-]|[_ G]]; [|eauto]. apply (A2 p P); auto.
  - intros q Q g q' Q' g' o G G' K K'.
    assert (B : exists Q0, s_procs s !! q = Some Q0 /\ p_fds Q0 !! g = Some o) by (apply lookup_insert_Some in G as [[<- <-]|[_ G]]; [cbn in K; apply lookup_delete_Some in K as [_ K]; eauto|eauto]).
    assert (B' : exists Q0, s_procs s !! q' = Some Q0 /\ p_fds Q0 !! g' = Some o) by (apply lookup_insert_Some in G' as [[<- <-]|[_ G']]; [cbn in K'; apply lookup_delete_Some in K' as [_ K']; eauto|eauto]).
    destruct B as (? & ? & ?), B' as (? & ? & ?). eauto.
  - intros q Q G. apply lookup_insert_Some in G as [[<- <-]|[_ G]]; [|exact (A7 q Q G)]. exists ph. split; [exact T|]. destruct ph; [subst f; apply lookup_delete|contradiction H|]. destruct H as [Nf (o & i & H1 & H2 & H3)]. exists o, i. cbn [p_fds set_proc s_dir s_locks]. rewrite lookup_delete_ne by congruence. auto.
Qed.
Lemma unlink_sane s p P f a rest : sane s -> s_procs s !! p = Some P -> ok Within rest -> f <> env -> holds s P ->
  sane (set_proc (mkSystem (delete f (s_dir s)) (s_open s) (s_locks s) (s_procs s) (s_next s)) p (mkProc (p_fds P) (p_kept P) (p_done P ++ [a]) rest)).
Proof.
  intros [A1 A2 A3 A4 A5 A8 A9 A6 A7] N T Nf H. assert (Fd : forall x, delete f (s_dir s) !! env = x <-> s_dir s !! env = x) by (intros x; now rewrite lookup_delete_ne by congruence).
  constructor; cbn [set_proc s_dir s_open s_locks s_procs s_next]; auto.
  - intros q Q g o G K. assert (B : exists Q0, s_procs s !! q = Some Q0 /\ p_fds Q0 !! g = Some o) by (apply lookup_insert_Some in G as [[<- <-]|[_ G]]; eauto). destruct B as (Q0 & B1 & B2). destruct (A1 _ _ _ _ B1 B2) as (C1 & i & C2 & C3). split; [exact C1|]. exists i. rewrite Fd. auto.
  - intros q Q o G. apply lookup_insert_Some in G as [[<- <-]|[_ G]]; [|eauto]. apply (A2 p P); auto.
  - intros g i G. apply lookup_delete_Some in G as [_ G]. eauto.
  - intros g g' i G G'. apply lookup_delete_Some in G as [_ G]. apply lookup_delete_Some in G' as [_ G']. eauto.
  - intros q Q g q' Q' g' o G G'. apply lookup_insert_Some in G as [[<- <-]|[_ G]]; apply lookup_insert_Some in G' as [[<- <-]|[_ G']]; eauto.
  - assert (W : forall Q, holds s Q -> forall Q', p_fds Q' = p_fds Q -> holds (set_proc (mkSystem (delete f (s_dir s)) (s_open s) (s_locks s) (s_procs s) (s_next s)) p (mkProc (p_fds P) (p_kept P) (p_done P ++ [a]) rest)) Q').
    { intros Q (o & i & H1 & H2 & H3) Q' E. exists o, i. rewrite E. cbn [set_proc s_dir s_locks]. rewrite Fd. auto. }
    intros q Q G. apply lookup_insert_Some in G as [[<- <-]|[_ G]].
    + exists Within. split; [exact T|]. eapply W; [exact H|reflexivity].
    + destruct (A7 q Q G) as (ph & B & C). exists ph. split; [exact B|]. destruct ph; auto. eapply W; [exact C|reflexivity].
Qed.
(** opening: [i] is the file, [o] the open file; the file is new or known *)
Lemma open_sane s p P f a rest ph d' i o : sane s -> s_procs s !! p = Some P -> s_next s <= o -> i < S o ->
  ((s_dir s !! f = Some i /\ d' = s_dir s) \/ (s_dir s !! f = None /\ s_next s <= i /\ d' = <[f := i]> (s_dir s))) ->
  ok ph rest -> match ph with Out => False | Mid => f = env | Within => f <> env /\ holds s P end ->
  sane (set_proc (mkSystem d' (<[o := i]> (s_open s)) (s_locks s) (s_procs s) (S o)) p (mkProc (<[f := o]> (p_fds P)) (p_kept P) (p_done P ++ [a]) rest)).
Proof.
  intros [A1 A2 A3 A4 A5 A8 A9 A6 A7] N Lo Li D T H.
  assert (Df : d' !! f = Some i) by (destruct D as [[D ->]|(D & _ & ->)]; [exact D|apply lookup_insert]).
  assert (Dm : forall g j, s_dir s !! g = Some j -> d' !! g = Some j) by (intros g j G; destruct D as [[D ->]|(D & _ & ->)]; [exact G|]; rewrite lookup_insert_ne; [exact G|congruence]).
  assert (Dn : forall j, d' !! env = Some j -> s_dir s !! env = Some j \/ (f = env /\ j = i /\ (s_dir s !! env = None -> s_next s <= i))).
  { intros j G. destruct D as [[D ->]|(D & D' & ->)]; [now left|]. apply lookup_insert_Some in G as [[<- <-]|[_ G]]; [|now left]. right. auto. }
  assert (Own : forall q Q g, <[p := mkProc (<[f := o]> (p_fds P)) (p_kept P) (p_done P ++ [a]) rest]> (s_procs s) !! q = Some Q -> forall x, p_fds Q !! g = Some x ->
    (q = p /\ g = f /\ x = o) \/ exists Q0, s_procs s !! q = Some Q0 /\ p_fds Q0 !! g = Some x).
  { intros q Q g G x K. apply lookup_insert_Some in G as [[<- <-]|[_ G]]; [|eauto]. cbn [p_fds] in K. apply lookup_insert_Some in K as [[<- <-]|[_ K]]; [now left|eauto]. }
  constructor; cbn [set_proc s_dir s_open s_locks s_procs s_next].
  - intros q Q g x G K. destruct (Own q Q g G x K) as [(-> & -> & ->)|(Q0 & B1 & B2)].
    + split; [lia|]. exists i. rewrite lookup_insert. split; [reflexivity|]. split; [|intros <-; exact Df]. intros E. destruct D as [[D ->]|(D & D' & ->)]; [now apply (A5 f env i)|].
      apply lookup_insert_Some in E as [[E _]|[_ E]]; [exact E|]. apply A4 in E. lia.
    + destruct (A1 _ _ _ _ B1 B2) as (C1 & j & C2 & C3). split; [lia|]. exists j. rewrite lookup_insert_ne by lia. split; [exact C2|]. rewrite <- C3. split; [|apply Dm].
      intros E. destruct (Dn j E) as [E'|(Ef & -> & E')]; [exact E'|]. destruct (s_dir s !! env) as [k|] eqn:Ek.
      * rewrite (Dm env k Ek) in E. congruence.
      * apply A3 in C2. specialize (E' eq_refl). lia.
  - intros q Q x G I. assert (x < s_next s); [|lia]. apply lookup_insert_Some in G as [[<- <-]|[_ G]]; eauto.
  - intros x j G. apply lookup_insert_Some in G as [[_ <-]|[_ G]]; [exact Li|]. apply A3 in G. lia.
  - intros g j G. destruct D as [[D ->]|(D & D' & ->)]; [apply A4 in G; lia|]. apply lookup_insert_Some in G as [[_ <-]|[_ G]]; [exact Li|]. apply A4 in G. lia.
  - intros g g' j G G'. destruct D as [[D ->]|(D & D' & ->)]; [eauto|]. apply lookup_insert_Some in G as [[<- <-]|[_ G]]; apply lookup_insert_Some in G' as [[<- E]|[_ G']]; auto.
    + apply A4 in G'. lia.
    + subst j. apply A4 in G. lia.
    + eauto.
  - intros j x G. apply A8 in G. lia.
  - intros j x G. rewrite lookup_insert_ne; [now apply A9|]. apply A8 in G. lia.
  - intros q Q g q' Q' g' x G G' K K'. destruct (Own q Q g G x K) as [(-> & -> & ->)|(Q0 & B1 & B2)]; destruct (Own q' Q' g' G' _ K') as [(-> & -> & E)|(Q1 & B1' & B2')]; auto.
    + destruct (A1 _ _ _ _ B1' B2') as [C _]. lia.
    + subst x. destruct (A1 _ _ _ _ B1 B2) as [C _]. lia.
    + eauto.
  - assert (W : forall Q Q', holds s Q -> p_fds Q' !! env = p_fds Q !! env -> holds (set_proc (mkSystem d' (<[o := i]> (s_open s)) (s_locks s) (s_procs s) (S o)) p (mkProc (<[f := o]> (p_fds P)) (p_kept P) (p_done P ++ [a]) rest)) Q').
    { intros Q Q' (x & j & H1 & H2 & H3) E. exists x, j. rewrite E. cbn [set_proc s_dir s_locks]. auto. }
    intros q Q G. apply lookup_insert_Some in G as [[<- <-]|[_ G]].
    + exists ph. split; [exact T|]. destruct ph; [contradiction H| |].
      * subst f. exists o. cbn [p_fds]. rewrite lookup_insert. split; [reflexivity|]. intros j G'. apply A8 in G'. lia.
      * destruct H as [Nf H]. apply (W P); [exact H|]. cbn [p_fds]. now rewrite lookup_insert_ne by congruence.
    + destruct (A7 q Q G) as (ph' & B & C). exists ph'. split; [exact B|]. destruct ph'; auto. now apply (W Q).
Qed.
Lemma flock_sane s p P f a rest o i : sane s -> s_procs s !! p = Some P -> p_fds P !! f = Some o -> s_open s !! o = Some i -> busy s i o = false ->
  ok Within rest -> (f <> env -> holds s P) ->
  sane (set_proc (mkSystem (s_dir s) (s_open s) (<[i := o]> (s_locks s)) (s_procs s) (s_next s)) p (mkProc (p_fds P) (p_kept P) (p_done P ++ [a]) rest)).
Proof.
  intros Sa N F Op B T H. pose proof Sa as [A1 A2 A3 A4 A5 A8 A9 A6 A7]. constructor; cbn [set_proc s_dir s_open s_locks s_procs s_next]; auto.
  - intros q Q g x G. apply lookup_insert_Some in G as [[<- <-]|[_ G]]; eauto.
  - intros q Q x G. apply lookup_insert_Some in G as [[<- <-]|[_ G]]; [|eauto]. apply (A2 p P); auto.
  - intros j x G. apply lookup_insert_Some in G as [[_ <-]|[_ G]]; [|eauto]. now destruct (A1 _ _ _ _ N F).
  - intros j x G. apply lookup_insert_Some in G as [[<- <-]|[_ G]]; [exact Op|now apply A9].
  - intros q Q g q' Q' g' x G G'. apply lookup_insert_Some in G as [[<- <-]|[_ G]]; apply lookup_insert_Some in G' as [[<- <-]|[_ G']]; eauto.
  - destruct (A1 _ _ _ _ N F) as (_ & j & Oj & Ej). rewrite Op in Oj. injection Oj as <-.
    assert (W : forall q Q Q', s_procs s !! q = Some Q -> (q = p -> f <> env) -> holds s Q -> p_fds Q' = p_fds Q ->
      holds (set_proc (mkSystem (s_dir s) (s_open s) (<[i := o]> (s_locks s)) (s_procs s) (s_next s)) p (mkProc (p_fds P) (p_kept P) (p_done P ++ [a]) rest)) Q').
    { intros q Q Q' Eq Np (x & k & H1 & H2 & H3) E. exists x, k. rewrite E. cbn [set_proc s_dir s_locks]. split; [exact H1|]. split; [exact H2|]. rewrite lookup_insert_ne; [exact H3|]. intros <-.
      apply Ej in H2. unfold busy in B. rewrite H3 in B. destruct (Nat.eqb_spec x o) as [Ex|Nx].
      { rewrite Ex in H1. destruct (A6 q Q env p P f o Eq N H1 F) as [Y Z]. exact (Np Y (eq_sym Z)). }
     
      cbn [negb andb] in B. assert (alive s x = true) as Al; [|congruence]. apply alive_iff. exists q, Q. split; [exact Eq|]. left. eauto. }
    intros q Q G. apply lookup_insert_Some in G as [[<- <-]|[Nq G]].
    + exists Within. split; [exact T|]. destruct (decide (f = env)) as [->|Nf].
      * exists o, i. cbn [set_proc s_dir s_locks p_fds]. split; [exact F|]. split; [now apply Ej|]. apply lookup_insert.
      * apply (W p P); auto.
    + destruct (A7 q Q G) as (ph' & B' & C). exists ph'. split; [exact B'|]. destruct ph'; [exact C| |apply (W q Q); auto; congruence].
      destruct C as (x & C1 & C2). exists x. split; [exact C1|]. cbn [set_proc s_locks]. intros j K. apply lookup_insert_Some in K as [[<- <-]|[_ K]]; [|now apply (C2 j)]. destruct (A6 _ _ _ _ _ _ _ G N C1 F) as [-> _]. now elim Nq.
Qed.

Lemma act_sane s p P a rest s' : sane s -> s_procs s !! p = Some P -> p_todo P = a :: rest -> act_step s p P a rest = Some s' -> sane s'.
Proof.
  intros Sa N E H. destruct (n_phase s Sa p P N) as (ph & O & R). rewrite E in O. destruct a as [f|f|f|d|f|f]; cbn [act_step] in H; cbn [ok] in O.
  - injection H as <-. destruct ph; try contradiction O. now apply quiet_sane with Out.
  - assert (exists ph', ok ph' rest /\ match ph' with Out => False | Mid => f = env | Within => f <> env /\ holds s P end) as (ph' & O1 & O2).
    { destruct ph; try contradiction O; destruct O as [O1 O2]; [exists Mid; auto|exists Within; auto]. }
    destruct (s_dir s !! f) as [i|] eqn:Ei; injection H as <-.
    + eapply open_sane; eauto. apply (n_dir s Sa) in Ei. lia.
    + eapply open_sane; eauto.
  - destruct (p_fds P !! f) as [o|] eqn:Ef; [|discriminate H]. destruct (s_open s !! o) as [i|] eqn:Eo; [|discriminate H]. destruct (busy s i o) eqn:B; [discriminate H|]. injection H as <-.
    destruct ph; try contradiction O; destruct O as [O1 O2]; eapply flock_sane; eauto. intros K. now elim K.
  - injection H as <-. destruct ph; try contradiction O. now apply quiet_sane with Within.
  - destruct (p_fds P !! f) as [o|] eqn:Ef; [|discriminate H]. injection H as <-. destruct ph; try contradiction O. destruct (String.eqb_spec f env) as [->|Nf].
    + now apply close_sane with Out.
    + now apply close_sane with Within.
  - destruct (s_dir s !! f) as [i|] eqn:Ei; [|discriminate H]. injection H as <-. destruct ph; try contradiction O. destruct O as [O1 O2]. now apply unlink_sane.
Qed.
Lemma happens_sane s e s' : sane s -> happens s e = Some s' -> sane s'.
Proof.
  intros Sa H. destruct e as [p l|p q l|p kept|p|p]; cbn [happens] in H; destruct (s_procs s !! p) as [P|] eqn:E; try discriminate H.
  - injection H as <-. apply new_sane; auto using command_ok. intros o [].
  - destruct (s_procs s !! q) eqn:Eq; [discriminate H|]. injection H as <-. apply new_sane; auto using command_ok. intros o I. apply in_app_or in I as [I|I]; [|now apply (n_kept s Sa p P)].
    apply in_map_iff in I as ([f o'] & <- & I). apply elem_of_list_In, elem_of_map_to_list in I. now destruct (n_fds s Sa _ _ _ _ E I).
  - injection H as <-. apply drop_sane; auto. intros o I. apply elem_of_list_In, elem_of_list_filter in I as [_ I]. now apply elem_of_list_In.
  - destruct (p_todo P) as [|a rest] eqn:T; [discriminate H|]. now apply (act_sane s p P a rest).
  - injection H as <-. now apply end_sane.
Qed.
Lemma possible_sane s : possible s -> sane s.
Proof.
  intros [l H]. revert H. generalize start_sane. generalize start. induction l as [|e l IH]; intros t Sa H; cbn [happen] in H; [now injection H as <-|].
  destruct (happens t e) as [t'|] eqn:E; [|discriminate H]. apply (IH t'); [|exact H]. eapply happens_sane; eauto.
Qed.

(** ** Exclusion *)
Lemma one_at_work s p q P Q : possible s -> s_procs s !! p = Some P -> s_procs s !! q = Some Q -> at_work P -> at_work Q -> p = q.
Proof.
  intros Po HP HQ WP WQ. apply possible_sane in Po as Sa. destruct (n_phase s Sa p P HP) as (ph & O & R). destruct (n_phase s Sa q Q HQ) as (ph' & O' & R').
  apply (at_work_phase P ph O) in WP as ->. apply (at_work_phase Q ph' O') in WQ as ->. destruct R as (o & i & A & B & C), R' as (o' & i' & A' & B' & C').
  assert (i' = i) by congruence. subst i'. assert (o' = o) by congruence. subst o'. now destruct (n_own s Sa p P env q Q env o HP HQ A A').
Qed.
Lemma changer_at_work s p P : possible s -> s_procs s !! p = Some P -> changes_now P -> at_work P.
Proof.
  intros Po HP (a & rest & T & H). apply possible_sane in Po as Sa. destruct (n_phase s Sa p P HP) as (ph & O & R). apply (at_work_phase P ph O). rewrite T in O.
  destruct H as [[d ->]|[[d ->]|[f ->]]]; cbn [ok] in O; destruct ph; try contradiction O; auto. destruct O as [E _]. exfalso. exact (lock_not_env d E).
Qed.
Lemma refused_iff s p P rest : possible s -> s_procs s !! p = Some P -> p_todo P = Flock "dbenv.lock" :: rest ->
  (happens s (Goes p) = None <->
   (exists q Q, q <> p /\ s_procs s !! q = Some Q /\ at_work Q) \/
   (exists q Q o i, s_procs s !! q = Some Q /\ In o (p_kept Q) /\ s_dir s !! "dbenv.lock" = Some i /\ s_locks s !! i = Some o)).
Proof.
  intros Po HP T. apply possible_sane in Po as Sa. destruct (n_phase s Sa p P HP) as (ph & O & R). rewrite T in O. cbn [ok] in O. destruct ph; try contradiction O; [|destruct O as [K _]; now elim K].
  destruct R as (o & Fo & Lo). destruct (n_fds s Sa p P env o HP Fo) as (_ & i & Oi & Ei). assert (Di : s_dir s !! env = Some i) by now apply Ei.
  assert (G : happens s (Goes p) = None <-> busy s i o = true).
  { cbn [happens]. rewrite HP, T. cbn [act_step]. change "dbenv.lock"%string with env. rewrite Fo, Oi. destruct (busy s i o); split; intros; congruence. }
  rewrite G. unfold busy. split.
  - destruct (s_locks s !! i) as [o'|] eqn:L; [|discriminate]. intros H. apply andb_prop in H as [H H']. apply negb_true_iff, Nat.eqb_neq in H. apply alive_iff in H' as (q & Q & HQ & [[f Hf]|K]).
    + left. exists q, Q. pose proof (n_locked s Sa i o' L) as Lf. destruct (n_phase s Sa q Q HQ) as (ph & O' & R).
      assert (Nq : q <> p).
      { intros ->. rewrite HP in HQ. injection HQ as <-. destruct (n_fds s Sa p P f o' HP Hf) as (_ & j & Oj & Ej). assert (j = i) by congruence. subst j. assert (f = env) by now apply Ej. subst f. congruence. }
      split; [exact Nq|]. split; [exact HQ|]. destruct (n_fds s Sa q Q f o' HQ Hf) as (_ & j & Oj & Ej). assert (j = i) by congruence. subst j. assert (f = env) by now apply Ej. subst f.
      apply (at_work_phase Q ph O'). destruct ph; [cbn [stands] in R; congruence| |reflexivity]. destruct R as (x & R1 & R2). assert (x = o') by congruence. subst x. now elim (R2 i).
    + right. exists q, Q, o', i. auto.
  - intros [(q & Q & Nq & HQ & W)|(q & Q & o' & i' & HQ & K & D & L)].
    + destruct (n_phase s Sa q Q HQ) as (ph & O' & R). apply (at_work_phase Q ph O') in W as ->. destruct R as (o' & i' & A & B & C). assert (i' = i) by congruence. subst i'. rewrite C.
      apply andb_true_intro. split; [|apply alive_iff; exists q, Q; split; [exact HQ|left; eauto]]. apply negb_true_iff, Nat.eqb_neq. intros ->. destruct (n_own s Sa q Q env p P env o HQ HP A Fo) as [E _]. now elim Nq.
    + change "dbenv.lock"%string with env in D. assert (i' = i) by congruence. subst i'. rewrite L. apply andb_true_intro. split; [|apply alive_iff; exists q, Q; split; [exact HQ|now right]]. apply negb_true_iff, Nat.eqb_neq. intros ->. exact (Lo i L).
Qed.

(** ** What an instance has done *)
Lemma happens_history s e s' : (forall p P, s_procs s !! p = Some P -> exists l, p_done P ++ p_todo P = command l) -> happens s e = Some s' ->
  forall p P, s_procs s' !! p = Some P -> exists l, p_done P ++ p_todo P = command l.
Proof.
  intros H E. assert (W : forall t p P, s_procs t = s_procs s -> (exists l, p_done P ++ p_todo P = command l) -> forall q Q, s_procs (set_proc t p P) !! q = Some Q -> exists l, p_done Q ++ p_todo Q = command l).
  { intros t p P Et HP q Q HQ. cbn [set_proc s_procs] in HQ. rewrite Et in HQ. apply lookup_insert_Some in HQ as [[<- <-]|[_ HQ]]; eauto. }
  destruct e as [p l|p q l|p kept|p|p]; cbn [happens] in E; destruct (s_procs s !! p) as [P|] eqn:HP; try discriminate E.
  - injection E as <-. apply W; [reflexivity|]. now exists l.
  - destruct (s_procs s !! q); [discriminate E|]. injection E as <-. apply W; [reflexivity|]. now exists l.
  - injection E as <-. apply W; [reflexivity|]. exact (H p P HP).
  - destruct (p_todo P) as [|a rest] eqn:T; [discriminate E|]. assert (G : forall fds, exists l, p_done (mkProc fds (p_kept P) (p_done P ++ [a]) rest) ++ p_todo (mkProc fds (p_kept P) (p_done P ++ [a]) rest) = command l).
    { intros fds. destruct (H p P HP) as [l K]. exists l. rewrite <- K, T. cbn. now rewrite <- app_assoc. }
    destruct a as [f|f|f|d|f|f]; cbn [act_step] in E.
    + injection E as <-. apply W; auto.
    + destruct (s_dir s !! f); injection E as <-; apply W; auto.
    + destruct (p_fds P !! f) as [o|]; [|discriminate E]. destruct (s_open s !! o) as [i|]; [|discriminate E]. destruct (busy s i o); [discriminate E|]. injection E as <-. apply W; auto.
    + injection E as <-. apply W; auto.
    + destruct (p_fds P !! f); [|discriminate E]. injection E as <-. apply W; auto.
    + destruct (s_dir s !! f); [|discriminate E]. injection E as <-. apply W; auto.
  - injection E as <-. intros q Q HQ. cbn [s_procs] in HQ. apply lookup_delete_Some in HQ as [_ HQ]. eauto.
Qed.
Lemma history s p P : possible s -> s_procs s !! p = Some P -> exists l, p_done P ++ p_todo P = command l.
Proof.
  intros [l H]. revert p P. assert (K : forall p P, s_procs start !! p = Some P -> exists l, p_done P ++ p_todo P = command l) by (intros p P E; discriminate E). revert K H. generalize start. induction l as [|e l IH]; intros t K H; cbn [happen] in H; [now injection H as <-|].
  destruct (happens t e) as [t'|] eqn:E; [|discriminate H]. apply (IH t'); [|exact H]. eapply happens_history; eauto.
Qed.
Lemma first_session x done rest : done ++ Flock env :: rest = command [x] -> forall a, In a done -> (exists f, a = Stamp f /\ In f (ss_stamps x)) \/ a = Open env.
Proof.
  unfold command. cbn [flat_map]. rewrite app_nil_r. unfold session_acts. intros E a I.
  set (tail := flat_map _ (ss_opened x) ++ _) in E. assert (N : ~ In (Flock env) tail).
  { unfold tail. rewrite !in_app_iff, !in_flat_map, in_map_iff. intros [(d & _ & K)|[(d & K & _)|[(d & _ & K)|K]]].
    - destruct K as [K|[K|[K|[]]]]; try discriminate K. injection K as K. now elim (lock_not_env d).
    - discriminate K.
    - destruct K as [K|[K|[]]]; discriminate K.
    - destruct K as [K|[]]; discriminate K. }
  assert (E' : done ++ Flock env :: rest = (map Stamp (ss_stamps x) ++ [Open env]) ++ Flock env :: tail) by (rewrite <- app_assoc; exact E). clear E.
  assert (G : forall u v (y : act) r t, u ++ y :: r = v ++ y :: t -> ~ In y t -> ~ In y v -> u = v).
  { clear. induction u as [|b u IH]; intros v y r t E N N'; destruct v as [|c v]; cbn in E.
    - reflexivity.
    - injection E as <- _. elim N'. now left.
    - injection E as -> E. elim N. rewrite <- E. apply in_or_app. right. now left.
    - injection E as -> E. f_equal. apply (IH v y r t); auto. intros K. apply N'. now right. }
  apply G in E'; [|exact N|].
  - subst done. apply in_app_or in I as [I|[<-|[]]]; [left|now right]. apply in_map_iff in I as (f & <- & I). eauto.
  - rewrite in_app_iff, in_map_iff. intros [(f & K & _)|[K|[]]]; discriminate K.
Qed.
