From Coq Require Import String List ZArith.
From stdpp Require Import gmap strings.
From Verif Require Import Model.Py Model.InstallDB Model.System Spec.SystemSpec Proof.DatabaseFacts.
Open Scope string_scope.

(** ** C28 *)
Definition fate_in (db : installdb) (p : string) (f : fate) : Prop :=
  match f with
  | NeverSeen => id_d db !! p = None
  | Present v r b => exists st d, id_d db !! p = Some (mkInfo st v r b d) /\ st <> StR
  | Gone v r b => exists d, id_d db !! p = Some (mkInfo StR v r b d)
  end.

Lemma happened_fate log db : happened log db -> forall p, fate_in db p (fate_of log p).
Proof.
  induction 1 as [|log db e db' _ IH E]; intros p; [apply lookup_empty|]. specialize (IH p).
  destruct e as [q v r b d later|q|q|q]; cbn [fate_of do_event] in *.
  - unfold db_install in E. destruct (is_installed db q); [discriminate|]. injection E as <-.
    destruct (String.eqb_spec q p) as [->|N]; simpl.
    + rewrite lookup_insert. destruct later; eexists _, _; split; try reflexivity; discriminate.
    + unfold fate_in in *. simpl. rewrite lookup_insert_ne by exact N. exact IH.
  - unfold clear_pending in E. destruct (id_d db !! q) as [info|] eqn:Q; [|discriminate]. inv_ok E.
    destruct (id_dp db !! q); [|discriminate]. injection E as <-.
    destruct (decide (q = p)) as [->|N]; [|unfold fate_in in *; simpl; rewrite lookup_insert_ne by exact N; exact IH].
    unfold is_installed in E0. rewrite Q in E0. unfold counts_installed in E0. destruct info as [st v' r' b' d'].
    unfold fate_in in *. simpl. rewrite lookup_insert. rewrite Q in IH.
    destruct (fate_of log p) as [|v0 r0 b0|v0 r0 b0].
    + discriminate.
    + destruct IH as (st0 & d0 & [= -> -> -> -> ->] & NR). simpl in E0. destruct st0; [discriminate|injection E0 as <-|contradiction].
      eexists _, _. split; [reflexivity|discriminate].
    + destruct IH as (d0 & [= -> -> -> -> ->]). simpl in E0. injection E0 as <-. eauto.
  - unfold db_remove in E. destruct (id_d db !! q) as [info|] eqn:Q; [|discriminate]. injection E as <-.
    destruct (String.eqb_spec q p) as [->|N].
    + unfold fate_in in IH. destruct (fate_of log p) as [|v0 r0 b0|v0 r0 b0].
      * congruence.
      * destruct IH as (st0 & d0 & X & _). rewrite Q in X. injection X as ->. simpl. rewrite lookup_insert. eauto.
      * destruct IH as (d0 & X). rewrite Q in X. injection X as ->. simpl. rewrite lookup_insert. eauto.
    + unfold fate_in in *. simpl. rewrite lookup_insert_ne by exact N. exact IH.
  - injection E as <-. destruct (String.eqb_spec q p) as [->|N].
    + simpl. apply lookup_delete.
    + unfold fate_in in *. simpl. rewrite lookup_delete_ne by exact N. exact IH.
Qed.

Lemma happened_installed log db p : happened log db ->
  (is_installed db p = true <-> exists v r b, fate_of log p = Present v r b).
Proof.
  intros H. pose proof (happened_fate _ _ H p) as F. unfold is_installed, fate_in in *.
  destruct (fate_of log p) as [|v r b|v r b].
  - rewrite F. split; [discriminate|intros (? & ? & ? & [=])].
  - destruct F as (st & d & -> & N). unfold counts_installed. simpl. destruct st; [| |contradiction]; split; eauto.
  - destruct F as (d & ->). simpl. split; [discriminate|intros (? & ? & ? & [=])].
Qed.
Lemma happened_removed log db p : happened log db ->
  (is_removed db p = true <-> exists v r b, fate_of log p = Gone v r b).
Proof.
  intros H. pose proof (happened_fate _ _ H p) as F. unfold is_removed, fate_in in *.
  destruct (fate_of log p) as [|v r b|v r b].
  - rewrite F. split; [discriminate|intros (? & ? & ? & [=])].
  - destruct F as (st & d & -> & N). simpl. destruct st; [| |contradiction]; (split; [discriminate|intros (? & ? & ? & [=])]).
  - destruct F as (d & ->). simpl. split; eauto.
Qed.
Lemma list_installed_spec db p : In p (list_installed db) <-> is_installed db p = true.
Proof.
  unfold list_installed, is_installed. rewrite in_map_iff. split.
  - intros ([q info] & <- & K). apply filter_In in K as [K1 K2]. apply elem_of_list_In, elem_of_map_to_list in K1. simpl. rewrite K1. exact K2.
  - destruct (id_d db !! p) as [info|] eqn:E; [|discriminate]. intros K. exists (p, info). split; [reflexivity|].
    apply filter_In. split; [|exact K]. now apply elem_of_list_In, elem_of_map_to_list.
Qed.
Lemma NoDup_filter_fst {A} (f : string * A -> bool) l : NoDup (map fst l) -> NoDup (map fst (List.filter f l)).
Proof.
  induction l as [|x l IH]; simpl; intros N; [constructor|]. inversion N as [|? ? N1 N2]; subst.
  destruct (f x); simpl; [|auto]. constructor; [|auto]. rewrite elem_of_list_In, in_map_iff. intros (y & E & K).
  apply filter_In in K as [K _]. apply N1. rewrite <- E. apply elem_of_list_In, in_map, K.
Qed.
Lemma nodup_keys {A} (m : gmap string A) : NoDup (map fst (map_to_list m)).
Proof. exact (NoDup_fst_map_to_list m). Qed.
Lemma list_installed_nodup db : NoDup (list_installed db).
Proof. unfold list_installed. apply NoDup_filter_fst, nodup_keys. Qed.

Lemma happened_version log db p : happened log db ->
  match fate_of log p with
  | NeverSeen => get_version db p = Err EKey
  | Present v r b | Gone v r b => get_version db p = Ok (v, r, b)
  end.
Proof.
  intros H. pose proof (happened_fate _ _ H p) as F. unfold get_version, get_info, fate_in in *.
  destruct (fate_of log p) as [|v r b|v r b].
  - now rewrite F.
  - destruct F as (st & d & -> & N). reflexivity.
  - destruct F as (d & ->). reflexivity.
Qed.
Lemma install_again log db p v r b d later : happened log db ->
  (exists db', do_event db (EvInstall p v r b d later) = Ok db') <-> forall v' r' b', fate_of log p <> Present v' r' b'.
Proof.
  intros H. simpl. unfold db_install. destruct (is_installed db p) eqn:E.
  - apply (happened_installed _ _ _ H) in E as (v' & r' & b' & E). split; [intros (? & [=])|]. intros K. now apply K in E.
  - split; [|eauto]. intros _ v' r' b' K. assert (is_installed db p = true) by (apply (happened_installed _ _ _ H); eauto). congruence.
Qed.
Lemma remove_again log db p : happened log db ->
  (exists db', do_event db (EvRemove p) = Ok db') <-> fate_of log p <> NeverSeen.
Proof.
  intros H. pose proof (happened_fate _ _ H p) as F. simpl. unfold db_remove, fate_in in *.
  destruct (fate_of log p) as [|v r b|v r b].
  - rewrite F. split; [intros (? & [=])|congruence].
  - destruct F as (st & d & -> & N). split; [discriminate|eauto].
  - destruct F as (d & ->). split; [discriminate|eauto].
Qed.

(** ** C29 *)
Lemma state_awaiting log db : happened log db -> forall p,
  (exists info, id_d db !! p = Some info /\ i_state info = StIP) <-> awaiting log p.
Proof.
  induction 1 as [|log db e db' H IH E]; intros p.
  - simpl. rewrite lookup_empty. split; [intros (? & [=] & _)|intros []].
  - specialize (IH p). destruct e as [q v r b d later|q|q|q]; cbn [awaiting do_event] in *.
    + unfold db_install in E. destruct (is_installed db q); [discriminate|]. injection E as <-. simpl.
      destruct (String.eqb_spec q p) as [->|N]; [|rewrite lookup_insert_ne by exact N; exact IH].
      rewrite lookup_insert. destruct later; split; eauto; try discriminate. intros (? & [= <-] & [=]).
    + unfold clear_pending in E. destruct (id_d db !! q) as [info|] eqn:Q; [|discriminate]. inv_ok E.
      destruct (id_dp db !! q); [|discriminate]. injection E as <-. simpl.
      destruct (String.eqb_spec q p) as [->|N]; [|rewrite lookup_insert_ne by exact N; exact IH].
      rewrite lookup_insert. split; [|intros []]. intros (i & [= ->] & S).
      unfold is_installed in E0. rewrite Q in E0. destruct (counts_installed info) eqn:C.
      * destruct (i_state info); try discriminate. injection E0 as <-. discriminate.
      * injection E0 as ->. unfold counts_installed in C. rewrite S in C. discriminate.
    + unfold db_remove in E. destruct (id_d db !! q) as [info|] eqn:Q; [|discriminate]. injection E as <-. simpl.
      destruct (String.eqb_spec q p) as [->|N]; [|rewrite lookup_insert_ne by exact N; exact IH].
      rewrite lookup_insert. split; [|intros []]. intros (i & [= <-] & [=]).
    + injection E as <-. simpl. destruct (String.eqb_spec q p) as [->|N]; [|rewrite lookup_delete_ne by exact N; exact IH].
      rewrite lookup_delete. split; [intros (? & [=] & _)|intros []].
Qed.
Lemma dp_awaiting log db : happened log db -> forall p,
  (awaiting log p -> is_Some (id_dp db !! p)) /\ (undisturbed log -> is_Some (id_dp db !! p) -> awaiting log p).
Proof.
  induction 1 as [|log db e db' H IH E]; intros p.
  - simpl. rewrite lookup_empty. split; [intros []|intros _ [? [=]]].
  - specialize (IH p). destruct e as [q v r b d later|q|q|q]; cbn [awaiting undisturbed do_event] in *.
    + unfold db_install in E. destruct (is_installed db q) eqn:I; [discriminate|]. injection E as <-. simpl.
      destruct (String.eqb_spec q p) as [->|N].
      * destruct later; [rewrite lookup_insert; split; eauto|]. split; [discriminate|]. intros U K. exfalso.
        apply (proj2 IH U) in K. apply (state_awaiting _ _ H) in K as (i & K1 & K2). unfold is_installed in I.
        rewrite K1 in I. unfold counts_installed in I. rewrite K2 in I. discriminate.
      * destruct later; [rewrite lookup_insert_ne by exact N|]; exact IH.
    + unfold clear_pending in E. destruct (id_d db !! q) as [info|] eqn:Q; [|discriminate]. inv_ok E.
      destruct (id_dp db !! q); [|discriminate]. injection E as <-. simpl.
      destruct (String.eqb_spec q p) as [->|N]; [|rewrite lookup_delete_ne by exact N; exact IH].
      rewrite lookup_delete. split; [intros []|intros _ [? [=]]].
    + unfold db_remove in E. destruct (id_d db !! q) as [info|] eqn:Q; [|discriminate]. injection E as <-. simpl.
      destruct (String.eqb_spec q p) as [->|N]; [|split; [apply IH|intros [_ U]; now apply IH]].
      split; [intros []|]. intros [A U] K. now apply A, IH.
    + injection E as <-. simpl. destruct (String.eqb_spec q p) as [->|N]; [|split; [apply IH|intros [_ U]; now apply IH]].
      split; [intros []|]. intros [A U] K. now apply A, IH.
Qed.

Lemma mapM_ok {A B} (f : A -> res B) l l' : mapM f l = Ok l' <-> Forall2 (fun x y => f x = Ok y) l l'.
Proof.
  revert l'. induction l as [|x l IH]; intros l'; simpl.
  - split; [intros [= <-]; constructor|intros H; now inversion H].
  - rewrite bind_ok. split.
    + intros (y & E & K). apply bind_ok in K as (l0 & K1 & [= <-]). constructor; [exact E|now apply IH].
    + intros H. inversion H as [|? y ? l0 E K]; subst. exists y. split; [exact E|]. apply bind_ok. exists l0. split; [now apply IH|reflexivity].
Qed.
Lemma list_pending_names db l : list_pending db = Ok l -> map fst l = map fst (map_to_list (id_dp db)).
Proof.
  unfold list_pending. intros H. apply mapM_ok in H. induction H as [|[p x] y l l' E _ IH]; simpl; [reflexivity|].
  simpl in E. destruct (id_d db !! p); [|discriminate]. injection E as <-. simpl. now f_equal.
Qed.
Lemma dp_names db p : In p (map fst (map_to_list (id_dp db))) <-> is_Some (id_dp db !! p).
Proof.
  rewrite in_map_iff. split.
  - intros ([q x] & <- & K). apply elem_of_list_In, elem_of_map_to_list in K. eauto.
  - intros [x K]. exists (p, x). split; [reflexivity|]. now apply elem_of_list_In, elem_of_map_to_list.
Qed.
Lemma pending_listed log db l p : happened log db -> list_pending db = Ok l -> awaiting log p -> In p (map fst l).
Proof. intros H E A. rewrite (list_pending_names _ _ E). apply dp_names. now apply (dp_awaiting _ _ H). Qed.
Lemma pending_exact log db : happened log db -> undisturbed log ->
  exists l, list_pending db = Ok l /\ NoDup (map fst l) /\
    (forall p, In p (map fst l) <-> awaiting log p) /\
    (forall p info, In (p, info) l -> get_info db p = Ok info).
Proof.
  intros H U. assert (T : exists l, list_pending db = Ok l).
  { unfold list_pending. assert (G : forall l, (forall px, In px l -> is_Some (id_d db !! px.1)) ->
      exists l', mapM (fun px : string * bool => match id_d db !! px.1 with Some info => Ok (px.1, info) | None => Err EKey end) l = Ok l').
    { induction l as [|px l IH]; intros K; [eexists; reflexivity|]. simpl. destruct (K px) as [i ->]; [now left|]. simpl.
      destruct IH as [l' ->]; [intros ? ?; apply K; now right|]. simpl. eauto. }
    apply G. intros [p x] K. simpl. apply elem_of_list_In, elem_of_map_to_list in K.
    assert (A : awaiting log p) by (apply (dp_awaiting _ _ H); eauto).
    apply (state_awaiting _ _ H) in A as (i & A & _). eauto. }
  destruct T as [l E]. exists l. split; [exact E|]. pose proof (list_pending_names _ _ E) as N. repeat split.
  - rewrite N. apply nodup_keys.
  - rewrite N, dp_names. now apply (dp_awaiting _ _ H).
  - rewrite N, dp_names. now apply (dp_awaiting _ _ H).
  - intros p info K. unfold list_pending in E. apply mapM_ok in E. apply elem_of_list_In in K.
    apply elem_of_list_lookup in K as [i K]. destruct (Forall2_lookup_r _ _ _ _ _ E K) as ([q x] & _ & F). simpl in F.
    unfold get_info. destruct (id_d db !! q) eqn:Q; [|discriminate]. injection F as -> ->. now rewrite Q.
Qed.
