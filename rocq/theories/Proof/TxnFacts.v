(** * Facts about transactions *)
From Coq Require Import String List.
From stdpp Require Import gmap strings.
From Verif Require Import Model.Py Model.Txn Spec.TxnSpec.
Open Scope string_scope.

Section facts.
  Context {V : Type}.
  Implicit Types (e : env V).

  Definition active e : Prop := is_Some (e_log e).

  Lemma recover_put k v e : active e -> recover (e_put k v e) = recover e.
  Proof.
    intros [l H]. unfold recover, e_abort, e_put, log_write. rewrite H. simpl. f_equal.
    unfold undo1. simpl. destruct (e_store e !! k) as [w|] eqn:E.
    - rewrite insert_insert. now apply insert_id.
    - now apply delete_insert.
  Qed.
  Lemma recover_del k v e : active e -> e_store e !! k = Some v -> recover (e_del k e) = recover e.
  Proof.
    intros [l H] Hk. unfold recover, e_abort, e_del, log_write. rewrite H. simpl. f_equal.
    unfold undo1. simpl. rewrite Hk. now apply insert_delete.
  Qed.
  Lemma active_put k v e : active e -> active (e_put k v e).
  Proof. intros [l H]. unfold active, e_put, log_write. rewrite H. simpl. eauto. Qed.
  Lemma active_del k e : active e -> active (e_del k e).
  Proof. intros [l H]. unfold active, e_del, log_write. rewrite H. simpl. eauto. Qed.

  (** running with the log on the side computes the plain effect *)
  Lemma run_exec {A} (p : proc V A) : forall e t e' r, run p e = (t, e', r) -> exec p (e_store e) = (e_store e', r).
  Proof.
    induction p as [A a|A x|A k f IH|A db f IH|A k v p IH|A k p IH|A B q IHq f IHf|A B q IHq h IHh f IHf];
      intros e t e' r; simpl.
    - intros [= _ <- <-]. reflexivity.
    - intros [= _ <- <-]. reflexivity.
    - destruct (run (f _) e) as [[t1 e1] r1] eqn:E. intros [= _ <- <-]. exact (IH _ _ _ _ _ E).
    - destruct (run (f _) e) as [[t1 e1] r1] eqn:E. intros [= _ <- <-]. exact (IH _ _ _ _ _ E).
    - destruct (run p _) as [[t1 e1] r1] eqn:E. intros [= _ <- <-]. exact (IH _ _ _ _ E).
    - destruct (e_store e !! k) eqn:Ek.
      + destruct (run p _) as [[t1 e1] r1] eqn:E. intros [= _ <- <-]. exact (IH _ _ _ _ E).
      + intros [= _ <- <-]. reflexivity.
    - destruct (run q e) as [[t1 e1] r1] eqn:E. rewrite (IHq _ _ _ _ E). destruct r1 as [b|x].
      + destruct (run (f b) e1) as [[t2 e2] r2] eqn:E2. intros [= _ <- <-]. exact (IHf _ _ _ _ _ E2).
      + intros [= _ <- <-]. reflexivity.
    - destruct (run q e) as [[t1 e1] r1] eqn:E. rewrite (IHq _ _ _ _ E). destruct r1 as [b|x].
      + destruct (run (f b) e1) as [[t2 e2] r2] eqn:E2. intros [= _ <- <-]. exact (IHf _ _ _ _ _ E2).
      + destruct (run (h x) e1) as [[t2 e2] r2] eqn:E2. rewrite (IHh _ _ _ _ _ E2). destruct r2 as [b|y].
        * destruct (run (f b) e2) as [[t3 e3] r3] eqn:E3. intros [= _ <- <-]. exact (IHf _ _ _ _ _ E3).
        * intros [= _ <- <-]. reflexivity.
  Qed.

  Lemma run_safe {A} (p : proc V A) : forall e t e' r, active e -> run p e = (t, e', r) ->
    (active e' /\ recover e' = recover e) /\ Forall (fun x => recover x = recover e) t.
  Proof.
    induction p as [A a|A x|A k f IH|A db f IH|A k v p IH|A k p IH|A B q IHq f IHf|A B q IHq h IHh f IHf];
      intros e t e' r Ha; simpl.
    - intros [= <- <- _]. auto.
    - intros [= <- <- _]. auto.
    - destruct (run (f _) e) as [[t1 e1] r1] eqn:E. intros [= <- <- _]. destruct (IH _ _ _ _ _ Ha E). auto.
    - destruct (run (f _) e) as [[t1 e1] r1] eqn:E. intros [= <- <- _]. destruct (IH _ _ _ _ _ Ha E). auto.
    - destruct (run p _) as [[t1 e1] r1] eqn:E. intros [= <- <- _].
      destruct (IH _ _ _ _ (active_put k v e Ha) E) as [[H1 H2] H3]. rewrite (recover_put k v e Ha) in *. auto.
    - destruct (e_store e !! k) as [v|] eqn:Ek.
      + destruct (run p _) as [[t1 e1] r1] eqn:E. intros [= <- <- _].
        destruct (IH _ _ _ _ (active_del k e Ha) E) as [[H1 H2] H3]. rewrite (recover_del k v e Ha Ek) in *. auto.
      + intros [= <- <- _]. auto.
    - destruct (run q e) as [[t1 e1] r1] eqn:E. destruct (IHq _ _ _ _ Ha E) as [[H1 H2] H3]. destruct r1 as [b|x].
      + destruct (run (f b) e1) as [[t2 e2] r2] eqn:E2. intros [= <- <- _].
        destruct (IHf _ _ _ _ _ H1 E2) as [[H4 H5] H6]. rewrite H2 in *. split; [auto|]. now apply Forall_app.
      + intros [= <- <- _]. auto.
    - destruct (run q e) as [[t1 e1] r1] eqn:E. destruct (IHq _ _ _ _ Ha E) as [[H1 H2] H3]. destruct r1 as [b|x].
      + destruct (run (f b) e1) as [[t2 e2] r2] eqn:E2. intros [= <- <- _].
        destruct (IHf _ _ _ _ _ H1 E2) as [[H4 H5] H6]. rewrite H2 in *. split; [auto|]. now apply Forall_app.
      + destruct (run (h x) e1) as [[t2 e2] r2] eqn:E2. destruct (IHh _ _ _ _ _ H1 E2) as [[H4 H5] H6]. rewrite H2 in *.
        destruct r2 as [b|y].
        * destruct (run (f b) e2) as [[t3 e3] r3] eqn:E3. intros [= <- <- _].
          destruct (IHf _ _ _ _ _ H4 E3) as [[H7 H8] H9]. rewrite H5 in *. split; [auto|].
          apply Forall_app. split; [auto|]. now apply Forall_app.
        * intros [= <- <- _]. split; [auto|]. now apply Forall_app.
  Qed.

  Lemma run_idle {A} (p : proc V A) : forall e t e' r, idle e -> run p e = (t, e', r) -> idle e'.
  Proof.
    unfold idle.
    induction p as [A a|A x|A k f IH|A db f IH|A k v p IH|A k p IH|A B q IHq f IHf|A B q IHq h IHh f IHf];
      intros e t e' r Ha; simpl.
    - now intros [= <- <- _].
    - now intros [= <- <- _].
    - destruct (run (f _) e) as [[t1 e1] r1] eqn:E. intros [= <- <- _]. eauto.
    - destruct (run (f _) e) as [[t1 e1] r1] eqn:E. intros [= <- <- _]. eauto.
    - destruct (run p _) as [[t1 e1] r1] eqn:E. intros [= <- <- _]. apply (IH _ _ _ _) in E; [exact E|].
      unfold e_put, log_write. simpl. now rewrite Ha.
    - destruct (e_store e !! k) as [v|] eqn:Ek; [|now intros [= <- <- _]].
      destruct (run p _) as [[t1 e1] r1] eqn:E. intros [= <- <- _]. apply (IH _ _ _ _) in E; [exact E|].
      unfold e_del, log_write. simpl. now rewrite Ha.
    - destruct (run q e) as [[t1 e1] r1] eqn:E. destruct r1 as [b|x]; [|intros [= <- <- _]; eauto].
      destruct (run (f b) e1) as [[t2 e2] r2] eqn:E2. intros [= <- <- _]. eauto.
    - destruct (run q e) as [[t1 e1] r1] eqn:E. destruct r1 as [b|x].
      + destruct (run (f b) e1) as [[t2 e2] r2] eqn:E2. intros [= <- <- _]. eauto.
      + destruct (run (h x) e1) as [[t2 e2] r2] eqn:E2. destruct r2 as [b|y]; [|intros [= <- <- _]; eauto].
        destruct (run (f b) e2) as [[t3 e3] r3] eqn:E3. intros [= <- <- _]. eauto.
  Qed.

  Lemma recover_begin e : recover (e_begin e) = e_store e.
  Proof. reflexivity. Qed.
  Lemma active_begin e : active (e_begin e).
  Proof. unfold active, e_begin. simpl. eauto. Qed.

  Lemma abort_restore e e1 : idle e -> recover e1 = e_store e -> e_abort e1 = e.
  Proof.
    destruct e as [s l]. unfold idle, recover. simpl. intros -> H. unfold e_abort in *. simpl in H. now rewrite H.
  Qed.

  (** ** C36 *)
  Lemma txn_proc_all_or_nothing {A} (p : proc V A) e t e' r : idle e -> txn_proc p e = (t, e', r) ->
    idle e' /\
    match r with
    | Ok a => exec p (e_store e) = (e_store e', Ok a)
    | Err x => e' = e /\ exists s, exec p (e_store e) = (s, Err x)
    end.
  Proof.
    intros Hi. unfold txn_proc. destruct (run p (e_begin e)) as [[t1 e1] r1] eqn:E.
    pose proof (run_exec p _ _ _ _ E) as X. destruct (run_safe p _ _ _ _ (active_begin e) E) as [[S1 S2] S3].
    destruct r1 as [a|x]; intros [= <- <- <-].
    - split; [reflexivity|exact X].
    - split; [reflexivity|]. split; [|exists (e_store e1); exact X].
      apply abort_restore; [exact Hi|exact S2].
  Qed.

  Lemma txn_proc_crash {A} (p : proc V A) e t e' r : idle e -> txn_proc p e = (t, e', r) ->
    Forall (fun c => recover c = e_store e \/ (is_ok r = true /\ recover c = e_store e')) t.
  Proof.
    intros Hi. unfold txn_proc. destruct (run p (e_begin e)) as [[t1 e1] r1] eqn:E.
    destruct (run_safe p _ _ _ _ (active_begin e) E) as [[S1 S2] S3].
    assert (B : recover e = e_store e) by (unfold recover, e_abort; unfold idle in Hi; now rewrite Hi).
    assert (M : Forall (fun c => recover c = e_store e) t1) by exact S3.
    destruct r1 as [a|x]; intros [= <- <- <-]; constructor; auto; apply Forall_app; split.
    - eapply Forall_impl; [exact M|]. simpl. auto.
    - constructor; [right; split; [reflexivity|reflexivity]|constructor].
    - eapply Forall_impl; [exact M|]. simpl. auto.
    - constructor; [left|constructor]. exact S2.
  Qed.

  (** context.txn_proc *)
  Lemma ctx_txn_proc_effect {A} (p : proc V A) e t e' r : idle e -> ctx_txn_proc p e = (t, e', r) ->
    match r with
    | Ok a => idle e' /\ exec p (e_store e) = (e_store e', Ok a)
    | Err x => x = EName /\ collect e' = e /\ exists s y, exec p (e_store e) = (s, Err y)
    end /\
    Forall (fun c => recover c = e_store e \/ (is_ok r = true /\ recover c = e_store e')) t.
  Proof.
    intros Hi. unfold ctx_txn_proc. destruct (run p (e_begin e)) as [[t1 e1] r1] eqn:E.
    pose proof (run_exec p _ _ _ _ E) as X. destruct (run_safe p _ _ _ _ (active_begin e) E) as [[S1 S2] S3].
    assert (B : recover e = e_store e) by (unfold recover, e_abort; unfold idle in Hi; now rewrite Hi).
    assert (M : Forall (fun c => recover c = e_store e) t1) by exact S3.
    destruct r1 as [a|x]; intros [= <- <- <-]; split.
    - split; [reflexivity|exact X].
    - constructor; [auto|]. apply Forall_app. split; [eapply Forall_impl; [exact M|]; simpl; auto|].
      constructor; [right; split; [reflexivity|reflexivity]|constructor].
    - split; [reflexivity|]. split; [|eauto].
      apply abort_restore; [exact Hi|exact S2].
    - constructor; [auto|]. eapply Forall_impl; [exact M|]. simpl. auto.
  Qed.

  (** what a nested procedure did is undone with the outer transaction *)
  Lemma nested_outer {A B} (q : proc V B) (f : B -> proc V A) e t e' x : idle e ->
    txn_proc (PSub q f) e = (t, e', Err x) -> e' = e.
  Proof. intros Hi H. now destruct (txn_proc_all_or_nothing _ _ _ _ _ Hi H) as [_ [-> _]]. Qed.

  Lemma txn_proc_result {A} (p : proc V A) e t e' r : idle e -> txn_proc p e = (t, e', r) ->
    snd (exec p (e_store e)) = r /\ e' = match r with Ok _ => mkEnv (fst (exec p (e_store e))) None | Err _ => e end.
  Proof.
    intros Hi H. destruct (txn_proc_all_or_nothing p e t e' r Hi H) as [I K]. destruct r as [a|x].
    - rewrite K. split; [reflexivity|]. simpl. destruct e' as [s l]. unfold idle in I. simpl in *. now subst l.
    - destruct K as [-> [s ->]]. auto.
  Qed.
End facts.

(** ** C26 *)
Section repos.
  Definition rinv (e : env rval) (l : list string) : Prop :=
    idle e /\ e_store e !! okey = Some (ROrder l) /\ NoDup l /\
    forall n, is_Some (e_store e !! rkey n) <-> In n l.

  Lemma rkey_inj a b : rkey a = rkey b -> a = b.
  Proof. intros H. injection H as H. exact H. Qed.
  Lemma rkey_okey n : rkey n <> okey.
  Proof. discriminate. Qed.

  Lemma py_remove_spec x l : NoDup l ->
    match py_remove x l with
    | Some r => exists pre post, l = (pre ++ x :: post)%list /\ r = (pre ++ post)%list
    | None => ~ In x l
    end.
  Proof.
    induction l as [|y l IH]; intros Hn; simpl; [auto|].
    destruct (String.eqb_spec x y) as [->|Hne]; [exists [], l; auto|].
    inversion Hn; subst. specialize (IH H2). destruct (py_remove x l).
    - destruct IH as (pre & post & -> & ->). exists (y :: pre), post. auto.
    - intros [<-|Hin]; [now apply Hne|auto].
  Qed.
  Lemma py_remove_in x l : In x l -> exists r, py_remove x l = Some r.
  Proof.
    induction l as [|y l IH]; intros []; simpl.
    - subst y. rewrite String.eqb_refl. eauto.
    - destruct (String.eqb x y); [eauto|]. destruct (IH H) as [r ->]. eauto.
  Qed.

  (** the position an add asks for, as a split of the list *)
  Definition splits_at (at_ : option Z) (pre post : list string) : Prop :=
    match at_ with None => post = [] | Some z => z = Z.of_nat (length pre) end.

  Lemma call_add e l n uri at_ e' r : rinv e l -> call (CallAdd n uri at_) e = (e', r) ->
    (r = Ok tt /\ ~ In n l /\ exists pre post, l = (pre ++ post)%list /\ splits_at at_ pre post /\
        rinv e' (pre ++ n :: post)%list /\ repo_uri e' n = Some (RInfo uri) /\
        forall m, m <> n -> repo_uri e' m = repo_uri e m) \/
    (r = Err EError /\ e' = e /\ (In n l \/ forall pre post, l = (pre ++ post)%list -> ~ splits_at at_ pre post)).
  Proof.
    intros (Hi & Ho & Hn & Hr). unfold call. destruct (txn_proc _ e) as [[t e1] r1] eqn:E. intros [= <- <-].
    apply txn_proc_result in E; [|exact Hi]. destruct E as [E1 E2].
    simpl in E1, E2. destruct (e_store e !! rkey n) eqn:En; simpl in E1, E2.
    { right. subst r1. split; [reflexivity|]. split; [exact E2|]. left. apply Hr. rewrite En. eauto. }
    assert (Nin : ~ In n l) by (intros K; apply Hr in K; rewrite En in K; destruct K; discriminate).
    rewrite lookup_insert_ne in E1, E2 by discriminate. rewrite Ho in E1, E2.
    assert (G : forall pre post, l = (pre ++ post)%list -> e1 = mkEnv (<[okey := ROrder (pre ++ n :: post)%list]> (<[rkey n := RInfo uri]> (e_store e))) None ->
       rinv e1 (pre ++ n :: post)%list /\ repo_uri e1 n = Some (RInfo uri) /\ forall m, m <> n -> repo_uri e1 m = repo_uri e m).
    { intros pre post -> ->. unfold repo_uri. simpl. split; [|split].
      - split; [reflexivity|]. split; [apply lookup_insert|]. split.
        + apply NoDup_app in Hn as (N1 & N2 & N3). apply NoDup_app. split; [exact N1|]. split.
          * intros y Hy Hy'. apply elem_of_cons in Hy' as [->|Hy']; [|now apply (N2 y)].
            apply Nin. apply in_or_app. left. now apply elem_of_list_In.
          * constructor; [|exact N3]. rewrite elem_of_list_In. intros K. apply Nin. apply in_or_app. auto.
        + intros m. simpl. rewrite lookup_insert_ne by discriminate. rewrite in_app_iff in *. simpl.
          destruct (decide (m = n)) as [->|Hm].
          * rewrite lookup_insert. split; eauto.
          * rewrite lookup_insert_ne by (intros K; apply rkey_inj in K; congruence). rewrite Hr, in_app_iff. intuition congruence.
      - rewrite lookup_insert_ne by discriminate. apply lookup_insert.
      - intros m Hm. rewrite lookup_insert_ne by discriminate. apply lookup_insert_ne. intros K; apply rkey_inj in K; congruence. }
    destruct at_ as [z|]; simpl in E1, E2.
    - destruct ((z <? 0)%Z || (Z.of_nat (length l) <? z)%Z) eqn:Ez; simpl in E1, E2.
      + right. subst r1. split; [reflexivity|]. split; [exact E2|]. right. intros pre post -> ->.
        rewrite app_length in Ez. apply orb_true_iff in Ez as [Ez|Ez]; apply Z.ltb_lt in Ez; lia.
      + left. subst r1. split; [reflexivity|]. split; [exact Nin|]. exists (take (Z.to_nat z) l), (drop (Z.to_nat z) l).
        apply orb_false_iff in Ez as [Z1 Z2]. apply Z.ltb_ge in Z1, Z2.
        split; [symmetry; apply take_drop|]. split.
        * simpl. rewrite take_length, min_l by lia. lia.
        * apply G; [symmetry; apply take_drop|]. exact E2.
    - left. subst r1. split; [reflexivity|]. split; [exact Nin|]. exists l, []. split; [now rewrite app_nil_r|].
      split; [reflexivity|]. apply G; [now rewrite app_nil_r|]. exact E2.
  Qed.

  Lemma call_remove e l n e' r : rinv e l -> call (CallRemove n) e = (e', r) ->
    (r = Ok tt /\ exists pre post, l = (pre ++ n :: post)%list /\ rinv e' (pre ++ post)%list /\
        repo_uri e' n = None /\ forall m, m <> n -> repo_uri e' m = repo_uri e m) \/
    (r = Err EDB /\ e' = e /\ ~ In n l).
  Proof.
    intros (Hi & Ho & Hn & Hr). unfold call. destruct (txn_proc _ e) as [[t e1] r1] eqn:E. intros [= <- <-].
    apply txn_proc_result in E; [|exact Hi]. destruct E as [E1 E2].
    simpl in E1, E2. destruct (e_store e !! rkey n) eqn:En; simpl in E1, E2.
    2: { right. subst r1. split; [reflexivity|]. split; [exact E2|]. intros K. apply Hr in K. rewrite En in K. destruct K; discriminate. }
    left. rewrite lookup_delete_ne in E1, E2 by discriminate. rewrite Ho in E1, E2.
    assert (Hin : In n l) by (apply Hr; rewrite En; eauto).
    destruct (py_remove_in n l Hin) as [l' El]. pose proof (py_remove_spec n l Hn) as S. rewrite El in S, E1, E2.
    simpl in E1, E2. destruct S as (pre & post & -> & ->). subst r1. split; [reflexivity|]. exists pre, post. split; [reflexivity|].
    subst e1. unfold repo_uri. simpl.
    assert (Nin : ~ In n (pre ++ post)%list).
    { apply NoDup_app in Hn as (N1 & N2 & N3). inversion N3; subst. intros K. apply in_app_or in K as [K|K].
      - apply (N2 n); [now apply elem_of_list_In|left]. - now apply H1, elem_of_list_In. }
    split; [|split].
    - split; [reflexivity|]. split; [apply lookup_insert|]. split.
      + apply NoDup_app in Hn as (N1 & N2 & N3). inversion N3; subst. apply NoDup_app. split; [exact N1|]. split; [|assumption].
        intros y Hy Hy'. apply (N2 y Hy). now right.
      + intros m. simpl. rewrite lookup_insert_ne by discriminate. destruct (decide (m = n)) as [->|Hm].
        * rewrite lookup_delete. split; [intros []; discriminate|contradiction].
        * rewrite lookup_delete_ne by (intros K; apply rkey_inj in K; congruence). rewrite Hr, !in_app_iff. simpl. intuition congruence.
    - rewrite lookup_insert_ne by discriminate. apply lookup_delete.
    - intros m Hm. rewrite lookup_insert_ne by discriminate. apply lookup_delete_ne. intros K; apply rkey_inj in K; congruence.
  Qed.

  Lemma call_swap e x y e' r : idle e -> call (CallSwap x y) e = (e', r) -> r = Err EName /\ e' = e.
  Proof.
    intros Hi. unfold call. destruct (txn_proc _ e) as [[t e1] r1] eqn:E. intros [= <- <-].
    apply txn_proc_result in E; [|exact Hi]. destruct E as [<- ->]. auto.
  Qed.

  Lemma history_rinv e : repo_history e -> exists l, rinv e l.
  Proof.
    induction 1 as [t e H|e c e' r _ [l IH] H].
    - apply txn_proc_result in H; [|reflexivity]. destruct H as [_ ->]. exists []. simpl.
      split; [reflexivity|]. simpl. split; [reflexivity|]. split; [constructor|].
      intros n. simpl. split; [|intros []]. intros [x Hx].
      change ((<[okey := ROrder []]> (∅ : gmap (string * string) rval)) !! rkey n = Some x) in Hx.
      rewrite lookup_insert_ne in Hx by discriminate. discriminate Hx.
    - destruct c as [n u p|n|x y].
      + destruct (call_add _ _ _ _ _ _ _ IH H) as [(_ & _ & pre & post & _ & _ & K & _)|(_ & -> & _)]; eauto.
      + destruct (call_remove _ _ _ _ _ IH H) as [(_ & pre & post & _ & K & _)|(_ & -> & _)]; eauto.
      + destruct IH as [Hi ?]. destruct (call_swap _ _ _ _ _ Hi H) as [_ ->]. exists l. now split.
  Qed.

  Lemma rinv_list e l : rinv e l -> repo_list e = Ok l.
  Proof. intros (_ & Ho & _). unfold repo_list. simpl. now rewrite Ho. Qed.
  Lemma rinv_has e l n : rinv e l -> exists b, repo_has e n = Ok b /\ (b = true <-> In n l).
  Proof.
    intros (_ & _ & _ & Hr). unfold repo_has. simpl. specialize (Hr n). destruct (e_store e !! _); simpl.
    - exists true. split; [reflexivity|]. rewrite <- Hr. split; eauto.
    - exists false. split; [reflexivity|]. rewrite <- Hr. split; [discriminate|]. intros []. discriminate.
  Qed.

  (** *** the statements *)
  Lemma repo_consistent e : repo_history e ->
    exists l, repo_list e = Ok l /\ NoDup l /\ forall n, exists b, repo_has e n = Ok b /\ (b = true <-> In n l).
  Proof.
    intros H. destruct (history_rinv e H) as [l Hl]. exists l. split; [now apply rinv_list|].
    split; [apply Hl|]. intros n. now apply rinv_has.
  Qed.
  Lemma repo_add_ok e l n uri at_ e' : repo_history e -> repo_list e = Ok l ->
    call (CallAdd n uri at_) e = (e', Ok tt) ->
    ~ In n l /\ repo_uri e' n = Some (RInfo uri) /\ (forall m, m <> n -> repo_uri e' m = repo_uri e m) /\
    match at_ with
    | None => repo_list e' = Ok (l ++ [n])%list
    | Some z => exists pre post, l = (pre ++ post)%list /\ z = Z.of_nat (length pre) /\ repo_list e' = Ok (pre ++ n :: post)%list
    end.
  Proof.
    intros H Hl Hc. destruct (history_rinv e H) as [l' Hl']. pose proof (rinv_list _ _ Hl') as E. rewrite Hl in E. injection E as <-.
    destruct (call_add _ _ _ _ _ _ _ Hl' Hc) as [(_ & H1 & pre & post & H2 & H3 & H4 & H5 & H6)|(K & _)]; [|discriminate K].
    split; [exact H1|]. split; [exact H5|]. split; [exact H6|]. apply rinv_list in H4. destruct at_; simpl in H3.
    - exists pre, post. auto.
    - subst post. rewrite app_nil_r in H2. now subst pre.
  Qed.
  Lemma repo_add_possible e l n uri at_ : repo_history e -> repo_list e = Ok l ->
    snd (call (CallAdd n uri at_) e) = Ok tt <->
    ~ In n l /\ match at_ with None => True | Some z => (0 <= z <= Z.of_nat (length l))%Z end.
  Proof.
    intros H Hl. destruct (history_rinv e H) as [l' Hl']. pose proof (rinv_list _ _ Hl') as E. rewrite Hl in E. injection E as <-.
    destruct (call (CallAdd n uri at_) e) as [e' r] eqn:Hc. simpl.
    destruct (call_add _ _ _ _ _ _ _ Hl' Hc) as [(-> & H1 & pre & post & -> & H3 & _)|(-> & _ & K)].
    - split; [intros _|auto]. split; [exact H1|]. destruct at_; [|exact I]. simpl in H3. rewrite app_length. lia.
    - split; [discriminate|]. intros [H1 H2]. destruct K as [K|K]; [contradiction|]. exfalso. destruct at_ as [z|].
      + apply (K (take (Z.to_nat z) l) (drop (Z.to_nat z) l)); [symmetry; apply take_drop|]. simpl. rewrite take_length, min_l by lia. lia.
      + apply (K l []); [now rewrite app_nil_r|reflexivity].
  Qed.
  Lemma repo_remove_ok e l n e' r : repo_history e -> repo_list e = Ok l -> call (CallRemove n) e = (e', r) ->
    (r = Ok tt <-> In n l) /\
    (r = Ok tt -> repo_uri e' n = None /\ (forall m, m <> n -> repo_uri e' m = repo_uri e m) /\
       exists pre post, l = (pre ++ n :: post)%list /\ repo_list e' = Ok (pre ++ post)%list).
  Proof.
    intros H Hl Hc. destruct (history_rinv e H) as [l' Hl']. pose proof (rinv_list _ _ Hl') as E. rewrite Hl in E. injection E as <-.
    destruct (call_remove _ _ _ _ _ Hl' Hc) as [(-> & pre & post & -> & H2 & H3 & H4)|(-> & _ & H1)].
    - split; [split; [intros _; apply in_or_app; right; now left|auto]|]. intros _. split; [exact H3|]. split; [exact H4|].
      exists pre, post. split; [reflexivity|]. now apply rinv_list.
    - split; [split; [discriminate|contradiction]|discriminate].
  Qed.
  Lemma repo_fail e c e' x : repo_history e -> call c e = (e', Err x) -> e' = e.
  Proof.
    intros H Hc. destruct (history_rinv e H) as [l [Hi _]]. unfold call in Hc.
    destruct (txn_proc (repo_proc c) e) as [[t e1] r1] eqn:E. injection Hc as <- ->.
    now destruct (txn_proc_all_or_nothing _ _ _ _ _ Hi E) as [_ [-> _]].
  Qed.
End repos.
