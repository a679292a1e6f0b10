(** * Facts about resumable builds *)
From Coq Require Import String Ascii ZArith List Bool Lia.
From stdpp Require Import list.
From Verif Require Import Model.Py Model.Build Spec.BuildSpec.
Import ListNotations.
Open Scope string_scope.
Open Scope list_scope.

Definition upto (patches : list string) (n : nat) : list event :=
  match n with
  | 0 => []
  | 1 => needed patches Setup
  | 2 => needed patches Compile
  | 3 => needed patches Install
  | _ => needed patches Package
  end%nat.

Lemma upto_mono patches m n : m <= n -> upto patches m `sublist_of` upto patches n.
Proof.
  intros H. assert (S : forall n, upto patches n `sublist_of` upto patches (S n)).
  { intros [|[|[|[|k]]]].
    - apply sublist_nil_l.
    - apply sublist_app; [reflexivity|]. apply sublist_nil_l.
    - apply sublist_app; [reflexivity|]. repeat constructor.
    - apply sublist_app; [reflexivity|]. repeat constructor.
    - reflexivity. }
  induction H as [|n H IH]; [reflexivity|]. transitivity (upto patches n); [exact IH|apply S].
Qed.

Lemma nothing_skipped_nil patches : nothing_skipped patches [].
Proof. intros [|x b] s a E; discriminate E. Qed.
Lemma nothing_skipped_note patches log e :
  nothing_skipped patches log -> (forall s, e = Began s -> needed patches s `sublist_of` log) ->
  nothing_skipped patches (log ++ [e]).
Proof.
  intros H N before s after E. destruct after as [|x after _] using rev_ind.
  - apply app_inj_tail in E as [-> ->]. now apply N.
  - rewrite app_comm_cons, app_assoc in E. apply app_inj_tail in E as [E _]. exact (H _ _ _ E).
Qed.

Section inv.
  Context (norootdir : bool) (patches packages : list string) (autoclean : bool).

  Definition inv (w : work) : Prop :=
    nothing_skipped patches (w_log w) /\
    (exists n, order (last_state w) = Some n /\ upto patches n `sublist_of` w_log w) /\
    (norootdir = true -> w_src w = false -> w_log w = []).
  Definition have (n : nat) (w : work) : Prop := inv w /\ upto patches n `sublist_of` w_log w.

  Definition fine (p : plan) (P Q : work -> Prop) (w : work) : Prop :=
    P w ->
    (forall k, ~ stopped_while_patching (fst p) k -> inv (exec (firstn k (fst p)) w)) /\
    (snd p = true -> Q (exec (fst p) w)).

  Lemma exec_app a b w : exec (a ++ b) w = exec b (exec a w).
  Proof. unfold exec. apply fold_left_app. Qed.

  Lemma fine_seq a b P Q R w : fine a P Q w -> fine b Q R (exec (fst a) w) -> fine (a ;;; b) P R w.
  Proof.
    intros Ha Hb HP. destruct (Ha HP) as [Ia Qa]. unfold seq. destruct (snd a) eqn:Sa.
    - destruct (Hb (Qa eq_refl)) as [Ib Rb]. cbn [fst snd]. split.
      + intros k Hk. destruct (Nat.le_gt_cases k (length (fst a))) as [L|L].
        * rewrite firstn_app. replace (k - length (fst a)) with 0 by lia. rewrite firstn_O, app_nil_r.
          apply Ia. intros [W [p Hp]]. apply Hk. split.
          -- rewrite firstn_app. apply in_or_app. now left.
          -- exists p. rewrite skipn_app. apply in_or_app. now left.
        * rewrite firstn_app, (firstn_all2 (fst a)) by lia. rewrite exec_app. apply Ib. intros [W [p Hp]]. apply Hk. split.
          -- rewrite firstn_app. apply in_or_app. now right.
          -- exists p. rewrite skipn_app. apply in_or_app. now right.
      + intros S. rewrite exec_app. now apply Rb.
    - split; [exact Ia|]. intros S. rewrite S in Sa. discriminate Sa.
  Qed.

  Lemma fine_nil (P Q : work -> Prop) b w : (P w -> inv w) -> (P w -> b = true -> Q w) -> fine ([], b) P Q w.
  Proof.
    intros I Hq HP. split; [|intros S; exact (Hq HP S)]. intros k _. cbn [fst]. rewrite firstn_nil. now apply I.
  Qed.

  Lemma inv_fresh : inv (mkWork None false []).
  Proof.
    split; [apply nothing_skipped_nil|]. split; [|easy]. exists 0. split; [reflexivity|apply sublist_nil_l].
  Qed.

  Lemma snoc_sublist (l k : list event) e : l `sublist_of` k -> l `sublist_of` k ++ [e].
  Proof. intros H. now apply sublist_inserts_r. Qed.

  Lemma inv_note w e : inv w -> (norootdir = true -> w_src w = true) -> (forall s, e = Began s -> needed patches s `sublist_of` w_log w) ->
    inv (note w e).
  Proof.
    intros (N & (n & O & S) & Z) Hs H. split; [now apply nothing_skipped_note|]. split.
    - exists n. split; [exact O|]. cbn. now apply snoc_sublist.
    - intros E F. cbn in F. rewrite (Hs E) in F. discriminate F.
  Qed.
  Lemma inv_state w s n : inv w -> order s = Some n -> s <> "" -> upto patches n `sublist_of` w_log w ->
    inv (mkWork (Some s) (w_src w) (w_log w)).
  Proof.
    intros (N & _ & Z) O E S. split; [exact N|]. split; [|exact Z]. exists n. split; [|exact S].
    unfold last_state. cbn. destruct s; [now elim E|exact O].
  Qed.
  Lemma inv_truncated w : inv w -> inv (mkWork (Some "") (w_src w) (w_log w)).
  Proof.
    intros (N & _ & Z). split; [exact N|]. split; [|exact Z]. exists 0. split; [reflexivity|apply sublist_nil_l].
  Qed.
  Lemma inv_src w n : 1 <= n -> upto patches n `sublist_of` w_log w -> inv w -> norootdir = true -> w_src w = true.
  Proof.
    intros L S (_ & _ & Z) E. destruct (w_src w) eqn:F; [reflexivity|]. rewrite (Z E eq_refl) in S.
    apply sublist_nil_r in S. destruct n as [|[|[|[|n]]]]; [lia|discriminate S..].
  Qed.

  Definition number (s : step) : nat := match s with Setup => 1 | Compile => 2 | Install => 3 | Package => 4 end.
  Lemma number_upto s : upto patches (number s) = needed patches s.
  Proof. now destruct s. Qed.
  Lemma upto_next s : s <> Package -> upto patches (S (number s)) = upto patches (number s) ++ [Ended s].
  Proof. intros H. destruct s; [..|now elim H]; unfold upto, number, needed; rewrite <- app_assoc; reflexivity. Qed.

  Lemma fine_begin s w : fine ([ABegin s], true) (have (number s)) (have (number s)) w.
  Proof.
    intros [I S]. assert (J : inv (note w (Began s))).
    { apply inv_note; [exact I| |].
      - apply (inv_src w (number s)); [now destruct s; cbn; lia|exact S|exact I].
      - intros s' E. injection E as <-. rewrite <- number_upto. exact S. }
    split.
    - intros [|[|k]] _; cbn; [exact I|exact J|exact J].
    - intros _. split; [exact J|]. cbn. now apply snoc_sublist.
  Qed.
  Lemma fine_end s w : s <> Package -> fine ([AEnd s], true) (have (number s)) (have (S (number s))) w.
  Proof.
    intros Hs [I S]. assert (J : inv (note w (Ended s))).
    { apply inv_note; [exact I| |].
      - apply (inv_src w (number s)); [now destruct s; cbn; lia|exact S|exact I].
      - intros s' E. discriminate E. }
    split.
    - intros [|[|k]] _; cbn; [exact I|exact J|exact J].
    - intros _. split; [exact J|]. cbn [exec fold_left exec1 note w_log fst]. rewrite (upto_next s Hs). now apply sublist_app.
  Qed.
  Lemma fine_end_package w : fine ([AEnd Package], true) (have 4) (have 4) w.
  Proof.
    intros [I S]. assert (J : inv (note w (Ended Package))).
    { apply inv_note; [exact I| |].
      - apply (inv_src w 4); [lia|exact S|exact I].
      - intros s' E. discriminate E. }
    split.
    - intros [|[|k]] _; cbn; [exact I|exact J|exact J].
    - intros _. split; [exact J|]. cbn [exec fold_left exec1 note w_log fst]. now apply sublist_inserts_r.
  Qed.
  Lemma fine_state s n m w : order s = Some n -> s <> "" -> upto patches n `sublist_of` upto patches m ->
    fine (set_state s) (have m) (have m) w.
  Proof.
    intros O E U [I S]. pose proof (inv_truncated w I) as I1.
    assert (I2 : inv (mkWork (Some s) (w_src w) (w_log w))).
    { apply (inv_state w s n I O E). now transitivity (upto patches m). }
    split.
    - intros [|[|[|k]]] _; cbn; [exact I|exact I1|exact I2|exact I2].
    - intros _. now split.
  Qed.

  Lemma fine_setup w : fine run_setup_action (have 1) (have 2) w.
  Proof.
    unfold run_setup_action. eapply fine_seq.
    - apply (fine_seq ([ABegin Setup], true) ([AEnd Setup], true) _ (have 1)); [apply fine_begin|apply fine_end; discriminate].
    - apply (fine_state _ 2); [reflexivity|discriminate|reflexivity].
  Qed.
  Lemma fine_compile w : fine run_build_action (have 2) (have 3) w.
  Proof.
    unfold run_build_action. eapply fine_seq.
    - apply (fine_seq ([ABegin Compile], true) ([AEnd Compile], true) _ (have 2)); [apply fine_begin|apply fine_end; discriminate].
    - apply (fine_state _ 3); [reflexivity|discriminate|reflexivity].
  Qed.
  Lemma fine_install w : fine run_install_action (have 3) (have 4) w.
  Proof.
    unfold run_install_action. eapply fine_seq.
    - apply (fine_seq ([ABegin Install], true) ([AEnd Install], true) _ (have 3)); [apply fine_begin|apply fine_end; discriminate].
    - apply (fine_state _ 4); [reflexivity|discriminate|reflexivity].
  Qed.
  Lemma fine_packages w : fine (build_packages packages autoclean) (have 4) inv w.
  Proof.
    unfold build_packages. apply (fine_seq _ _ _ (have 4)); [apply (fine_begin Package)|].
    apply (fine_seq _ _ _ (have 4)).
    - generalize (exec (fst ([ABegin Package], true)) w). induction packages as [|x l IH]; intros v; cbn [fold_right].
      + apply fine_nil; [now intros [I _]|auto].
      + apply (fine_seq _ _ _ (have 4)); [apply (fine_state _ 5); [reflexivity|discriminate|reflexivity]|apply IH].
    - apply (fine_seq _ _ _ (have 4)); [apply fine_end_package|]. destruct autoclean.
      + intros [I _]. split; [|intros _; apply inv_fresh]. intros [|[|k]] _; cbn; [exact I|apply inv_fresh|apply inv_fresh].
      + apply fine_nil; now intros [I _].
  Qed.

  Lemma exec_patches l w : exec (map APatch l) w = mkWork (w_state w) (w_src w) (w_log w ++ map Patched l).
  Proof.
    revert w. induction l as [|p l IH]; intros w; cbn [map]; [cbn; rewrite app_nil_r; now destruct w|].
    change (exec (APatch p :: map APatch l) w) with (exec (map APatch l) (note w (Patched p))). rewrite IH. cbn.
    now rewrite <- app_assoc.
  Qed.

  Lemma not_stopped_all l k : (forall p, ~ In (APatch p) (skipn k (map APatch l))) -> firstn k (map APatch l) = map APatch l.
  Proof.
    intros H. rewrite <- (firstn_skipn k (map APatch l)) at 2. destruct (skipn k (map APatch l)) as [|a r] eqn:E; [now rewrite app_nil_r|].
    exfalso. assert (In a (map APatch l)) as Ia.
    { rewrite <- (firstn_skipn k (map APatch l)), E. apply in_or_app. right. now left. }
    apply in_map_iff in Ia as (p & <- & _). apply (H p). now left.
  Qed.

  Lemma upto_1 : upto patches 1 = [Unpacked] ++ map Patched patches.
  Proof. unfold upto, needed. now rewrite app_nil_r. Qed.
  (** After unpacking (the actions [a], leaving [v]), recording it and patching *)
  Lemma fine_unpack_with a w v :
    (forall k, inv (exec (firstn k a) w)) -> exec a w = v -> w_log v = [Unpacked] -> (norootdir = true -> w_src v = true) ->
    fine (((a, true) ;;; set_state "unpack") ;;; apply_patches patches) inv (have 1) w.
  Proof.
    intros Ha Hv Hl Hs I.
    assert (Iv : inv v) by (rewrite <- Hv; rewrite <- (firstn_all a) at 1; apply Ha).
    assert (I1 : inv (mkWork (Some "") (w_src v) (w_log v))) by now apply inv_truncated.
    assert (I2 : have 1 (mkWork (Some "unpack") (w_src v) (w_log v ++ map Patched patches))).
    { split; [|rewrite upto_1; cbn [w_log]; rewrite Hl; reflexivity]. split; [|split].
      - cbn [w_log]. rewrite Hl. intros before s after E.
        assert (In (Began s) ([Unpacked] ++ map Patched patches)) as F by (rewrite E; apply in_or_app; right; now left).
        cbn in F. destruct F as [F|F]; [discriminate F|]. apply in_map_iff in F as (? & F & _). discriminate F.
      - exists 1. split; [reflexivity|]. rewrite upto_1. cbn [w_log]. rewrite Hl. reflexivity.
      - intros E F. cbn in F. rewrite (Hs E) in F. discriminate F. }
    cbn [seq set_state apply_patches fst snd]. split.
    - intros k Hk. destruct (Nat.le_gt_cases k (length a)) as [L|L].
      { rewrite !firstn_app. replace (k - length a) with 0 by lia. cbn [firstn]. rewrite app_length.
        replace (k - (length a + length [ATruncate; AWrite "unpack"])) with 0 by (cbn; lia). rewrite firstn_O, !app_nil_r. apply Ha. }
      rewrite firstn_app, app_length, exec_app. cbn [length].
      rewrite (firstn_app k a), (firstn_all2 a) by lia. rewrite exec_app, Hv.
      destruct (k - length a) as [|[|m]] eqn:K; [lia| |].
      + replace (k - (length a + 2)) with 0 by lia. exact I1.
      + replace (k - (length a + 2)) with m by lia. cbn [firstn]. rewrite firstn_nil. cbn [exec fold_left exec1].
        change (fold_left exec1 ?x ?y) with (exec x y). cbn [w_src w_log].
        rewrite not_stopped_all; [rewrite exec_patches; apply I2|]. intros p Hp. apply Hk. split.
        * rewrite firstn_app, (firstn_app k a), K. apply in_or_app. left. apply in_or_app. right. right. now left.
        * exists p. rewrite skipn_app, app_length. cbn [length]. replace (k - (length a + 2)) with m by lia.
          apply in_or_app. now right.
    - intros _. rewrite !exec_app, Hv. cbn [exec fold_left exec1 w_src w_log].
      change (fold_left exec1 ?x ?y) with (exec x y). rewrite exec_patches. exact I2.
  Qed.

  Lemma fine_unpack w : fine (buildState_unpack norootdir patches w) inv (have 1) w.
  Proof.
    unfold buildState_unpack, unpack_source_archive, unpack. intros I. assert (C : norootdir = true \/ norootdir = false) by (case norootdir; auto).
    destruct C as [E|E].
    - rewrite E. destruct (w_src w) eqn:F.
      { revert I. apply fine_nil; [auto|discriminate]. }
      pose proof I as (_ & (n & O & S) & Z).
      specialize (Z E F). apply (fine_unpack_with [AMkdir; AUnpack] w (mkWork (w_state w) true [Unpacked])).
      + assert (I1 : inv (mkWork (w_state w) true (w_log w))).
        { split; [rewrite Z; apply nothing_skipped_nil|]. split; [now exists n|]. intros _ G. discriminate G. }
        assert (I2 : inv (note (mkWork (w_state w) true (w_log w)) Unpacked)).
        { apply inv_note; [exact I1|reflexivity|discriminate]. }
        intros [|[|[|k]]]; cbn; [exact I|exact I1|exact I2|exact I2].
      + cbn. unfold note. cbn. rewrite Z. reflexivity.
      + reflexivity.
      + reflexivity.
      + exact I.
    - rewrite E. apply (fine_unpack_with [AClean; AUnpack] w (mkWork None false [Unpacked])); [|reflexivity..|intros G; congruence|exact I].
      assert (I2 : inv (note (mkWork None false []) Unpacked)).
      { apply inv_note; [apply inv_fresh|congruence|discriminate]. }
      intros [|[|[|k]]]; cbn; [exact I|apply inv_fresh|exact I2|exact I2].
  Qed.

  Lemma fine_unless w n p : fine p inv (have n) w -> fine (unless_done (last_state w) n p) inv (have n) w.
  Proof.
    intros H I. pose proof I as (_ & (k & O & S) & _). unfold unless_done. rewrite O. destruct (Nat.ltb_spec k n) as [L|L].
    - now apply H.
    - revert I. apply fine_nil; [auto|]. intros I _. split; [exact I|]. transitivity (upto patches k); [now apply upto_mono|exact S].
  Qed.

  Lemma fine_setupaction w : fine (buildState_setupaction norootdir patches w (last_state w)) inv (have 2) w.
  Proof. eapply fine_seq; [apply fine_unless, fine_unpack|apply fine_setup]. Qed.
  Lemma fine_buildaction w : fine (buildState_buildaction norootdir patches w (last_state w)) inv (have 3) w.
  Proof. eapply fine_seq; [apply fine_unless, fine_setupaction|apply fine_compile]. Qed.
  Lemma fine_installaction w : fine (buildState_installaction norootdir patches w (last_state w)) inv (have 4) w.
  Proof. eapply fine_seq; [apply fine_unless, fine_buildaction|apply fine_install]. Qed.
  Lemma fine_buildpackages w : fine (buildState_buildpackages norootdir patches packages autoclean w (last_state w)) inv inv w.
  Proof. eapply fine_seq; [apply fine_unless, fine_installaction|apply fine_packages]. Qed.

  Lemma fine_prefix p P Q w k : fine p P Q w -> P w -> ~ stopped_while_patching (fst p) k -> inv (exec (firstn k (fst p)) w).
  Proof. intros F H K. now apply F. Qed.

  Lemma until_inv target w k : inv w -> ~ stopped_while_patching (fst (build_until norootdir patches packages autoclean target w)) k ->
    inv (exec (firstn k (fst (build_until norootdir patches packages autoclean target w))) w).
  Proof.
    intros I. unfold build_until.
    destruct (String.eqb target "unpack"); [apply (fine_prefix _ _ _ _ _ (fine_unpack w) I)|].
    destruct (String.eqb target "setup"); [apply (fine_prefix _ _ _ _ _ (fine_setupaction w) I)|].
    destruct (String.eqb target "build"); [apply (fine_prefix _ _ _ _ _ (fine_buildaction w) I)|].
    destruct (String.eqb target "install"); [apply (fine_prefix _ _ _ _ _ (fine_installaction w) I)|].
    apply (fine_prefix _ _ _ _ _ (fine_buildpackages w) I).
  Qed.

  Lemma seq_assoc a b c : (a ;;; b) ;;; c = a ;;; (b ;;; c).
  Proof.
    unfold seq. destruct a as [a []], b as [b []], c as [c d]; cbn; try reflexivity. now rewrite app_assoc.
  Qed.
  Lemma fine_build w : fine (build norootdir patches packages autoclean w) inv inv w.
  Proof.
    unfold build. rewrite <- seq_assoc. eapply fine_seq; [apply fine_unpack|].
    eapply fine_seq; [apply fine_setup|]. eapply fine_seq; [apply fine_compile|]. eapply fine_seq; [apply fine_install|apply fine_packages].
  Qed.
  Lemma history_inv w :
    history norootdir patches packages autoclean (fun acts k => ~ stopped_while_patching acts k) w -> inv w.
  Proof.
    induction 1 as [|w target k H IH acts K|w k H IH acts K].
    - apply inv_fresh.
    - now apply until_inv.
    - exact (fine_prefix _ _ _ _ _ (fine_build w) IH K).
  Qed.

  Lemma history_partial w :
    history norootdir patches packages autoclean (fun acts k => ~ stopped_while_patching acts k) w ->
    nothing_skipped patches (w_log w).
  Proof. intros H. apply history_inv in H. apply H. Qed.

  Definition quiet (p : plan) : Prop := forall x, ~ In (APatch x) (fst p).
  Lemma quiet_seq a b : quiet a -> quiet b -> quiet (a ;;; b).
  Proof.
    intros A B x. unfold seq. destruct (snd a); [|apply A]. cbn [fst]. rewrite in_app_iff.
    intros [F|F]; [exact (A x F)|exact (B x F)].
  Qed.
  Lemma quiet_packages : quiet (build_packages packages autoclean).
  Proof.
    unfold build_packages. apply quiet_seq; [intros x F; cbn in F; intuition discriminate|]. apply quiet_seq.
    - induction packages as [|y l IH]; cbn [fold_right]; [easy|]. apply quiet_seq; [|exact IH]. intros x F. cbn in F. intuition discriminate.
    - apply quiet_seq; [intros x F; cbn in F; intuition discriminate|]. destruct autoclean; intros x F; cbn in F; intuition discriminate.
  Qed.
  Lemma quiet_until target w : patches = [] -> quiet (build_until norootdir patches packages autoclean target w).
  Proof.
    intros N. assert (U : quiet (buildState_unpack norootdir patches w)).
    { unfold buildState_unpack, unpack_source_archive, unpack, apply_patches. rewrite N. destruct norootdir, (w_src w); intros x F; cbn in F; intuition discriminate. }
    assert (V : forall n p, quiet p -> quiet (unless_done (last_state w) n p)).
    { intros n p H. unfold unless_done. destruct (order (last_state w)) as [k|]; [|easy]. destruct (Nat.ltb k n); [exact H|easy]. }
    assert (S : forall l, (forall x, ~ In (APatch x) l) -> quiet (l, true)) by easy.
    assert (S1 : quiet (buildState_setupaction norootdir patches w (last_state w))).
    { apply quiet_seq; [now apply V|]. intros x F. cbn in F. intuition discriminate. }
    assert (S2 : quiet (buildState_buildaction norootdir patches w (last_state w))).
    { apply quiet_seq; [now apply V|]. intros x F. cbn in F. intuition discriminate. }
    assert (S3 : quiet (buildState_installaction norootdir patches w (last_state w))).
    { apply quiet_seq; [now apply V|]. intros x F. cbn in F. intuition discriminate. }
    assert (S4 : quiet (buildState_buildpackages norootdir patches packages autoclean w (last_state w))).
    { apply quiet_seq; [now apply V|]. apply quiet_packages. }
    unfold build_until. destruct (String.eqb target _); [exact U|]. destruct (String.eqb target _); [exact S1|].
    destruct (String.eqb target _); [exact S2|]. destruct (String.eqb target _); [exact S3|exact S4].
  Qed.
  Lemma quiet_build w : patches = [] -> quiet (build norootdir patches packages autoclean w).
  Proof.
    intros N. unfold build. rewrite <- seq_assoc. apply quiet_seq.
    { unfold unpack_source_archive, unpack, apply_patches. rewrite N. destruct norootdir, (w_src w); intros x F; cbn in F; intuition discriminate. }
    do 3 (apply quiet_seq; [intros x F; cbn in F; intuition discriminate|]). apply quiet_packages.
  Qed.

  (** Without patches, no stop does harm *)
  Lemma history_any w :
    patches = [] ->
    history norootdir patches packages autoclean (fun _ _ => True) w ->
    nothing_skipped patches (w_log w).
  Proof.
    intros N H. apply history_partial. induction H as [|w target k H IH acts _|w k H IH acts _]; constructor; [exact IH| |exact IH|].
    - intros [_ [p Hp]]. apply (quiet_until target w N p). rewrite <- (firstn_skipn k). apply in_or_app. right. exact Hp.
    - intros [_ [p Hp]]. apply (quiet_build w N p). rewrite <- (firstn_skipn k). apply in_or_app. right. exact Hp.
  Qed.

  (** A call that returns has done what it was asked *)
  Lemma history_done w :
    history norootdir patches packages autoclean (fun acts k => ~ stopped_while_patching acts k) w ->
    let result target := exec (fst (build_until norootdir patches packages autoclean target w)) w in
    let returns target := snd (build_until norootdir patches packages autoclean target w) = true in
    (returns "unpack" -> needed patches Setup `sublist_of` w_log (result "unpack")) /\
    (returns "setup" -> needed patches Compile `sublist_of` w_log (result "setup")) /\
    (returns "build" -> needed patches Install `sublist_of` w_log (result "build")) /\
    (returns "install" -> needed patches Package `sublist_of` w_log (result "install")).
  Proof.
    intros H. apply history_inv in H. cbv beta zeta. unfold build_until. cbn [String.eqb Ascii.eqb Bool.eqb]. repeat split; intros R.
    - destruct (fine_unpack w H) as [_ F]. apply (F R).
    - destruct (fine_setupaction w H) as [_ F]. apply (F R).
    - destruct (fine_buildaction w H) as [_ F]. apply (F R).
    - destruct (fine_installaction w H) as [_ F]. apply (F R).
  Qed.
End inv.

(** ** What goes wrong *)
Section wrong.
  Context (norootdir : bool) (patches packages : list string) (autoclean : bool).
  Notation anyhow := (history norootdir patches packages autoclean (fun _ _ => True)).

  Lemma until_run w target k : anyhow w ->
    anyhow (exec (firstn k (fst (build_until norootdir patches packages autoclean target w))) w).
  Proof. intros H. now apply h_until. Qed.
  Lemma until_whole w target : anyhow w ->
    anyhow (exec (fst (build_until norootdir patches packages autoclean target w)) w).
  Proof. intros H. rewrite <- (firstn_all (fst (build_until norootdir patches packages autoclean target w))) at 1. now apply h_until. Qed.

  Lemma skipped_patches : patches <> [] -> exists w, anyhow w /\ ~ nothing_skipped patches (w_log w).
  Proof.
    intros N. destruct patches as [|p l] eqn:E; [now elim N|]. rewrite <- E.
    set (w0 := mkWork None false []).
    assert (H1 : anyhow (mkWork (Some "unpack") norootdir [Unpacked])).
    { pose proof (until_run w0 "unpack" 4 (h_fresh _ _ _ _ _)) as H. rewrite E in *. destruct norootdir; exact H. }
    pose proof (until_run _ "setup" 1 H1) as H2. exists (mkWork (Some "unpack") norootdir [Unpacked; Began Setup]). rewrite E in *. split; [exact H2|].
    intros S. specialize (S [Unpacked] Setup [] eq_refl). apply sublist_length in S. cbn in S. lia.
  Qed.

  Lemma half_step : exists w before s s' middle after, anyhow w /\
    w_log w = before ++ Began s :: middle ++ Began s' :: after /\ s = Setup /\ s' = Install /\ ~ In (Ended s) middle.
  Proof.
    set (log := (Unpacked :: map Patched patches) ++ [Began Setup; Ended Setup; Began Compile; Ended Compile]).
    assert (H1 : anyhow (mkWork (Some "buildaction") norootdir log)).
    { pose proof (until_whole (mkWork None false []) "build" (h_fresh _ _ _ _ _)) as H.
      assert (E : exec (fst (build_until norootdir patches packages autoclean "build" (mkWork None false []))) (mkWork None false []) =
                  mkWork (Some "buildaction") norootdir log).
      { unfold build_until. cbn [String.eqb Ascii.eqb Bool.eqb]. unfold buildState_buildaction, buildState_setupaction, buildState_unpack, unpack_source_archive, unpack.
        destruct norootdir; cbn [w_src]; unfold unless_done, last_state, order; cbn [w_state String.eqb Ascii.eqb Bool.eqb Nat.ltb Nat.leb]; unfold apply_patches, run_setup_action, run_build_action, set_state, seq; cbn [fst snd];
        rewrite !exec_app; cbn [exec fold_left exec1 note w_log w_src w_state];
        change (fold_left exec1 ?x ?y) with (exec x y); rewrite exec_patches; cbn [exec fold_left exec1 note w_log w_src w_state]; unfold note; cbn [w_log w_src w_state]; unfold log; rewrite <- !app_assoc; reflexivity. }
      rewrite <- E. exact H. }
    pose proof (until_run _ "setup" 1 H1) as H2. pose proof (until_run _ "install" 1 H2) as H3.
    exists (mkWork (Some "buildaction") norootdir (log ++ [Began Setup] ++ [Began Install])), log, Setup, Install, [], [].
    split; [|now repeat split]. rewrite app_assoc. exact H3.
  Qed.
End wrong.

Lemma stuck patches packages autoclean w : w_src w = true -> last_state w = "none" ->
  (forall target, build_until true patches packages autoclean target w = ([], false)) /\
  build true patches packages autoclean w = ([], false).
Proof.
  intros S L. assert (U : buildState_unpack true patches w = ([], false)).
  { unfold buildState_unpack, unpack_source_archive, unpack. now rewrite S. }
  split.
  - intros target. unfold build_until. rewrite L. unfold buildState_buildpackages, buildState_installaction, buildState_buildaction, buildState_setupaction.
    rewrite U. cbn [unless_done order String.eqb Ascii.eqb Bool.eqb Nat.ltb Nat.leb]. cbn.
    destruct (String.eqb target _); [reflexivity|]. now repeat destruct (String.eqb target _).
  - unfold build, unpack_source_archive, unpack. now rewrite S.
Qed.
Lemma stuck_reachable patches packages autoclean : exists w,
  history true patches packages autoclean (fun _ _ => True) w /\ w_src w = true /\ last_state w = "none".
Proof.
  exists (mkWork None true []). split; [|now split].
  exact (h_until true patches packages autoclean (fun _ _ => True) _ "unpack" 1 (h_fresh _ _ _ _ _) Logic.I).
Qed.
