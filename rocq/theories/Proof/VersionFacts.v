(** * Proofs about version comparison *)
From Coq Require Import String Ascii List Bool ZArith Arith Lia Permutation.
From Verif Require Import Model.Py Model.Version Spec.VersionSpec Proof.PyFacts.
Import ListNotations.
Open Scope string_scope.

(** ** Items *)
Lemma kw_before_rank a b : kw_before a b <-> (kw_rank a < kw_rank b)%Z.
Proof.
  split.
  - intros (l1 & l2 & l3 & H). unfold kw_order in H.
    repeat (destruct l1 as [|? l1]; simpl in H; [injection H as <- H|injection H as <- H];
      [repeat (destruct l2 as [|? l2]; simpl in H; [try (injection H as <- H); try discriminate H; cbv; try reflexivity|
               try (injection H as <- H); try discriminate H]) | ]); try discriminate H;
    try (destruct l1; discriminate H).
  - unfold kw_before, kw_order. intros H.
    destruct a, b; cbv in H; try discriminate H.
    all: try (exists [], [], [KPre; KRc; KM; KNone; KP]; reflexivity).
    all: try (exists [], [KBeta], [KRc; KM; KNone; KP]; reflexivity).
    all: try (exists [], [KBeta; KPre], [KM; KNone; KP]; reflexivity).
    all: try (exists [], [KBeta; KPre; KRc], [KNone; KP]; reflexivity).
    all: try (exists [], [KBeta; KPre; KRc; KM], [KP]; reflexivity).
    all: try (exists [], [KBeta; KPre; KRc; KM; KNone], []; reflexivity).
    all: try (exists [KAlpha], [], [KRc; KM; KNone; KP]; reflexivity).
    all: try (exists [KAlpha], [KPre], [KM; KNone; KP]; reflexivity).
    all: try (exists [KAlpha], [KPre; KRc], [KNone; KP]; reflexivity).
    all: try (exists [KAlpha], [KPre; KRc; KM], [KP]; reflexivity).
    all: try (exists [KAlpha], [KPre; KRc; KM; KNone], []; reflexivity).
    all: try (exists [KAlpha; KBeta], [], [KM; KNone; KP]; reflexivity).
    all: try (exists [KAlpha; KBeta], [KRc], [KNone; KP]; reflexivity).
    all: try (exists [KAlpha; KBeta], [KRc; KM], [KP]; reflexivity).
    all: try (exists [KAlpha; KBeta], [KRc; KM; KNone], []; reflexivity).
    all: try (exists [KAlpha; KBeta; KPre], [], [KNone; KP]; reflexivity).
    all: try (exists [KAlpha; KBeta; KPre], [KM], [KP]; reflexivity).
    all: try (exists [KAlpha; KBeta; KPre], [KM; KNone], []; reflexivity).
    all: try (exists [KAlpha; KBeta; KPre; KRc], [], [KP]; reflexivity).
    all: try (exists [KAlpha; KBeta; KPre; KRc], [KNone], []; reflexivity).
    all: try (exists [KAlpha; KBeta; KPre; KRc; KM], [], []; reflexivity).
Qed.

Lemma kw_rank_inj a b : kw_rank a = kw_rank b -> a = b.
Proof. destruct a, b; intros H; try reflexivity; discriminate H. Qed.

Lemma val_ltb_iff a b : val_ltb a b = true <-> val_before a b.
Proof.
  destruct a, b; simpl.
  - rewrite Z.ltb_lt. split; [intros; now constructor|inversion 1; assumption].
  - split; [intros; constructor|reflexivity].
  - split; [discriminate|inversion 1].
  - rewrite Nat.ltb_lt. split; [intros; now constructor|inversion 1; assumption].
Qed.

Lemma item_ltb_iff a b : item_ltb a b = true <-> item_before a b.
Proof.
  unfold item_ltb, item_before. rewrite kw_before_rank, <- val_ltb_iff.
  destruct (Z.ltb_spec (kw_rank (i_kw a)) (kw_rank (i_kw b))) as [H|H]; [tauto|].
  destruct (Z.eqb_spec (kw_rank (i_kw a)) (kw_rank (i_kw b))) as [E|E].
  - apply kw_rank_inj in E. split; [intros; right; tauto|]. intros [?|[_ ?]]; [lia|assumption].
  - split; [discriminate|]. intros [?|[H' _]]; [lia|]. rewrite H' in E. congruence.
Qed.

Lemma item_gtb_ltb a b : item_gtb a b = item_ltb b a.
Proof.
  unfold item_gtb, item_ltb. rewrite (Z.eqb_sym (kw_rank (i_kw a))). reflexivity.
Qed.

Lemma val_before_irrefl a : ~ val_before a a.
Proof. inversion 1; lia. Qed.
Lemma val_before_trans a b c : val_before a b -> val_before b c -> val_before a c.
Proof. inversion 1; inversion 1; subst; constructor; lia. Qed.
Lemma val_before_total a b : val_before a b \/ a = b \/ val_before b a.
Proof.
  destruct a as [x|c], b as [y|d].
  - destruct (Z.lt_trichotomy x y) as [H|[H|H]]; [left|right;left|right;right]; try (constructor; lia). now subst.
  - left; constructor.
  - right; right; constructor.
  - destruct (Nat.lt_trichotomy (nat_of_ascii c) (nat_of_ascii d)) as [H|[H|H]];
      [left; now constructor|right; left|right; right; now constructor].
    f_equal. rewrite <- (ascii_nat_embedding c), <- (ascii_nat_embedding d). now rewrite H.
Qed.

Lemma item_before_irrefl a : ~ item_before a a.
Proof. intros [H|[_ H]]; [apply kw_before_rank in H; lia|now apply val_before_irrefl in H]. Qed.
Lemma item_before_trans a b c : item_before a b -> item_before b c -> item_before a c.
Proof.
  unfold item_before. rewrite !kw_before_rank. intros [H|[H H']] [K|[K K']].
  - left; lia.
  - left. now rewrite <- K.
  - left. now rewrite H.
  - right. split; [congruence|]. eapply val_before_trans; eassumption.
Qed.
Lemma item_before_total a b : item_before a b \/ a = b \/ item_before b a.
Proof.
  unfold item_before. rewrite !kw_before_rank.
  destruct (Z.lt_trichotomy (kw_rank (i_kw a)) (kw_rank (i_kw b))) as [H|[H|H]]; [tauto| |tauto].
  apply kw_rank_inj in H.
  destruct (val_before_total (i_val a) (i_val b)) as [K|[K|K]]; [tauto| |intuition].
  right; left. destruct a, b; simpl in *; congruence.
Qed.

(** ** Versions *)
Lemma ver_before_irrefl a : ~ ver_before a a.
Proof. intros (i & _ & H). now apply item_before_irrefl in H. Qed.

Lemma ver_before_trans a b c : ver_before a b -> ver_before b c -> ver_before a c.
Proof.
  intros (i & Hi & Li) (j & Hj & Lj).
  destruct (Nat.lt_trichotomy i j) as [H|[H|H]].
  - exists i. split; [intros k Hk; rewrite Hi by lia; apply Hj; lia|]. now rewrite <- Hj.
  - subst j. exists i. split; [intros k Hk; rewrite Hi by lia; apply Hj; lia|].
    eapply item_before_trans; eassumption.
  - exists j. split; [intros k Hk; rewrite Hi by lia; apply Hj; lia|]. now rewrite Hi.
Qed.

Lemma ver_same_refl a : ver_same a a.
Proof. intro; reflexivity. Qed.
Lemma ver_same_sym a b : ver_same a b -> ver_same b a.
Proof. intros H i. now rewrite H. Qed.
Lemma ver_same_trans a b c : ver_same a b -> ver_same b c -> ver_same a c.
Proof. intros H K i. now rewrite H. Qed.
Lemma ver_before_same_l a a' b : ver_same a a' -> ver_before a b -> ver_before a' b.
Proof. intros S (i & H & L). exists i. split; [intros; rewrite <- S; auto|]. now rewrite <- S. Qed.
Lemma ver_before_same_r a b b' : ver_same b b' -> ver_before a b -> ver_before a b'.
Proof. intros S (i & H & L). exists i. split; [intros; rewrite <- S; auto|]. now rewrite <- S. Qed.
Lemma ver_before_not_same a b : ver_before a b -> ~ ver_same a b.
Proof. intros H S. apply (ver_before_irrefl b). eapply ver_before_same_l; eassumption. Qed.
Lemma ver_before_asym a b : ver_before a b -> ~ ver_before b a.
Proof. intros H K. apply (ver_before_irrefl a). eapply ver_before_trans; eassumption. Qed.

Lemma nth_repeat_zero i n : nth i (repeat zero_item n) zero_item = zero_item.
Proof. revert i; induction n; intros [|i]; simpl; auto. Qed.

Lemma comp_pad v n i : comp (v ++ repeat zero_item n)%list i = comp v i.
Proof.
  unfold comp. change {| i_kw := KNone; i_val := VInt 0 |} with zero_item.
  destruct (Nat.lt_ge_cases i (length v)) as [H|H].
  - now rewrite app_nth1.
  - rewrite app_nth2 by exact H. rewrite nth_repeat_zero. now rewrite nth_overflow.
Qed.

Lemma pad_spec l r : let '(l', r') := pad l r in
  ver_same l' l /\ ver_same r' r /\ length l' = length r'.
Proof.
  unfold pad. destruct (Nat.ltb_spec (length l) (length r)) as [H|H].
  - repeat split; [intro; apply comp_pad|]. rewrite app_length, repeat_length. lia.
  - destruct (Nat.ltb_spec (length r) (length l)) as [K|K].
    + repeat split; [intro; apply comp_pad|]. rewrite app_length, repeat_length. lia.
    + repeat split; try lia.
Qed.

Lemma comp_cons_S x l i : comp (x :: l) (S i) = comp l i.
Proof. reflexivity. Qed.

Lemma cmp_zip_spec l r : length l = length r ->
  (cmp_zip l r = (-1)%Z /\ ver_before l r) \/ (cmp_zip l r = 0%Z /\ ver_same l r)
  \/ (cmp_zip l r = 1%Z /\ ver_before r l).
Proof.
  revert r; induction l as [|x l IH]; intros [|y r] Hlen; simpl in Hlen; try discriminate Hlen.
  - right; left. split; [reflexivity|intro; reflexivity].
  - simpl. destruct (item_ltb x y) eqn:E1.
    + left. split; [reflexivity|]. exists 0. split; [lia|]. now apply item_ltb_iff.
    + rewrite item_gtb_ltb. destruct (item_ltb y x) eqn:E2.
      * right; right. split; [reflexivity|]. exists 0. split; [lia|]. now apply item_ltb_iff.
      * assert (x = y) as <-.
        { destruct (item_before_total x y) as [H|[H|H]]; [|exact H|];
            apply item_ltb_iff in H; congruence. }
        destruct (IH r) as [[H K]|[[H K]|[H K]]]; [lia| | |].
        -- left. split; [exact H|]. destruct K as (i & Ki & Li). exists (S i).
           split; [|exact Li]. intros [|j] Hj; [reflexivity|]. rewrite !comp_cons_S. apply Ki. lia.
        -- right; left. split; [exact H|]. intros [|i]; [reflexivity|]. apply K.
        -- right; right. split; [exact H|]. destruct K as (i & Ki & Li). exists (S i).
           split; [|exact Li]. intros [|j] Hj; [reflexivity|]. rewrite !comp_cons_S. apply Ki. lia.
Qed.

Lemma vcompare_cases l r :
  (vcompare l r = (-1)%Z /\ ver_before l r) \/ (vcompare l r = 0%Z /\ ver_same l r)
  \/ (vcompare l r = 1%Z /\ ver_before r l).
Proof.
  unfold vcompare, compare_mut. pose proof (pad_spec l r) as Hp. destruct (pad l r) as [l' r'].
  destruct Hp as (Sl & Sr & Hlen). simpl.
  destruct (cmp_zip_spec l' r' Hlen) as [[H K]|[[H K]|[H K]]].
  - left. split; [exact H|]. eapply ver_before_same_l; [exact Sl|]. eapply ver_before_same_r; eassumption.
  - right; left. split; [exact H|]. eapply ver_same_trans; [apply ver_same_sym, Sl|].
    eapply ver_same_trans; eassumption.
  - right; right. split; [exact H|]. eapply ver_before_same_l; [exact Sr|]. eapply ver_before_same_r; eassumption.
Qed.

Lemma vcompare_lt l r : vcompare l r = (-1)%Z <-> ver_before l r.
Proof.
  destruct (vcompare_cases l r) as [[H K]|[[H K]|[H K]]]; rewrite H; split; intros X;
    try discriminate X; try tauto; exfalso.
  - eapply ver_before_not_same; eassumption.
  - eapply ver_before_asym; eassumption.
Qed.
Lemma vcompare_eq l r : vcompare l r = 0%Z <-> ver_same l r.
Proof.
  destruct (vcompare_cases l r) as [[H K]|[[H K]|[H K]]]; rewrite H; split; intros X;
    try discriminate X; try tauto; exfalso.
  - eapply ver_before_not_same; eassumption.
  - eapply ver_before_not_same; [eassumption|]. now apply ver_same_sym.
Qed.
Lemma vcompare_gt l r : vcompare l r = 1%Z <-> ver_before r l.
Proof.
  destruct (vcompare_cases l r) as [[H K]|[[H K]|[H K]]]; rewrite H; split; intros X;
    try discriminate X; try tauto; exfalso.
  - eapply ver_before_asym; eassumption.
  - eapply ver_before_not_same; [eassumption|]. now apply ver_same_sym.
Qed.
Lemma vcompare_opp l r : vcompare r l = (- vcompare l r)%Z.
Proof.
  destruct (vcompare_cases l r) as [[H K]|[[H K]|[H K]]]; rewrite H.
  - now apply vcompare_gt.
  - now apply vcompare_eq, ver_same_sym.
  - now apply vcompare_lt.
Qed.
Lemma vcompare_refl l : vcompare l l = 0%Z.
Proof. apply vcompare_eq. intro; reflexivity. Qed.

Lemma vcompare_same l l' r r' : ver_same l l' -> ver_same r r' -> vcompare l r = vcompare l' r'.
Proof.
  intros Sl Sr. destruct (vcompare_cases l r) as [[H K]|[[H K]|[H K]]]; rewrite H; symmetry.
  - apply vcompare_lt. eapply ver_before_same_l; [exact Sl|]. eapply ver_before_same_r; eassumption.
  - apply vcompare_eq. eapply ver_same_trans; [apply ver_same_sym, Sl|]. eapply ver_same_trans; eassumption.
  - apply vcompare_gt. eapply ver_before_same_l; [exact Sr|]. eapply ver_before_same_r; eassumption.
Qed.

Lemma v_ops l r :
  (v_lt l r = true <-> ver_before l r) /\ (v_gt l r = true <-> ver_before r l) /\
  (v_eq l r = true <-> ver_same l r) /\ (v_le l r = true <-> ver_before l r \/ ver_same l r) /\
  (v_ge l r = true <-> ver_before r l \/ ver_same l r).
Proof.
  rewrite <- !vcompare_lt, <- !vcompare_eq, (vcompare_opp l r).
  unfold v_lt, v_gt, v_eq, v_le, v_ge. rewrite !Z.ltb_lt, !Z.leb_le, Z.eqb_eq.
  destruct (vcompare_cases l r) as [[H K]|[[H K]|[H K]]]; rewrite H; simpl;
    repeat split; intros; try lia.
Qed.

Lemma v_le_total l r : v_le l r = true \/ v_le r l = true.
Proof.
  unfold v_le. rewrite !Z.leb_le, (vcompare_opp l r). lia.
Qed.

Lemma ver_le_trans a b c :
  (ver_before a b \/ ver_same a b) -> (ver_before b c \/ ver_same b c) -> (ver_before a c \/ ver_same a c).
Proof.
  intros [H|H] [K|K].
  - left; eapply ver_before_trans; eassumption.
  - left; eapply ver_before_same_r; eassumption.
  - left; eapply ver_before_same_l; [apply ver_same_sym|]; eassumption.
  - right; eapply ver_same_trans; eassumption.
Qed.

Lemma v_le_trans a b c : v_le a b = true -> v_le b c = true -> v_le a c = true.
Proof.
  pose proof (v_ops a b) as (_ & _ & _ & E1 & _). pose proof (v_ops b c) as (_ & _ & _ & E2 & _).
  pose proof (v_ops a c) as (_ & _ & _ & E3 & _). rewrite E1, E2, E3. apply ver_le_trans.
Qed.

(** ** The heap of version objects *)
Lemma nth_error_set_nth {A} i j (x : A) l :
  nth_error (set_nth i x l) j =
  if Nat.eqb i j then (match nth_error l j with Some _ => Some x | None => None end) else nth_error l j.
Proof.
  revert i j; induction l as [|y l IH]; intros [|i] [|j]; simpl; auto.
  destruct (Nat.eqb i j); reflexivity.
Qed.

(** heap relation: same objects up to trailing zeros *)
Definition heap_same (h h' : vheap) : Prop := Forall2 ver_same h h'.

Lemma heap_same_nth h h' i v : heap_same h h' -> nth_error h i = Some v ->
  exists v', nth_error h' i = Some v' /\ ver_same v v'.
Proof.
  intros H; revert i; induction H as [|x y h h' Hxy H IH]; intros [|i] Hi; simpl in *; try discriminate.
  - injection Hi as <-. now exists y.
  - now apply IH.
Qed.
Lemma heap_same_nth_none h h' i : heap_same h h' -> nth_error h i = None -> nth_error h' i = None.
Proof.
  intros H Hi. apply nth_error_None in Hi. apply nth_error_None.
  assert (E : length h = length h') by (clear Hi; induction H; simpl; congruence).
  rewrite <- E. exact Hi.
Qed.

Lemma heap_same_set h h' i v : heap_same h h' ->
  (forall w, nth_error h' i = Some w -> ver_same v w) -> heap_same (set_nth i v h) h'.
Proof.
  intros H; revert i; induction H as [|x y h h' Hxy H IH]; intros [|i] Hi; simpl.
  - constructor.
  - constructor.
  - constructor; [now apply Hi|exact H].
  - constructor; [exact Hxy|]. now apply IH.
Qed.

Lemma heap_compare_same h h0 i j :
  heap_same h h0 ->
  match heap_compare h i j with
  | Some (c, h1) => heap_same h1 h0 /\
                    exists a b, nth_error h0 i = Some a /\ nth_error h0 j = Some b /\ c = vcompare a b
  | None => nth_error h0 i = None \/ nth_error h0 j = None
  end.
Proof.
  intros H. unfold heap_compare.
  destruct (nth_error h i) as [l|] eqn:Ei; [|left; eapply heap_same_nth_none; eassumption].
  destruct (nth_error h j) as [r|] eqn:Ej; [|right; eapply heap_same_nth_none; eassumption].
  destruct (heap_same_nth _ _ _ _ H Ei) as (a & Ha & Sa).
  destruct (heap_same_nth _ _ _ _ H Ej) as (b & Hb & Sb).
  pose proof (pad_spec l r) as Hp. unfold compare_mut.
  assert (Hc : fst (compare_mut l r) = vcompare a b) by (apply vcompare_same; assumption).
  unfold compare_mut in Hc.
  destruct (pad l r) as [l' r'] eqn:Ep. destruct Hp as (Sl & Sr & _). simpl in Hc. split.
  - apply heap_same_set; [apply heap_same_set; [exact H|]|].
    + intros w Hw. rewrite Ha in Hw. injection Hw as <-. eapply ver_same_trans; eassumption.
    + intros w Hw. rewrite Hb in Hw. injection Hw as <-. eapply ver_same_trans; eassumption.
  - exists a, b. auto.
Qed.

Lemma comparisons_same h h0 log h' :
  heap_same h h0 -> comparisons h log h' ->
  heap_same h' h0 /\
  Forall (fun e => exists a b, nth_error h0 (fst (fst e)) = Some a /\ nth_error h0 (snd (fst e)) = Some b /\
                               snd e = vcompare a b) log.
Proof.
  intros Hs H. induction H as [h|h i j c h1 log h2 Hc H IH].
  - split; [exact Hs|constructor].
  - pose proof (heap_compare_same h h0 i j Hs) as K. rewrite Hc in K. destruct K as [K1 K2].
    destruct (IH K1) as [I1 I2]. split; [exact I1|]. constructor; [exact K2|exact I2].
Qed.

Lemma heap_same_refl h : heap_same h h.
Proof. induction h; constructor; auto using ver_same_refl. Qed.

Lemma heap_compare_some h i j : i < length h -> j < length h -> exists c h', heap_compare h i j = Some (c, h').
Proof.
  intros Hi Hj. unfold heap_compare.
  destruct (nth_error h i) as [a|] eqn:Ei; [|apply nth_error_None in Ei; lia].
  destruct (nth_error h j) as [b|] eqn:Ej; [|apply nth_error_None in Ej; lia].
  destruct (compare_mut a b) as [c [l r]]. eauto.
Qed.
