(** * The version parser accepts exactly the grammar *)
From Coq Require Import String Ascii List Bool ZArith Arith Lia Permutation.
From Verif Require Import Model.Py Model.Version Spec.VersionSpec Proof.PyFacts.
Import ListNotations.
Open Scope string_scope.

Ltac is_closed_ascii c :=
  let v := eval vm_compute in (nat_of_ascii c) in
  let rec num t := match t with O => idtac | S ?u => num u end in num v.
Ltac codelia :=
  repeat match goal with
  | |- context [nat_of_ascii ?c] =>
      is_closed_ascii c; let v := eval vm_compute in (nat_of_ascii c) in change (nat_of_ascii c) with v
  | H : context [nat_of_ascii ?c] |- _ =>
      is_closed_ascii c; let v := eval vm_compute in (nat_of_ascii c) in change (nat_of_ascii c) with v in H
  end; lia.

Lemma is_digit_iff c : is_digit c = true <-> digit c.
Proof. unfold is_digit, digit, code_in. rewrite andb_true_iff, !Nat.leb_le. reflexivity. Qed.
Lemma is_letter_iff c : is_letter c = true <-> letter c.
Proof.
  unfold is_letter, is_upper, is_lower, letter, code_in.
  rewrite orb_true_iff, !andb_true_iff, !Nat.leb_le. reflexivity.
Qed.
Lemma is_space_iff c : is_space c = true <-> space c.
Proof.
  unfold is_space, space, code_in. rewrite orb_true_iff, andb_true_iff, Nat.eqb_eq, !Nat.leb_le. reflexivity.
Qed.

(** ** digits *)
Lemma digits_acc_spec s acc n : digits_acc s acc = Some n <->
  Forall digit (chars s) /\
  n = fold_left (fun acc c => 10 * acc + (Z.of_nat (nat_of_ascii c) - 48))%Z (chars s) acc.
Proof.
  revert acc; induction s as [|c s IH]; intros acc; simpl.
  - split; [intros [= <-]; split; [constructor|reflexivity]|intros [_ ->]; reflexivity].
  - destruct (is_digit c) eqn:E.
    + rewrite IH. apply is_digit_iff in E.
      assert (Hv : (acc * 10 + digit_val c = 10 * acc + (Z.of_nat (nat_of_ascii c) - 48))%Z).
      { unfold digit_val. unfold digit, code_in in E. lia. }
      rewrite Hv. split; intros [H1 H2].
      * split; [constructor; assumption|exact H2].
      * inversion H1; subst. split; [assumption|reflexivity].
    + split; [discriminate|]. intros [H1 _]. inversion H1; subst.
      apply is_digit_iff in H2. congruence.
Qed.

Lemma digits_iff s n : digits s = Some n <-> decimal s n.
Proof.
  unfold digits, decimal. destruct s as [|c s].
  - split; [discriminate|]. intros [H _]; congruence.
  - rewrite digits_acc_spec. split; [intros [H1 H2]; repeat split; auto; discriminate|tauto].
Qed.

(** A character that can start or end a signed digit string is not white space. *)
Lemma digit_not_space c : digit c -> ~ space c.
Proof. unfold digit, space, code_in. lia. Qed.
Lemma digit_not_letter c : digit c -> ~ letter c.
Proof. unfold digit, letter, code_in. lia. Qed.
Lemma space_not_letter c : space c -> ~ letter c.
Proof. unfold space, letter, code_in. lia. Qed.

Lemma decimal_last s n : decimal s n -> exists r c, s = r ++ String c "" /\ digit c.
Proof.
  intros (Hne & Hd & _). destruct (str_snoc_cases s) as [->|(r & c & ->)]; [congruence|].
  exists r, c. split; [reflexivity|]. unfold chars in Hd. rewrite los_app, Forall_app in Hd.
  destruct Hd as [_ Hd]. now inversion Hd.
Qed.
Lemma decimal_first s n : decimal s n -> exists c r, s = String c r /\ digit c.
Proof.
  intros (Hne & Hd & _). destruct s as [|c r]; [congruence|]. exists c, r. split; [reflexivity|].
  now inversion Hd.
Qed.

Lemma space_chars_ws p : Forall space (chars p) <-> Forall (fun c => char_in c whitespace_chars = true) (los p).
Proof.
  unfold chars. split; apply Forall_impl; intros c H; rewrite is_space_ws in *; now apply is_space_iff.
Qed.

Lemma strip_core pre core post :
  Forall space (chars pre) -> Forall space (chars post) ->
  (exists c r, core = String c r /\ ~ space c) -> (exists r c, core = r ++ String c "" /\ ~ space c) ->
  py_strip (pre ++ core ++ post) = core.
Proof.
  intros Hpre Hpost (c & r & Hc & Nc) (r' & d & Hd & Nd).
  unfold py_strip. rewrite lstrip_app_in by now apply space_chars_ws.
  assert (E : py_lstrip whitespace_chars (core ++ post) = core ++ post).
  { rewrite Hc. change (String c r ++ post) with (String c (r ++ post)). apply lstrip_stop.
    rewrite is_space_ws.
    destruct (is_space c) eqn:Es; [apply is_space_iff in Es; contradiction|reflexivity]. }
  rewrite E. rewrite rstrip_app_in by now apply space_chars_ws.
  rewrite Hd. apply rstrip_stop. rewrite is_space_ws.
  destruct (is_space d) eqn:Es; [apply is_space_iff in Es; contradiction|reflexivity].
Qed.

Lemma py_strip_decomp s : exists pre post,
  s = pre ++ py_strip s ++ post /\ Forall space (chars pre) /\ Forall space (chars post).
Proof.
  unfold py_strip. destruct (lstrip_decomp whitespace_chars s) as (p & Hs & Hp & _).
  destruct (rstrip_decomp whitespace_chars (py_lstrip whitespace_chars s)) as (q & Hq & Hqs & _).
  exists p, q. repeat split; try now apply space_chars_ws. rewrite <- Hq. exact Hs.
Qed.

Lemma py_int_iff s n : py_int s = Ok n <-> number s n.
Proof.
  split.
  - unfold py_int. destruct (py_strip_decomp s) as (pre & post & Hs & Hpre & Hpost).
    set (t := py_strip s) in *. clearbody t. intros H.
    assert (Hcase : exists sgn ds m, t = sgn ++ ds /\ decimal ds m /\
              (sgn = "" /\ n = m \/ sgn = "+" /\ n = m \/ sgn = "-" /\ n = (- m)%Z)).
    { destruct t as [|c t']; [discriminate H|].
      destruct (Ascii.eqb_spec c "+") as [->|N1].
      - destruct (digits t') eqn:E; [|discriminate H]. injection H as <-.
        exists "+", t', z. (split; [reflexivity|split; [now apply digits_iff|tauto]]).
      - destruct (Ascii.eqb_spec c "-") as [->|N2].
        + simpl in H. destruct (digits t') eqn:E; simpl in H; [|discriminate H].
          injection H as <-. exists "-", t', z. (split; [reflexivity|split; [now apply digits_iff|tauto]]).
        + assert (H' : match digits (String c t') with Some z => Ok z | None => Err EValue end = Ok n).
          { destruct c as [b0 b1 b2 b3 b4 b5 b6 b7].
            destruct b0, b1, b2, b3, b4, b5, b6, b7; try exact H; congruence. }
          destruct (digits (String c t')) eqn:E; [|discriminate H']. injection H' as <-.
          exists "", (String c t'), z. (split; [reflexivity|split; [now apply digits_iff|tauto]]). }
    destruct Hcase as (sgn & ds & m & -> & Hd & Hsg).
    rewrite Hs, str_app_assoc. econstructor; try eassumption.
  - intros H. inversion H as [pre sgn ds post m n' Hpre Hpost Hd Hsg]; subst.
    pose proof (decimal_last _ _ Hd) as (r & c & Hc & Dc).
    pose proof (decimal_first _ _ Hd) as (c' & r' & Hc' & Dc').
    assert (E : py_strip (pre ++ sgn ++ ds ++ post) = sgn ++ ds).
    { rewrite <- (str_app_assoc sgn). apply strip_core; auto.
      - destruct Hsg as [[-> _]|[[-> _]|[-> _]]].
        + exists c', r'. split; [exact Hc'|now apply digit_not_space].
        + exists "+"%char, ds. split; [reflexivity|]. unfold space, code_in; codelia.
        + exists "-"%char, ds. split; [reflexivity|]. unfold space, code_in; codelia.
      - exists (sgn ++ r), c. split; [rewrite Hc, str_app_assoc; reflexivity|now apply digit_not_space]. }
    unfold py_int. rewrite E. apply digits_iff in Hd.
    destruct Hsg as [[-> ->]|[[-> ->]|[-> ->]]]; simpl.
    + rewrite Hc' in *. assert (Hd' : digits (String c' r') = Some m) by exact Hd.
      destruct c' as [b0 b1 b2 b3 b4 b5 b6 b7].
      destruct b0, b1, b2, b3, b4, b5, b6, b7; rewrite ?Hd'; try reflexivity;
        exfalso; unfold digit, code_in in Dc'; codelia.
    + now rewrite Hd.
    + now rewrite Hd.
Qed.

Lemma py_int_err s e : py_int s = Err e -> e = EValue.
Proof. unfold py_int. destruct (match py_strip s with EmptyString => _ | String _ _ => _ end); congruence. Qed.

Lemma number_chars s n : number s n ->
  Forall (fun c => digit c \/ space c \/ c = "+"%char \/ c = "-"%char) (chars s).
Proof.
  inversion 1 as [pre sgn ds post m n' Hpre Hpost Hd Hsg]; subst.
  unfold chars. rewrite !los_app, !Forall_app. repeat split.
  - eapply Forall_impl; [|exact Hpre]. intros; tauto.
  - destruct Hsg as [[-> _]|[[-> _]|[-> _]]]; simpl; repeat constructor; tauto.
  - destruct Hd as (_ & Hd & _). eapply Forall_impl; [|exact Hd]. intros; tauto.
  - eapply Forall_impl; [|exact Hpost]. intros; tauto.
Qed.
Lemma number_no_letter s n : number s n -> Forall (fun c => ~ letter c) (chars s).
Proof.
  intros H. eapply Forall_impl; [|exact (number_chars _ _ H)].
  intros c [D|[D|[->| ->]]]; [now apply digit_not_letter|now apply space_not_letter| |];
    unfold letter, code_in; codelia.
Qed.
Lemma number_nonempty s n : number s n -> s <> "".
Proof.
  inversion 1 as [pre sgn ds post m n' Hpre Hpost Hd Hsg]; subst. intros E.
  assert (K : String.length (pre ++ sgn ++ ds ++ post) = 0) by now rewrite E.
  rewrite !str_app_length in K. destruct Hd as (Hne & _). destruct ds; [congruence|simpl in K; lia].
Qed.

(** ** keyword choice *)
Lemma kw_name_text k : k <> KNone -> kw_name k = kw_text k.
Proof. destruct k; intros H; try reflexivity; congruence. Qed.

Definition plain_kw (k : keyword) := k <> KNone.

Lemma keyword_eqb_iff a b : keyword_eqb a b = true <-> a = b.
Proof. destruct a, b; cbv; split; intros H; try reflexivity; discriminate H. Qed.

Definition kstep (s : string) (cur k : keyword) : keyword :=
  if py_startswith s (kw_text k) then
    if keyword_eqb cur KNone then k
    else if Nat.ltb (String.length (kw_text cur)) (String.length (kw_text k)) then k
    else cur
  else cur.
Definition kmatch (s : string) (k : keyword) : Prop := k <> KNone /\ py_startswith s (kw_text k) = true.
Definition kok (s : string) (k : keyword) : Prop := k = KNone \/ kmatch s k.

Lemma kmatch_not_nokey s k : kmatch s k -> py_startswith s (kw_text KNone) = false.
Proof.
  intros [Hne H]. destruct (py_startswith s (kw_text KNone)) eqn:E; [exfalso|reflexivity].
  apply startswith_iff in E, H. destruct E as [r ->], H as [r' H].
  destruct k; simpl in H; try discriminate H. congruence.
Qed.

Lemma kstep_spec s cur k : kok s cur ->
  kok s (kstep s cur k) /\
  (forall k', k' = cur \/ k' = k -> kmatch s k' ->
     kmatch s (kstep s cur k) /\ String.length (kw_text k') <= String.length (kw_text (kstep s cur k))).
Proof.
  intros Hcur. unfold kstep. destruct (py_startswith s (kw_text k)) eqn:E.
  - destruct (keyword_eqb cur KNone) eqn:Eq.
    + apply keyword_eqb_iff in Eq. subst cur. split.
      * destruct (keyword_eqb k KNone) eqn:Ek; [left; now apply keyword_eqb_iff|right].
        split; [|exact E]. intros ->. discriminate Ek.
      * intros k' [->| ->] Hm; [destruct Hm; congruence|]. split; [exact Hm|lia].
    + destruct Hcur as [->|Hcur]; [discriminate Eq|].
      assert (Hk : k <> KNone) by (intros ->; rewrite (kmatch_not_nokey _ _ Hcur) in E; discriminate E).
      destruct (Nat.ltb_spec (String.length (kw_text cur)) (String.length (kw_text k))).
      * split; [right; split; assumption|]. intros k' [->| ->] Hm; split; try lia; split; assumption.
      * split; [right; assumption|]. intros k' [->| ->] Hm; split; try lia; assumption.
  - split; [exact Hcur|]. intros k' [->| ->] Hm; [split; [exact Hm|lia]|]. destruct Hm; congruence.
Qed.

Lemma kfold_spec s ks cur : kok s cur ->
  kok s (fold_left (kstep s) ks cur) /\
  (forall k', k' = cur \/ In k' ks -> kmatch s k' ->
     kmatch s (fold_left (kstep s) ks cur) /\
     String.length (kw_text k') <= String.length (kw_text (fold_left (kstep s) ks cur))).
Proof.
  revert cur; induction ks as [|k ks IH]; intros cur Hcur; simpl.
  - split; [exact Hcur|]. intros k' [->|[]] Hm. split; [exact Hm|lia].
  - destruct (kstep_spec s cur k Hcur) as [H1 H2]. destruct (IH _ H1) as [H3 H4].
    split; [exact H3|]. intros k' Hin Hm. destruct Hin as [->|[->|Hin]].
    + destruct (H2 cur) as [H5 H6]; [tauto|exact Hm|].
      destruct (H4 (kstep s cur k)) as [H7 H8]; [now left|exact H5|]. split; [exact H7|lia].
    + destruct (H2 k') as [H5 H6]; [tauto|exact Hm|].
      destruct (H4 (kstep s cur k')) as [H7 H8]; [now left|exact H5|]. split; [exact H7|lia].
    + apply H4; [now right|exact Hm].
Qed.

Lemma kmatch_len_inj s k1 k2 : kmatch s k1 -> kmatch s k2 ->
  String.length (kw_text k1) = String.length (kw_text k2) -> k1 = k2.
Proof.
  intros [N1 H1] [N2 H2] L. apply startswith_iff in H1, H2. destruct H1 as [r1 H1], H2 as [r2 H2].
  subst s. destruct k1, k2; simpl in *; try reflexivity; try congruence; try discriminate L; try discriminate H2.
Qed.

Lemma pick_keyword_ok ks s k : (forall x, In x ks) -> 1 < String.length s ->
  kmatch s k -> (forall k', kmatch s k' -> String.length (kw_text k') <= String.length (kw_text k)) ->
  pick_keyword ks s = k.
Proof.
  intros Hall Hlen Hm Hmax. unfold pick_keyword.
  replace (Nat.ltb 1 (String.length s)) with true by (symmetry; now apply Nat.ltb_lt).
  change (fold_left (kstep s) ks KNone = k).
  destruct (kfold_spec s ks KNone (or_introl eq_refl)) as [H1 H2].
  destruct (H2 k) as [H3 H4]; [right; apply Hall|exact Hm|].
  apply (kmatch_len_inj s); [exact H3|exact Hm|]. specialize (Hmax _ H3). lia.
Qed.

Lemma pick_keyword_cases ks s : (forall x, In x ks) ->
  (pick_keyword ks s = KNone /\ (String.length s <= 1 \/ forall k, ~ kmatch s k)) \/
  (1 < String.length s /\ kmatch s (pick_keyword ks s) /\
   forall k', kmatch s k' -> String.length (kw_text k') <= String.length (kw_text (pick_keyword ks s))).
Proof.
  intros Hall. unfold pick_keyword. destruct (Nat.ltb_spec 1 (String.length s)) as [H|H]; [|left; split; [reflexivity|lia]].
  change (fun cur k => if py_startswith s (kw_text k) then _ else cur) with (kstep s).
  destruct (kfold_spec s ks KNone (or_introl eq_refl)) as [H1 H2].
  destruct H1 as [H1|H1].
  - left. split; [exact H1|]. right. intros k Hk. destruct (H2 k) as [[H3 _] _]; [right; apply Hall|exact Hk|].
    contradiction.
  - right. repeat split; try exact H; try apply H1. intros k' Hk'. apply H2; [right; apply Hall|exact Hk'].
Qed.

Lemma pick_keyword_order ks ks' s : (forall x, In x ks) -> (forall x, In x ks') ->
  pick_keyword ks s = pick_keyword ks' s.
Proof.
  intros H H'. destruct (pick_keyword_cases ks s H) as [[E1 C1]|(L1 & M1 & X1)].
  - destruct (pick_keyword_cases ks' s H') as [[E2 C2]|(L2 & M2 & X2)]; [congruence|].
    destruct C1 as [C1|C1]; [lia|]. now apply C1 in M2.
  - symmetry. now apply pick_keyword_ok.
Qed.

Lemma all_keywords_all x : In x all_keywords.
Proof. destruct x; simpl; tauto. Qed.

(** ** items *)
Lemma number_kmatch s n k : number s n -> ~ kmatch s k.
Proof.
  intros Hn [Hne Hm]. apply startswith_iff in Hm. destruct Hm as [r ->].
  apply number_no_letter in Hn. unfold chars in Hn. rewrite los_app, Forall_app in Hn.
  destruct Hn as [Hn _]. destruct k; simpl in Hn; try congruence; inversion Hn as [|? ? HH]; apply HH;
    unfold letter, code_in; codelia.
Qed.

Lemma kw_number_max k s n : k <> KNone -> number s n ->
  forall k', kmatch (kw_text k ++ s) k' -> String.length (kw_text k') <= String.length (kw_text k).
Proof.
  intros Hne Hn k' [Hne' Hm]. apply startswith_iff in Hm. destruct Hm as [r Hr].
  destruct (Nat.le_gt_cases (String.length (kw_text k')) (String.length (kw_text k))) as [|Hgt]; [assumption|exfalso].
  apply number_no_letter in Hn.
  destruct k, k'; simpl in Hr, Hgt; try congruence; try lia; try discriminate Hr.
  injection Hr as Hr. subst s. inversion Hn as [|? ? HH]. apply HH. unfold letter, code_in; codelia.
Qed.

Lemma mk_item_iff ks s i : (forall x, In x ks) -> (mk_item ks s = Ok i <-> head_item s i).
Proof.
  intros Hall. split.
  - unfold mk_item. destruct (pick_keyword_cases ks s Hall) as [[E C]|(L & M & X)].
    + rewrite E. destruct s as [|c [|d s]].
      * intros H. apply bind_ok in H. destruct H as (z & Hz & [= <-]). constructor. now apply py_int_iff.
      * destruct (is_letter c) eqn:El.
        -- intros [= <-]. constructor. now apply is_letter_iff.
        -- intros H. apply bind_ok in H. destruct H as (z & Hz & [= <-]). constructor. now apply py_int_iff.
      * intros H. apply bind_ok in H. destruct H as (z & Hz & [= <-]). constructor. now apply py_int_iff.
    + destruct M as [Hne Hm]. apply startswith_iff in Hm. destruct Hm as [r Hr].
      set (k := pick_keyword ks s) in *. clearbody k. intros H.
      assert (H' : (z <- py_int (py_drop (String.length (kw_text k)) s) ;; Ok (mkItem k (VInt z))) = Ok i)
        by (destruct k; try exact H; congruence).
      apply bind_ok in H'. destruct H' as (z & Hz & [= <-]). rewrite Hr, drop_app in Hz. rewrite Hr.
      rewrite <- kw_name_text by exact Hne. constructor; [exact Hne|]. now apply py_int_iff.
  - intros H. inversion H as [s' n Hn|k s' n Hne Hn|c Hc]; subst; try rewrite (kw_name_text k) by exact Hne.
    + unfold mk_item. assert (E : pick_keyword ks s = KNone).
      { destruct (pick_keyword_cases ks s Hall) as [[E C]|(L & M & X)]; [exact E|].
        exfalso. eapply number_kmatch; eassumption. }
      rewrite E. pose proof (proj2 (py_int_iff _ _) Hn) as Hi.
      assert (E2 : forall c, s = String c "" -> is_letter c = false).
      { intros c ->. destruct (is_letter c) eqn:El; [|reflexivity]. apply is_letter_iff in El.
        apply number_no_letter in Hn. inversion Hn; contradiction. }
      destruct s as [|c [|d s]]; rewrite ?Hi; try reflexivity. now rewrite (E2 c eq_refl).
    + assert (E : pick_keyword ks (kw_text k ++ s') = k).
      { apply pick_keyword_ok; [exact Hall| | |].
        - rewrite str_app_length. pose proof (number_nonempty _ _ Hn). destruct s'; [congruence|].
          destruct k; simpl; lia.
        - split; [exact Hne|]. apply startswith_iff. now exists s'.
        - eapply kw_number_max; eassumption. }
      apply py_int_iff in Hn. pose proof (drop_app (kw_text k) s') as Hd.
      unfold mk_item. rewrite E. destruct k; try congruence; rewrite Hd, Hn; reflexivity.
    + unfold mk_item, pick_keyword. simpl. apply is_letter_iff in Hc. now rewrite Hc.
Qed.

Lemma mk_item_err ks s e : mk_item ks s = Err e -> e = EValue.
Proof.
  unfold mk_item.
  assert (forall f t, (z <- py_int t ;; Ok (f z)) = (Err e : res item) -> e = EValue).
  { intros f t. destruct (py_int t) eqn:E; simpl; [discriminate|].
    intros [= <-]. now apply py_int_err in E. }
  destruct (pick_keyword ks s); try apply H.
  destruct s as [|c [|d s]]; try apply H. destruct (is_letter c); [discriminate|apply H].
Qed.

(** ** pieces *)
Lemma tail_match_some s h c : tail_match s = Some (h, c) <->
  tail_class c = true /\ (s = h ++ String c "" \/ s = h ++ String c (String newline "")).
Proof.
  unfold tail_match. split.
  - destruct (str_rev s) as [|a r] eqn:E; [discriminate|].
    assert (Hs : s = str_rev r ++ String a "").
    { apply str_rev_inj. rewrite E, str_rev_app_distr, str_rev_involutive. reflexivity. }
    destruct (tail_class a) eqn:Ta.
    + intros [= <- <-]. split; [exact Ta|]. left; exact Hs.
    + destruct (Ascii.eqb_spec a newline) as [->|_]; [|discriminate].
      destruct r as [|d r']; [discriminate|]. destruct (tail_class d) eqn:Td; [|discriminate].
      intros [= <- <-]. split; [exact Td|]. right. rewrite Hs.
      apply str_rev_inj. rewrite !str_rev_app_distr, !str_rev_involutive. reflexivity.
  - intros [Ht [->| ->]].
    + rewrite str_rev_app_distr. simpl. rewrite Ht, str_rev_involutive. reflexivity.
    + rewrite str_rev_app_distr. simpl. rewrite Ht, str_rev_involutive. reflexivity.
Qed.

Lemma tail_match_none s : tail_match s = None ->
  forall h c, tail_class c = true -> s <> h ++ String c "" /\ s <> h ++ String c (String newline "").
Proof.
  intros H h c Hc. split; intros E; assert (K : tail_match s = Some (h, c)) by (apply tail_match_some; tauto); congruence.
Qed.

Lemma number_tail pre s n : number s n -> tail_match (pre ++ s) = None.
Proof.
  intros Hn. inversion Hn as [pre' sgn ds post m n' Hpre Hpost Hdc Hsg]; subst.
  destruct (decimal_last _ _ Hdc) as (r & d & -> & Dd). clear Hdc Hn Hsg.
  unfold tail_match.
  assert (E : str_rev (pre ++ pre' ++ sgn ++ (r ++ String d "") ++ post) =
              str_rev post ++ String d (str_rev (pre ++ pre' ++ sgn ++ r))).
  { apply str_rev_inj. rewrite str_rev_involutive, str_rev_app_distr, str_rev_involutive.
    change (String d (str_rev (pre ++ pre' ++ sgn ++ r))) with (str_rev (String d "") ++ str_rev (pre ++ pre' ++ sgn ++ r)).
    rewrite <- str_rev_app_distr, str_rev_involutive. now rewrite !str_app_assoc. }
  rewrite E. clear E.
  assert (Hp : Forall space (chars (str_rev post))).
  { unfold chars. rewrite los_rev. now apply Forall_rev_iff. }
  assert (Hd : tail_class d = false /\ Ascii.eqb d newline = false).
  { unfold tail_class. split.
    - destruct (is_letter d) eqn:El; [apply is_letter_iff in El; now apply digit_not_letter in El|].
      simpl. destruct (Ascii.eqb_spec d "-") as [->|]; [unfold digit, code_in in Dd; codelia|reflexivity].
    - destruct (Ascii.eqb_spec d newline) as [->|]; [unfold digit, code_in in Dd; codelia|reflexivity]. }
  assert (Hsp : forall a, space a -> tail_class a = false).
  { intros a Ha. unfold tail_class.
    destruct (is_letter a) eqn:El; [apply is_letter_iff in El; now apply space_not_letter in El|].
    simpl. destruct (Ascii.eqb_spec a "-") as [->|]; [unfold space, code_in in Ha; codelia|reflexivity]. }
  destruct Hd as [Hd1 Hd2].
  destruct (str_rev post) as [|a [|b t]]; cbn [append].
  - now rewrite Hd1, Hd2.
  - inversion Hp; subst. rewrite (Hsp a) by assumption. rewrite Hd1. now destruct (Ascii.eqb a newline).
  - inversion Hp as [|? ? Ha Hp']; subst. inversion Hp' as [|? ? Hb _]; subst.
    rewrite (Hsp a), (Hsp b) by assumption. now destruct (Ascii.eqb a newline).
Qed.

Lemma parse_piece_iff ks p l : (forall x, In x ks) -> ~ In "-"%char (los p) ->
  (parse_piece ks p = Ok l <-> piece_items p l).
Proof.
  intros Hall Hdash. unfold parse_piece. split.
  - destruct (tail_match p) as [[h c]|] eqn:E.
    + apply tail_match_some in E. destruct E as [Hc Hp]. intros H.
      apply bind_ok in H. destruct H as (ih & Hh & H). apply bind_ok in H. destruct H as (it & Ht & [= <-]).
      apply (mk_item_iff _ _ _ Hall) in Hh.
      assert (Lc : letter c).
      { unfold tail_class in Hc. apply orb_true_iff in Hc. destruct Hc as [Hc|Hc]; [now apply is_letter_iff|].
        apply Ascii.eqb_eq in Hc. subst c. exfalso. apply Hdash.
        destruct Hp as [->| ->]; rewrite los_app, in_app_iff; simpl; tauto. }
      assert (Et : it = {| i_kw := KNone; i_val := VLetter c |}).
      { unfold mk_item, pick_keyword in Ht. simpl in Ht. apply is_letter_iff in Lc. rewrite Lc in Ht. congruence. }
      subst it. destruct Hp as [->| ->]; apply pi_tail; auto.
    + intros H. apply bind_ok in H. destruct H as (i & Hi & [= <-]).
      apply (mk_item_iff _ _ _ Hall) in Hi. inversion Hi as [s' n Hn|k s' n Hne Hn|c Hc]; subst.
      * now constructor.
      * now constructor.
      * exfalso. apply (proj1 (tail_match_none _ E "" c ltac:(unfold tail_class; apply is_letter_iff in Hc; now rewrite Hc))). reflexivity.
  - intros H.
    inversion H as [s n Hn|k s n Hne Hn|h i c nl Hh Hc Hnl]; subst.
    + pose proof (number_tail "" p n Hn) as Ht. simpl in Ht. rewrite Ht.
      apply hi_number, (mk_item_iff _ _ _ Hall) in Hn. now rewrite Hn.
    + rewrite (number_tail _ _ _ Hn).
      apply (hi_keyword k) in Hn; [|exact Hne]. apply (mk_item_iff _ _ _ Hall) in Hn. now rewrite Hn.
    + assert (E : tail_match (h ++ String c nl) = Some (h, c)).
      { apply tail_match_some. split; [unfold tail_class; apply is_letter_iff in Hc; now rewrite Hc|].
        destruct Hnl as [->| ->]; auto. }
      rewrite E. apply (mk_item_iff _ _ _ Hall) in Hh. rewrite Hh. simpl.
      unfold mk_item, pick_keyword. simpl. apply is_letter_iff in Hc. now rewrite Hc.
Qed.

Lemma parse_piece_err ks p e : parse_piece ks p = Err e -> e = EValue.
Proof.
  unfold parse_piece. destruct (tail_match p) as [[h c]|].
  - destruct (mk_item ks h) eqn:E1; simpl; [|intros [= <-]; eapply mk_item_err; eassumption].
    destruct (mk_item ks (String c "")) eqn:E2; simpl; [discriminate|].
    intros [= <-]. eapply mk_item_err; eassumption.
  - destruct (mk_item ks p) eqn:E1; simpl; [discriminate|]. intros [= <-]. eapply mk_item_err; eassumption.
Qed.

(** ** multisplit *)
Fixpoint splitp (f : ascii -> bool) (s : string) : list string :=
  match s with
  | EmptyString => [EmptyString]
  | String a s' =>
      if f a then EmptyString :: splitp f s'
      else match splitp f s' with [] => [String a EmptyString] | p :: ps => String a p :: ps end
  end.

Lemma splitp_nonempty f s : splitp f s <> [].
Proof. destruct s; simpl; [discriminate|]. destruct (f a); [discriminate|]. destruct (splitp f s); discriminate. Qed.

Lemma split_splitp c s : py_split c s = splitp (fun a => Ascii.eqb a c) s.
Proof. induction s as [|a s IH]; simpl; [reflexivity|]. now rewrite IH. Qed.

Lemma splitp_compose f g s :
  concat (map (splitp g) (splitp f s)) = splitp (fun a => f a || g a) s.
Proof.
  induction s as [|a s IH]; [reflexivity|].
  cbn [splitp]. destruct (f a) eqn:Ef; cbn [orb].
  - cbn [map concat splitp app]. now rewrite IH.
  - pose proof (splitp_nonempty f s) as Hne. destruct (splitp f s) as [|p ps]; [contradiction|].
    cbn [map concat splitp app] in *. destruct (g a) eqn:Eg.
    + cbn [app]. now rewrite IH.
    + pose proof (splitp_nonempty g p) as Hne'. destruct (splitp g p) as [|q qs]; [contradiction|].
      rewrite <- IH. reflexivity.
Qed.

Lemma splitp_ext f g s : (forall a, f a = g a) -> splitp f s = splitp g s.
Proof. intros H; induction s as [|a s IH]; simpl; [reflexivity|]. now rewrite H, IH. Qed.

Definition sepb (a : ascii) : bool := Ascii.eqb a "." || Ascii.eqb a "-" || Ascii.eqb a "_".
Lemma sepb_iff a : sepb a = true <-> separator a.
Proof.
  unfold sepb, separator. rewrite !orb_true_iff, !Ascii.eqb_eq. tauto.
Qed.

Lemma multisplit_version s : multisplit s ".-_" = splitp sepb s.
Proof.
  unfold multisplit. simpl. rewrite app_nil_r.
  rewrite split_splitp.
  rewrite (map_ext _ _ (split_splitp "-")), splitp_compose.
  rewrite (map_ext _ _ (split_splitp "_")), splitp_compose. reflexivity.
Qed.

Lemma splitp_splits s ps : splitp sepb s = ps <-> splits s ps.
Proof.
  split.
  - intros <-. induction s as [|a s IH]; simpl.
    + constructor. constructor.
    + destruct (sepb a) eqn:E.
      * apply (sp_more "" a s); [constructor|now apply sepb_iff|exact IH].
      * assert (Na : ~ separator a) by (rewrite <- sepb_iff; congruence).
        inversion IH as [p Hp Heq1 Heq2|p c s' ps Hp Hc Hs Heq1 Heq2]; subst.
        -- constructor. constructor; assumption.
        -- apply (sp_more (String a p)); [constructor; assumption|assumption|assumption].
  - induction 1 as [p Hp|p c s ps Hp Hc Hs IH].
    + induction p as [|a p IH]; [reflexivity|]. inversion Hp; subst. simpl.
      destruct (sepb a) eqn:E; [apply sepb_iff in E; contradiction|]. now rewrite IH.
    + induction p as [|a p IHp]; simpl.
      * apply sepb_iff in Hc. rewrite Hc. now rewrite IH.
      * inversion Hp; subst. destruct (sepb a) eqn:E; [apply sepb_iff in E; contradiction|].
        rewrite IHp by assumption. reflexivity.
Qed.

Lemma splits_no_sep s ps : splits s ps -> Forall (fun p => Forall (fun c => ~ separator c) (chars p)) ps.
Proof. induction 1; constructor; auto. Qed.

Lemma splits_no_dash s ps : splits s ps -> Forall (fun p => ~ In "-"%char (los p)) ps.
Proof.
  intros H. apply splits_no_sep in H. eapply Forall_impl; [|exact H].
  intros p Hp Hin. rewrite Forall_forall in Hp. apply (Hp _ Hin). right; left; reflexivity.
Qed.

Lemma mapM_ok {A B} (f : A -> res B) l ys : mapM f l = Ok ys <-> Forall2 (fun x y => f x = Ok y) l ys.
Proof.
  revert ys; induction l as [|x l IH]; intros ys; simpl.
  - split; [intros [= <-]; constructor|inversion 1; reflexivity].
  - rewrite bind_ok. split.
    + intros (y & Hy & H). apply bind_ok in H. destruct H as (ys' & Hys & [= <-]).
      constructor; [exact Hy|now apply IH].
    + inversion 1; subst. exists y. split; [assumption|]. apply bind_ok. exists l'.
      split; [now apply IH|reflexivity].
Qed.

Lemma parse_version_iff ks s v : (forall x, In x ks) ->
  (parse_version_ks ks s = Ok v <-> version_syntax s v).
Proof.
  intros Hall. unfold parse_version_ks, version_syntax. rewrite multisplit_version, bind_ok. split.
  - intros (ls & H & [= <-]). apply mapM_ok in H.
    assert (Hs : splits s (splitp sepb s)) by now apply splitp_splits.
    exists (splitp sepb s), ls. repeat split; [exact Hs|].
    pose proof (splits_no_dash _ _ Hs) as Hd.
    induction H as [|p l ps ls' Hp H IH] in Hd |- *; constructor.
    + inversion Hd; subst. now apply (parse_piece_iff ks).
    + apply IH. now inversion Hd.
  - intros (ps & ls & Hs & H & ->). exists ls. split; [|reflexivity].
    pose proof (splits_no_dash _ _ Hs) as Hd. apply splitp_splits in Hs. rewrite Hs.
    apply mapM_ok. clear Hs. induction H as [|p l ps ls' Hp H IH]; constructor.
    + inversion Hd; subst. now apply (parse_piece_iff ks).
    + apply IH. now inversion Hd.
Qed.

Lemma mapM_err {A B} (f : A -> res B) l e : mapM f l = Err e -> exists x, In x l /\ f x = Err e.
Proof.
  induction l as [|x l IH]; simpl; [discriminate|].
  destruct (f x) eqn:E; simpl; [|intros [= <-]; exists x; auto].
  destruct (mapM f l) eqn:E2; simpl; [discriminate|]. intros [= <-].
  destruct (IH eq_refl) as (x' & H1 & H2). exists x'. auto.
Qed.

Lemma parse_version_err ks s e : parse_version_ks ks s = Err e -> e = EValue.
Proof.
  unfold parse_version_ks. destruct (mapM _ _) eqn:E; simpl; [discriminate|]. intros [= <-].
  apply mapM_err in E. destruct E as (x & _ & H). now apply parse_piece_err in H.
Qed.

Lemma parse_version_total ks s : (forall x, In x ks) ->
  (exists v, parse_version_ks ks s = Ok v /\ version_syntax s v) \/
  (parse_version_ks ks s = Err EValue /\ forall v, ~ version_syntax s v).
Proof.
  intros Hall. destruct (parse_version_ks ks s) as [v|e] eqn:E.
  - left. exists v. split; [reflexivity|]. now apply (parse_version_iff ks).
  - right. pose proof (parse_version_err _ _ _ E) as ->. split; [reflexivity|].
    intros v Hv. apply (parse_version_iff ks) in Hv; [congruence|exact Hall].
Qed.
