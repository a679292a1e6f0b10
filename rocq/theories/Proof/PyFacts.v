(** * Facts about the Python runtime vocabulary *)
From Coq Require Import String Ascii List Bool ZArith Arith Lia.
From Verif Require Import Model.Py.
Import ListNotations.
Open Scope string_scope.

Notation los := list_ascii_of_string.
Notation sol := string_of_list_ascii.

Lemma los_inj s t : los s = los t -> s = t.
Proof.
  intros H. rewrite <- (string_of_list_ascii_of_string s), <- (string_of_list_ascii_of_string t).
  now rewrite H.
Qed.

Lemma los_app s t : los (s ++ t) = (los s ++ los t)%list.
Proof. induction s; simpl; congruence. Qed.

Lemma sol_app l k : sol (l ++ k)%list = sol l ++ sol k.
Proof. induction l; simpl; congruence. Qed.

Lemma los_length s : length (los s) = String.length s.
Proof. induction s; simpl; congruence. Qed.

Lemma str_app_nil_r s : s ++ "" = s.
Proof. induction s; simpl; congruence. Qed.

Lemma str_app_assoc a b c : (a ++ b) ++ c = a ++ (b ++ c).
Proof. induction a; simpl; congruence. Qed.

Lemma str_app_length a b : String.length (a ++ b) = String.length a + String.length b.
Proof. induction a; simpl; congruence. Qed.

Lemma los_rev_app s acc : los (str_rev_app s acc) = (rev (los s) ++ los acc)%list.
Proof.
  revert acc; induction s as [|a s IH]; intros acc; simpl; [reflexivity|].
  rewrite IH; simpl. now rewrite <- app_assoc.
Qed.

Lemma los_rev s : los (str_rev s) = rev (los s).
Proof. unfold str_rev. rewrite los_rev_app. simpl. now rewrite app_nil_r. Qed.

Lemma str_rev_involutive s : str_rev (str_rev s) = s.
Proof. apply los_inj. now rewrite !los_rev, rev_involutive. Qed.

Lemma str_rev_app_distr a b : str_rev (a ++ b) = str_rev b ++ str_rev a.
Proof. apply los_inj. now rewrite los_rev, !los_app, rev_app_distr, !los_rev. Qed.

Lemma str_rev_inj a b : str_rev a = str_rev b -> a = b.
Proof. intros H. rewrite <- (str_rev_involutive a), H. apply str_rev_involutive. Qed.

Lemma startswith_iff s p : py_startswith s p = true <-> exists r, s = p ++ r.
Proof.
  revert s; induction p as [|a p IH]; intros s; simpl.
  - split; [intros _; now exists s|intros _; now destruct s].
  - destruct s as [|b s].
    + split; [discriminate|intros [r Hr]; discriminate Hr].
    + simpl. rewrite andb_true_iff, Ascii.eqb_eq, IH. split.
      * intros [-> [r ->]]. now exists r.
      * intros [r Hr]. injection Hr as -> ->. split; [reflexivity|now exists r].
Qed.

Lemma endswith_iff s p : py_endswith s p = true <-> exists r, s = r ++ p.
Proof.
  unfold py_endswith. rewrite startswith_iff. split; intros [r Hr].
  - exists (str_rev r). apply str_rev_inj. rewrite Hr, str_rev_app_distr, str_rev_involutive. reflexivity.
  - exists (str_rev r). now rewrite Hr, str_rev_app_distr.
Qed.

Lemma drop_app p r : py_drop (String.length p) (p ++ r) = r.
Proof. induction p as [|a p IH]; simpl; [now destruct r|exact IH]. Qed.

Lemma take_app p r : py_take (String.length p) (p ++ r) = p.
Proof. induction p as [|a p IH]; simpl; [now destruct r|now rewrite IH]. Qed.

Lemma char_in_iff c s : char_in c s = true <-> In c (los s).
Proof.
  induction s as [|a s IH]; simpl; [intuition discriminate|].
  rewrite orb_true_iff, Ascii.eqb_eq, IH. intuition.
Qed.

(** ** split *)
Lemma split_nonempty c s : py_split c s <> [].
Proof.
  destruct s as [|a s]; simpl; [discriminate|].
  destruct (Ascii.eqb a c); [discriminate|]. destruct (py_split c s); discriminate.
Qed.

Lemma split_no_sep c s : ~ In c (los s) -> py_split c s = [s].
Proof.
  induction s as [|a s IH]; simpl; [reflexivity|]. intros H.
  destruct (Ascii.eqb_spec a c) as [->|Hne]; [tauto|].
  rewrite IH by tauto. reflexivity.
Qed.

Lemma split_app_sep c p s : ~ In c (los p) -> py_split c (p ++ String c s) = p :: py_split c s.
Proof.
  induction p as [|a p IH]; simpl.
  - intros _. now rewrite Ascii.eqb_refl.
  - intros H. destruct (Ascii.eqb_spec a c) as [->|Hne]; [tauto|].
    rewrite IH by tauto. reflexivity.
Qed.

Lemma split_pieces_no_sep c s : Forall (fun p => ~ In c (los p)) (py_split c s).
Proof.
  induction s as [|a s IH]; simpl.
  - constructor; [simpl; tauto|constructor].
  - destruct (Ascii.eqb_spec a c) as [->|Hne].
    + constructor; [simpl; tauto|exact IH].
    + destruct (py_split c s) as [|p ps]; [constructor; [simpl; intuition|constructor]|].
      inversion IH; subst. constructor; [simpl; intuition|assumption].
Qed.

Lemma join_split c s : py_join (String c "") (py_split c s) = s.
Proof.
  induction s as [|a s IH]; simpl; [reflexivity|].
  destruct (Ascii.eqb_spec a c) as [->|Hne].
  - pose proof (split_nonempty c s). destruct (py_split c s) as [|p ps]; [contradiction|].
    rewrite <- IH. reflexivity.
  - pose proof (split_nonempty c s). destruct (py_split c s) as [|p ps]; [contradiction|].
    rewrite <- IH. destruct ps; reflexivity.
Qed.

Lemma split_join c l :
  l <> [] -> Forall (fun p => ~ In c (los p)) l -> py_split c (py_join (String c "") l) = l.
Proof.
  induction l as [|x l IH]; [congruence|]. intros _ H.
  inversion H; subst. destruct l as [|y l].
  - simpl. now apply split_no_sep.
  - change (py_join (String c "") (x :: y :: l)) with (x ++ String c (py_join (String c "") (y :: l))).
    rewrite split_app_sep by assumption. f_equal. apply IH; [discriminate|assumption].
Qed.

(** ** strip *)
Lemma lstrip_decomp chars s :
  exists p, s = p ++ py_lstrip chars s /\ Forall (fun c => char_in c chars = true) (los p) /\
            (forall a r, py_lstrip chars s = String a r -> char_in a chars = false).
Proof.
  induction s as [|a s IH]; simpl.
  - exists "". repeat split; [constructor|discriminate].
  - destruct (char_in a chars) eqn:E.
    + destruct IH as (p & Hs & Hp & Hn). exists (String a p). simpl. repeat split.
      * congruence.
      * constructor; assumption.
      * exact Hn.
    + exists "". repeat split; [constructor|]. intros b r H. injection H as <- <-. exact E.
Qed.

Lemma lstrip_app_in chars p s :
  Forall (fun c => char_in c chars = true) (los p) -> py_lstrip chars (p ++ s) = py_lstrip chars s.
Proof.
  induction p as [|a p IH]; simpl; [reflexivity|]. intros H. inversion H; subst.
  rewrite H2. auto.
Qed.

Lemma lstrip_stop chars a s : char_in a chars = false -> py_lstrip chars (String a s) = String a s.
Proof. simpl. now intros ->. Qed.

Lemma Forall_rev_iff {A} (P : A -> Prop) l : Forall P (rev l) <-> Forall P l.
Proof.
  split; intros H; [rewrite <- (rev_involutive l)|]; apply Forall_rev; exact H.
Qed.

Lemma rstrip_app_in chars p s :
  Forall (fun c => char_in c chars = true) (los p) -> py_rstrip chars (s ++ p) = py_rstrip chars s.
Proof.
  intros H. unfold py_rstrip. rewrite str_rev_app_distr, lstrip_app_in; [reflexivity|].
  rewrite los_rev. now apply Forall_rev_iff.
Qed.

Lemma rstrip_decomp chars s :
  exists p, s = py_rstrip chars s ++ p /\ Forall (fun c => char_in c chars = true) (los p) /\
            (forall a r, py_rstrip chars s = r ++ String a "" -> char_in a chars = false).
Proof.
  unfold py_rstrip. destruct (lstrip_decomp chars (str_rev s)) as (p & Hs & Hp & Hn).
  exists (str_rev p). repeat split.
  - rewrite <- str_rev_app_distr, <- Hs. now rewrite str_rev_involutive.
  - rewrite los_rev. now apply Forall_rev_iff.
  - intros a r H. apply (Hn a (str_rev r)). apply str_rev_inj.
    rewrite H. change (String a (str_rev r)) with (str_rev (String a "") ++ str_rev r).
    now rewrite <- str_rev_app_distr, str_rev_involutive.
Qed.

Lemma rstrip_stop chars r a : char_in a chars = false -> py_rstrip chars (r ++ String a "") = r ++ String a "".
Proof.
  intros H. unfold py_rstrip. rewrite str_rev_app_distr. change (str_rev (String a "")) with (String a "").
  change (String a "" ++ str_rev r) with (String a (str_rev r)).
  rewrite lstrip_stop by exact H.
  change (String a (str_rev r)) with (str_rev (String a "") ++ str_rev r).
  now rewrite <- str_rev_app_distr, str_rev_involutive.
Qed.

Lemma is_space_ws c : char_in c whitespace_chars = is_space c.
Proof.
  destruct c as [b0 b1 b2 b3 b4 b5 b6 b7].
  destruct b0, b1, b2, b3, b4, b5, b6, b7; reflexivity.
Qed.

(** Last character decomposition *)
Lemma str_snoc_cases s : s = "" \/ exists r a, s = r ++ String a "".
Proof.
  destruct (str_rev s) as [|a r] eqn:E.
  - left. apply str_rev_inj. rewrite E. reflexivity.
  - right. exists (str_rev r), a. apply str_rev_inj. rewrite str_rev_app_distr, str_rev_involutive.
    exact E.
Qed.

(** ** [str(n)] *)
Lemma bind_ok {A B} (x : res A) (f : A -> res B) b :
  bind x f = Ok b <-> exists a, x = Ok a /\ f a = Ok b.
Proof.
  destruct x; simpl; split.
  - intros H. now exists a.
  - intros (a' & Ha & H). congruence.
  - discriminate.
  - intros (a' & Ha & _). discriminate.
Qed.
