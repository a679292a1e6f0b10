(** * Texts in XML documents *)
From Coq Require Import String Ascii ZArith NArith List Bool Lia.
From stdpp Require Import gmap strings.
From Verif Require Import Model.Py Model.Xml Spec.XmlSpec Spec.VersionSpec Proof.PyFacts Proof.VersionFacts Proof.VersionSyntax.
Import ListNotations.
Open Scope string_scope.

Lemma uspace_white c : uspace c = true <-> In c white.
Proof.
  split.
  - unfold uspace. rewrite !orb_true_iff, !andb_true_iff, !N.leb_le, !N.eqb_eq. intros H.
    assert (K : (9 <= c <= 13 \/ 28 <= c <= 32 \/ c = 133 \/ c = 160 \/ c = 5760 \/ c = 6158 \/ 8192 <= c <= 8202 \/
      c = 8232 \/ c = 8233 \/ c = 8239 \/ c = 8287 \/ c = 12288)%N) by tauto. clear H. unfold white. cbn [In]. lia.
  - intros H. cbn [In white] in H. repeat (destruct H as [<-|H]; [reflexivity|]). destruct H.
Qed.
Lemma ulstrip_id t : (forall c r, t = c :: r -> ~ In c white) -> ulstrip t = t.
Proof.
  destruct t as [|c t]; [reflexivity|]. intros H. cbn [ulstrip]. destruct (uspace c) eqn:E; [|reflexivity].
  apply uspace_white in E. destruct (H c t eq_refl E).
Qed.
Lemma ustrip_trimmed t : trimmed t -> ustrip t = t.
Proof.
  intros (_ & A & B). unfold ustrip. rewrite (ulstrip_id t A). rewrite (ulstrip_id (rev t)); [apply rev_involutive|].
  intros c r E. apply (B (rev r)). rewrite <- (rev_involutive t), E. reflexivity.
Qed.
Lemma ulstrip_first t c r : ulstrip t = c :: r -> ~ In c white.
Proof.
  induction t as [|a t IH]; [discriminate|]. cbn [ulstrip]. destruct (uspace a) eqn:E; [exact IH|].
  intros [= <- <-] H. apply uspace_white in H. congruence.
Qed.
Lemma ulstrip_suffix t : exists p, t = (p ++ ulstrip t)%list.
Proof.
  induction t as [|a t [p IH]]; [now exists []|]. cbn [ulstrip]. destruct (uspace a); [|now exists []].
  exists (a :: p). cbn. now rewrite <- IH.
Qed.
Lemma ustrip_result t : ustrip t <> [] -> trimmed (ustrip t).
Proof.
  intros N. split; [exact N|]. unfold ustrip in *. split.
  - intros c r E.
    destruct (ulstrip_suffix (rev (ulstrip t))) as [p Hp].
    assert (K : ulstrip t = (rev (ulstrip (rev (ulstrip t))) ++ rev p)%list).
    { rewrite <- rev_app_distr, <- Hp. symmetry. apply rev_involutive. }
    rewrite E in K. now apply (ulstrip_first t c (r ++ rev p)).
  - intros r c E. apply (ulstrip_first (rev (ulstrip t)) c (rev r)). rewrite <- (rev_involutive (ulstrip _)), E. now rewrite rev_app_distr.
Qed.

(** ** ASCII *)
Lemma ascii_decode_codes s : ascii_only s -> ascii_decode s = Some (codes s).
Proof.
  unfold ascii_only, codes. induction s as [|a s IH]; [reflexivity|]. cbn [list_ascii_of_string map ascii_decode]. intros H.
  inversion H as [|x l A B]; subst. rewrite (proj2 (N.ltb_lt _ _) A), (IH B). reflexivity.
Qed.
Lemma ascii_decode_some s t : ascii_decode s = Some t -> ascii_only s /\ t = codes s.
Proof.
  revert t. unfold ascii_only, codes. induction s as [|a s IH]; intros t; [intros [= <-]; split; [constructor|reflexivity]|].
  cbn [list_ascii_of_string map ascii_decode]. destruct (N.ltb_spec (N_of_ascii a) 128) as [L|L]; [|discriminate].
  destruct (ascii_decode s) as [u|]; [|discriminate]. intros [= <-]. destruct (IH u eq_refl) as [A ->]. split; [now constructor|reflexivity].
Qed.
Lemma ascii_encode_codes s : ascii_only s -> ascii_encode (codes s) = Some s.
Proof.
  unfold ascii_only, codes. induction s as [|a s IH]; [reflexivity|]. cbn [list_ascii_of_string map ascii_encode]. intros H.
  inversion H as [|x l A B]; subst. rewrite (proj2 (N.ltb_lt _ _) A), (IH B), ascii_N_embedding. reflexivity.
Qed.
Lemma ascii_encode_some t s : ascii_encode t = Some s -> ascii_only s /\ codes s = t.
Proof.
  revert s. unfold ascii_only, codes. induction t as [|c t IH]; intros s; [intros [= <-]; split; [constructor|reflexivity]|].
  cbn [ascii_encode]. destruct (N.ltb_spec c 128) as [L|L]; [|discriminate].
  destruct (ascii_encode t) as [u|]; [|discriminate]. intros [= <-]. destruct (IH u eq_refl) as [A B].
  cbn [list_ascii_of_string map]. rewrite N_ascii_embedding by lia. split; [now constructor|now rewrite B].
Qed.
Lemma codes_nil s : codes s = [] <-> s = "".
Proof. unfold codes. destruct s; split; congruence || discriminate || reflexivity. Qed.

(** ** Decimal numbers *)
Lemma digit_code n : (n < 10)%N -> is_digit (ascii_of_N (48 + n)) = true /\ digit_val (ascii_of_N (48 + n)) = Z.of_N n.
Proof.
  intros H. unfold is_digit, digit_val. 
  assert (K : nat_of_ascii (ascii_of_N (48 + n)) = (48 + N.to_nat n)%nat).
  { unfold nat_of_ascii. rewrite N_ascii_embedding by lia. lia. }
  rewrite K. split.
  - apply andb_true_iff. split; apply Nat.leb_le; lia.
  - lia.
Qed.
Lemma nat_digits_value f n acc : (n < 2 ^ N.of_nat (S f))%N ->
  digits_acc (nat_digits_fuel (S f) n acc) 0 = digits_acc acc (Z.of_N n).
Proof.
  revert n acc. induction f as [|f IH]; intros n acc H.
  - cbn [nat_digits_fuel]. assert (n / 10 = 0)%N as -> by (apply N.div_small; cbn in H; lia). rewrite N.eqb_refl.
    destruct (digit_code (n mod 10)) as [A B]; [apply N.mod_lt; discriminate|]. cbn [digits_acc]. rewrite A, B.
    f_equal. rewrite N.mod_small by (cbn in H; lia). lia.
  - remember (S f) as g eqn:G. cbn [nat_digits_fuel].
    destruct (digit_code (n mod 10)) as [A B]; [apply N.mod_lt; discriminate|].
    destruct (N.eqb_spec (n / 10) 0) as [E|E].
    + cbn [digits_acc]. rewrite A, B. f_equal. pose proof (N.div_mod n 10 ltac:(discriminate)). rewrite E in *. lia.
    + subst g. rewrite IH.
      * cbn [digits_acc]. rewrite A, B. f_equal. pose proof (N.div_mod n 10 ltac:(discriminate)). lia.
      * rewrite (Nat2N.inj_succ (S f)), N.pow_succ_r' in H. apply N.div_lt_upper_bound; lia.
Qed.
Lemma str_of_N_digits n : digits_acc (str_of_N n) 0 = Some (Z.of_N n).
Proof.
  unfold str_of_N. rewrite nat_digits_value; [reflexivity|].
  rewrite Nat2N.inj_succ, N2Nat.id, N.pow_succ_r'. destruct (N.eq_dec n 0) as [->|E]; [cbn; lia|].
  pose proof (N.log2_spec n ltac:(lia)). rewrite N.pow_succ_r' in H. lia.
Qed.
Lemma nat_digits_all fuel n acc : Forall (fun c => is_digit c = true) (list_ascii_of_string acc) ->
  Forall (fun c => is_digit c = true) (list_ascii_of_string (nat_digits_fuel fuel n acc)).
Proof.
  revert n acc. induction fuel as [|f IH]; intros n acc H; [exact H|]. cbn [nat_digits_fuel].
  assert (D : Forall (fun c => is_digit c = true) (list_ascii_of_string (String (ascii_of_N (48 + N.modulo n 10)) acc))).
  { cbn [list_ascii_of_string]. constructor; [|exact H]. apply digit_code. apply N.mod_lt. discriminate. }
  destruct (N.eqb _ 0); [exact D|]. now apply IH.
Qed.
Lemma nat_digits_nonempty f n acc : nat_digits_fuel (S f) n acc <> "".
Proof.
  revert n acc. induction f as [|f IH]; intros n acc.
  - cbn [nat_digits_fuel]. destruct (N.eqb _ 0); discriminate.
  - remember (S f) as g. cbn [nat_digits_fuel]. destruct (N.eqb _ 0); [discriminate|]. subst g. apply IH.
Qed.
Lemma str_of_N_decimal n : decimal (str_of_N n) (Z.of_N n).
Proof.
  apply digits_iff. unfold digits. destruct (str_of_N n) eqn:E; [exfalso; revert E; apply nat_digits_nonempty|].
  rewrite <- E. apply str_of_N_digits.
Qed.
Lemma number_str_of_Z z : py_int (str_of_Z z) = Ok z.
Proof.
  apply py_int_iff. destruct z as [|p|p].
  - reflexivity || (change "0" with ("" ++ "" ++ "0" ++ "")).
    apply (num_intro "" "" "0" "" 0 0); [constructor|constructor|apply (str_of_N_decimal 0)|tauto].
  - cbn [str_of_Z]. rewrite <- (str_app_nil_r (str_of_N (Npos p))). change (str_of_N (N.pos p) ++ "") with ("" ++ "" ++ str_of_N (N.pos p) ++ "").
    apply (num_intro "" "" _ "" (Z.of_N (Npos p))); [constructor|constructor|apply str_of_N_decimal|]. left. auto.
  - cbn [str_of_Z]. rewrite <- (str_app_nil_r (str_of_N (Npos p))). change (String "-" (str_of_N (N.pos p) ++ "")) with ("" ++ "-" ++ str_of_N (N.pos p) ++ "").
    apply (num_intro "" "-" _ "" (Z.of_N (Npos p))); [constructor|constructor|apply str_of_N_decimal|]. right. right. auto.
Qed.
Lemma digit_range a : is_digit a = true -> (48 <= N_of_ascii a <= 57)%N.
Proof. unfold is_digit, nat_of_ascii. rewrite andb_true_iff, !Nat.leb_le. lia. Qed.
Lemma str_of_Z_chars z : Forall (fun a => is_digit a = true \/ a = "-"%char) (list_ascii_of_string (str_of_Z z)).
Proof.
  assert (K : forall n, Forall (fun a => is_digit a = true \/ a = "-"%char) (list_ascii_of_string (str_of_N n))).
  { intros n. eapply Forall_impl; [apply nat_digits_all; constructor|]. cbn. tauto. }
  destruct z as [|p|p]; cbn [str_of_Z].
  - repeat constructor.
  - apply K.
  - cbn [list_ascii_of_string]. constructor; [now right|apply K].
Qed.
Lemma str_of_Z_codes z : Forall (fun c => 45 <= c <= 57)%N (codes (str_of_Z z)).
Proof.
  unfold codes. pose proof (str_of_Z_chars z) as H. induction H as [|a l A _ IH]; [constructor|]. cbn [map]. constructor; [|exact IH].
  destruct A as [A| ->]; [apply digit_range in A; lia|vm_compute; split; discriminate].
Qed.
Lemma not_white c : (45 <= c <= 57)%N -> ~ In c white.
Proof. intros H K. unfold white in K. cbn [In] in K. lia. Qed.
Lemma str_of_Z_ascii z : ascii_only (str_of_Z z).
Proof. unfold ascii_only. eapply Forall_impl; [apply str_of_Z_codes|]. cbn beta. lia. Qed.
Lemma str_of_Z_trimmed z : trimmed (codes (str_of_Z z)).
Proof.
  pose proof (str_of_Z_codes z) as H. split; [|split].
  - rewrite codes_nil. destruct z; cbn [str_of_Z]; [discriminate| |discriminate]. apply nat_digits_nonempty.
  - intros c r E. rewrite E in H. inversion H. now apply not_white.
  - intros r c E. rewrite E in H. apply List.Forall_app in H as [_ H]. inversion H. now apply not_white.
Qed.

(** ** Simple values *)
Lemma simple_encodes b v : simple b v -> truth v = true -> exists t, to_unicode v = Ok t /\ trimmed t /\ from_text b t = Some v.
Proof.
  destruct b, v; cbn [simple]; try contradiction; try discriminate.
  - intros [A B] _. exists (codes s). cbn [to_unicode from_text]. rewrite (ascii_decode_codes s A), (ascii_encode_codes s A). auto.
  - intros A _. exists t. auto.
  - intros A _. exists (codes (str_of_Z z)). cbn [to_unicode from_text].
    rewrite (ascii_decode_codes _ (str_of_Z_ascii z)), (ascii_encode_codes _ (str_of_Z_ascii z)), number_str_of_Z.
    split; [reflexivity|split; [apply str_of_Z_trimmed|reflexivity]].
  - intros A _. exists (codes (str_of_Z z)). cbn [to_unicode from_text].
    rewrite (ascii_decode_codes _ (str_of_Z_ascii z)), (ascii_encode_codes _ (str_of_Z_ascii z)), number_str_of_Z.
    split; [reflexivity|split; [apply str_of_Z_trimmed|reflexivity]].
Qed.
Lemma simple_attr_encodes b v : simple_attr b v -> truth v = true -> exists t, to_unicode v = Ok t /\ t <> [] /\ from_text b t = Some v.
Proof.
  destruct b, v; cbn [simple_attr]; try contradiction; try discriminate.
  - intros [A B] _. exists (codes s). cbn [to_unicode from_text]. rewrite (ascii_decode_codes s A), (ascii_encode_codes s A), codes_nil. auto.
  - intros A _. exists t. auto.
  - intros A _. destruct (simple_encodes TInteger (VInt z) A) as (t & E & (N & _) & F); [cbn; now apply negb_true_iff, Z.eqb_neq|]. eauto.
  - intros A _. destruct (simple_encodes TLong (VInt z) A) as (t & E & (N & _) & F); [cbn; now apply negb_true_iff, Z.eqb_neq|]. eauto.
Qed.
Lemma simple_falsy b v : simple b v -> truth v = false -> v = VNone.
Proof.
  destruct b, v; cbn [simple truth]; try contradiction; try reflexivity; try discriminate.
  - intros [_ (N & _)] H. apply negb_false_iff, String.eqb_eq in H. subst. destruct (N eq_refl).
  - intros (N & _). destruct t; [destruct (N eq_refl)|discriminate].
  - intros N H. apply negb_false_iff, Z.eqb_eq in H. contradiction.
  - intros N H. apply negb_false_iff, Z.eqb_eq in H. contradiction.
Qed.
Lemma simple_attr_falsy b v : simple_attr b v -> truth v = false -> v = VNone.
Proof.
  destruct b, v; cbn [simple_attr truth]; try contradiction; try reflexivity; try discriminate.
  - intros [_ N] H. apply negb_false_iff, String.eqb_eq in H. contradiction.
  - intros N. destruct t; [destruct (N eq_refl)|discriminate].
  - intros N H. apply negb_false_iff, Z.eqb_eq in H. contradiction.
  - intros N H. apply negb_false_iff, Z.eqb_eq in H. contradiction.
Qed.
