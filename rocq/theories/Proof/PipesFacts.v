From Coq Require Import String Ascii List Bool Sorting.Sorted Sorting.Permutation Lia NArith Arith.
From Verif Require Import Model.Py Spec.PathSpec Model.Pipes Spec.PipesSpec.
Import ListNotations.
Open Scope string_scope.

Lemma app_assoc_s (a b c : string) : (a ++ b) ++ c = a ++ b ++ c.
Proof. induction a as [|x a IH]; cbn; [reflexivity|now rewrite IH]. Qed.
Lemma app_nil_s (a : string) : a ++ "" = a.
Proof. induction a as [|x a IH]; cbn; [reflexivity|now rewrite IH]. Qed.
Lemma app_empty a b : a ++ b = "" -> a = "" /\ b = "".
Proof. destruct a; [auto|discriminate]. Qed.
Lemma in_snoc c a d : In c (list_ascii_of_string (a ++ String d "")) -> In c (list_ascii_of_string a) \/ c = d.
Proof. induction a as [|x a IH]; cbn; [intuition|intuition]. Qed.

(** ** Reading and joining *)
Lemma join_acc l s : fold_left append l s = s ++ fold_left append l "".
Proof.
  revert s. induction l as [|x l IH]; intros s; cbn [fold_left]; [now rewrite app_nil_s|]. rewrite IH, (IH ("" ++ x)). cbn [append]. apply app_assoc_s.
Qed.
Lemma join_cons x l : join (x :: l) = x ++ join l.
Proof. unfold join. cbn [fold_left]. rewrite join_acc. reflexivity. Qed.
Lemma lines_join s : forall cur, join (lines_from cur s) = cur ++ s.
Proof.
  induction s as [|c s IH]; intros cur; cbn [lines_from].
  - destruct (String.eqb_spec cur "") as [->|N]; [reflexivity|]. rewrite join_cons. reflexivity.
  - destruct (Ascii.eqb_spec c nl) as [->|N].
    + rewrite join_cons, IH. rewrite app_assoc_s. reflexivity.
    + rewrite IH, app_assoc_s. reflexivity.
Qed.
Lemma free_snoc cur c : free_of nl cur -> c <> nl -> free_of nl (cur ++ String c "").
Proof. intros F N I. apply in_snoc in I. destruct I as [I|I]; [now apply F|congruence]. Qed.
Lemma lines_are s : forall cur, free_of nl cur -> exists ls r, lines_from cur s = (ls ++ r)%list /\ (forall l, In l ls -> whole_line l) /\ (r = [] \/ exists x, r = [x] /\ rest_line x).
Proof.
  induction s as [|c s IH]; intros cur F; cbn [lines_from].
  - exists [], (if String.eqb cur "" then [] else [cur]). split; [reflexivity|]. split; [intros l []|].
    destruct (String.eqb_spec cur "") as [->|N]; [now left|]. right. exists cur. split; [reflexivity|]. split; assumption.
  - destruct (Ascii.eqb_spec c nl) as [->|N].
    + destruct (IH "") as (ls & r & E & W & R); [intros []|]. exists ((cur ++ String nl "") :: ls), r. rewrite E. split; [reflexivity|]. split; [|exact R].
      intros l [<-|I]; [now exists cur|now apply W].
    + apply IH. now apply free_snoc.
Qed.
Lemma cat_lines c : join (cat c) = c /\ exists ls r, cat c = (ls ++ r)%list /\ (forall l, In l ls -> whole_line l) /\ (r = [] \/ exists x, r = [x] /\ rest_line x).
Proof. split; [exact (lines_join c "")|]. apply (lines_are c ""). intros []. Qed.

(** ** grep *)
Lemma grep_those m l : those (fun x => m x = true) l (grep m l).
Proof.
  induction l as [|x l IH]; cbn; [constructor|]. destruct (m x) eqn:E; constructor; try assumption. now rewrite E.
Qed.
Lemma those_fun {A} (P : A -> Prop) l a b : those P l a -> those P l b -> a = b.
Proof. intros H. revert b. induction H; intros b K; inversion K; subst; try contradiction; try reflexivity; f_equal; auto. Qed.
Lemma grep_iff m l out : grep m l = out <-> those (fun x => m x = true) l out.
Proof. split; [intros <-; apply grep_those|]. intros H. exact (those_fun _ _ _ _ (grep_those m l) H). Qed.

(** ** The order *)
Lemma ascii_cmp a b : Ascii.compare a b = Nat.compare (nat_of_ascii a) (nat_of_ascii b).
Proof. unfold Ascii.compare, nat_of_ascii. apply N2Nat.inj_compare. Qed.
Lemma cmp_lt a b : String.compare a b = Lt <-> smaller a b.
Proof.
  split.
  - revert b. induction a as [|c a IH]; intros [|d b]; cbn; try discriminate.
    + intros _. left. now exists d, b.
    + rewrite ascii_cmp. destruct (Nat.compare_spec (nat_of_ascii c) (nat_of_ascii d)) as [E|L|L]; try discriminate.
      * intros K. assert (c = d) as -> by (rewrite <- (ascii_nat_embedding c), E; apply ascii_nat_embedding).
        destruct (IH _ K) as [(x & t & ->)|(p & x & a' & y & b' & -> & -> & Q)]; [left; now exists x, t|right; now exists (String d p), x, a', y, b'].
      * intros _. right. now exists "", c, a, d, b.
  - intros [(c & t & ->)|(p & c & a' & d & b' & -> & -> & L)].
    + induction a as [|x a IH]; cbn; [reflexivity|]. rewrite ascii_cmp, Nat.compare_refl. exact IH.
    + induction p as [|x p IH]; cbn; rewrite ascii_cmp; [|rewrite Nat.compare_refl; exact IH]. now apply Nat.compare_lt_iff in L as ->.
Qed.
Lemma cmp_eq a b : String.compare a b = Eq <-> a = b.
Proof. split; [apply String.compare_eq_iff|]. intros ->. induction b as [|x b IH]; cbn; [reflexivity|]. rewrite ascii_cmp, Nat.compare_refl. exact IH. Qed.
Lemma leb_iff a b : String.leb a b = true <-> a = b \/ smaller a b.
Proof.
  unfold String.leb. rewrite <- cmp_lt, <- cmp_eq. destruct (String.compare a b); intuition discriminate.
Qed.
Lemma leb_total a b : String.leb a b = false -> smaller b a.
Proof.
  intros H. apply cmp_lt. unfold String.leb in H. rewrite String.compare_antisym. destruct (String.compare a b); try discriminate. reflexivity.
Qed.
Lemma smaller_irr a : ~ smaller a a.
Proof. rewrite <- cmp_lt. assert (String.compare a a = Eq) as -> by now apply cmp_eq. discriminate. Qed.
Lemma smaller_trans a b c : smaller a b -> smaller b c -> smaller a c.
Proof.
  rewrite <- !cmp_lt. revert b c. induction a as [|x a IH]; intros [|y b] [|z c]; cbn; try discriminate; try reflexivity.
  rewrite !ascii_cmp. destruct (Nat.compare_spec (nat_of_ascii x) (nat_of_ascii y)) as [E|L|L], (Nat.compare_spec (nat_of_ascii y) (nat_of_ascii z)) as [E'|L'|L']; try discriminate; intros H K;
    destruct (Nat.compare_spec (nat_of_ascii x) (nat_of_ascii z)); try lia; try reflexivity. exact (IH _ _ H K).
Qed.
Definition no_greater a b : Prop := a = b \/ smaller a b.

(** ** sort *)
Lemma put_perm x l : Permutation (put_in x l) (x :: l).
Proof.
  induction l as [|y l IH]; cbn; [reflexivity|]. destruct (String.leb x y); [reflexivity|]. rewrite IH. apply perm_swap.
Qed.
Lemma put_sorted x l : StronglySorted no_greater l -> StronglySorted no_greater (put_in x l).
Proof.
  induction 1 as [|y l S IH F]; cbn; [repeat constructor|]. destruct (String.leb x y) eqn:E.
  - apply leb_iff in E. constructor; [now constructor|]. constructor; [exact E|]. eapply Forall_impl; [|exact F]. intros z [<-|Z]; [exact E|]. right. destruct E as [->|E]; [exact Z|]. exact (smaller_trans _ _ _ E Z).
  - apply leb_total in E. constructor; [exact IH|]. apply Forall_forall. intros z I. apply (Permutation_in _ (put_perm x l)) in I. destruct I as [<-|I]; [now right|]. exact (proj1 (Forall_forall _ _) F z I).
Qed.
Lemma sort_acc l : forall acc, StronglySorted no_greater acc -> StronglySorted no_greater (fold_left (fun l x => put_in x l) l acc) /\ Permutation (fold_left (fun l x => put_in x l) l acc) (l ++ acc).
Proof.
  induction l as [|x l IH]; intros acc H; cbn [fold_left app]; [split; [exact H|reflexivity]|].
  destruct (IH (put_in x acc) (put_sorted x acc H)) as [A B]. split; [exact A|]. rewrite B, put_perm. symmetry. apply Permutation_middle.
Qed.
Lemma sort_is l : StronglySorted no_greater (sort l) /\ Permutation (sort l) l.
Proof. destruct (sort_acc l [] (SSorted_nil _)) as [A B]. split; [exact A|]. now rewrite app_nil_r in B. Qed.
Lemma sorted_unique a : forall b, StronglySorted no_greater a -> StronglySorted no_greater b -> Permutation a b -> a = b.
Proof.
  induction a as [|x a IH]; intros b A B P; [apply Permutation_nil in P; now subst|].
  destruct b as [|y b]; [symmetry in P; now apply Permutation_nil_cons in P|].
  inversion A as [|? ? A1 A2]; inversion B as [|? ? B1 B2]; subst.
  assert (x = y) as <-.
  { assert (In y (x :: a)) as I by (apply (Permutation_in _ (Permutation_sym P)); now left).
    assert (In x (y :: b)) as J by (apply (Permutation_in _ P); now left).
    destruct I as [I|I]; [exact I|]. destruct J as [J|J]; [now symmetry|].
    pose proof (proj1 (Forall_forall _ _) A2 y I) as [K|K]; [exact K|]. pose proof (proj1 (Forall_forall _ _) B2 x J) as [L|L]; [now symmetry|].
    exfalso. exact (smaller_irr _ (smaller_trans _ _ _ K L)). }
  f_equal. apply IH; [assumption|assumption|]. now apply Permutation_cons_inv in P.
Qed.
Lemma sort_iff l out : sort l = out <-> StronglySorted no_greater out /\ Permutation out l.
Proof.
  split; [intros <-; apply sort_is|]. intros [S P]. destruct (sort_is l) as [S' P']. apply sorted_unique; [assumption|assumption|]. now rewrite P, P'.
Qed.

(** ** uniq *)
Lemma uniq_runs l : forall p, exists n runs, l = (repeat p n ++ spread runs)%list /\ uniq_from (Some p) l = map fst runs /\ changing (p :: map fst runs).
Proof.
  induction l as [|i l IH]; intros p; cbn [uniq_from].
  - exists 0, []. repeat constructor.
  - destruct (String.eqb_spec i p) as [->|N].
    + destruct (IH p) as (n & runs & -> & E & C). exists (S n), runs. auto.
    + destruct (IH i) as (n & runs & -> & E & C). exists 0, ((i, n) :: runs). split; [reflexivity|]. rewrite E. split; [reflexivity|]. cbn. constructor; [congruence|exact C].
Qed.
Lemma changing_tail x l : changing (x :: l) -> changing l.
Proof. inversion 1; subst; [constructor|assumption]. Qed.
Lemma uniq_is l : exists runs, l = spread runs /\ uniq l = map fst runs /\ changing (map fst runs).
Proof.
  destruct l as [|i l]; [exists []; repeat constructor|]. unfold uniq. cbn [uniq_from].
  destruct (uniq_runs l i) as (n & runs & -> & E & C). exists ((i, n) :: runs). rewrite E. repeat split. exact C.
Qed.
Lemma runs_unique r : forall q, spread r = spread q -> changing (map fst r) -> changing (map fst q) -> r = q.
Proof.
  assert (forall x n m (a b : list string), (repeat x n ++ a = repeat x m ++ b)%list -> (forall y l, a = y :: l -> y <> x) -> (forall y l, b = y :: l -> y <> x) -> n = m /\ a = b) as G.
  { intros x n. induction n as [|n IH]; intros [|m] a b E A B; cbn in E.
    - auto.
    - exfalso. exact (A _ _ E eq_refl).
    - exfalso. symmetry in E. exact (B _ _ E eq_refl).
    - injection E as E. destruct (IH m a b E A B). auto. }
  induction r as [|[x n] r IH]; intros [|[y m] q] E R Q; cbn in E; try discriminate; [reflexivity|].
  injection E as -> E.
  assert (forall l, changing (y :: map fst l) -> forall z t, spread l = z :: t -> z <> y) as H.
  { intros [|[z k] l] C w t K; [discriminate|]. cbn in K. injection K as <- _. inversion C; subst. congruence. }
  destruct (G y n m (spread r) (spread q) E (H r R) (H q Q)) as [-> S]. f_equal. apply IH; [exact S|eapply changing_tail; exact R|eapply changing_tail; exact Q].
Qed.
Lemma uniq_iff l out : uniq l = out <-> exists runs, l = spread runs /\ out = map fst runs /\ changing out.
Proof.
  split.
  - intros <-. destruct (uniq_is l) as (runs & A & B & C). exists runs. rewrite B. auto.
  - intros (runs & -> & -> & C). destruct (uniq_is (spread runs)) as (q & A & B & D). rewrite B. f_equal. symmetry. now apply runs_unique.
Qed.

(** ** sort | uniq *)
Lemma spread_in runs x : In x (spread runs) <-> In x (map fst runs).
Proof.
  induction runs as [|[y n] runs IH]; cbn; [tauto|]. rewrite in_app_iff, IH. split; [intros [H|[H|H]]; auto; apply repeat_spec in H; auto|intros [H|H]; auto].
Qed.
Lemma spread_sorted runs : StronglySorted no_greater (spread runs) -> changing (map fst runs) -> StronglySorted smaller (map fst runs).
Proof.
  induction runs as [|[x n] runs IH]; cbn [spread map fst repeat app]; [constructor|]. intros S C. inversion S as [|? ? S' F]; subst.
  assert (StronglySorted no_greater (spread runs)) as T.
  { clear -S'. induction n as [|n IH]; cbn in S'; [exact S'|]. inversion S'; subst. auto. }
  specialize (IH T (changing_tail _ _ C)). constructor; [exact IH|]. apply Forall_forall. intros z I.
  assert (no_greater x z) as K by (apply (proj1 (Forall_forall _ _) F z); apply in_app_iff; right; now apply spread_in).
  destruct K as [<-|K]; [|exact K]. exfalso. destruct runs as [|[y m] runs]; [destruct I|]. cbn in *. inversion C as [| |? ? ? N C']; subst.
  destruct I as [I|I]; [congruence|]. inversion IH as [|? ? _ F']; subst. pose proof (proj1 (Forall_forall _ _) F' x I) as L.
  assert (no_greater x y) as [M|M] by (apply (proj1 (Forall_forall _ _) F y); apply in_app_iff; right; now left); [congruence|]. exact (smaller_irr _ (smaller_trans _ _ _ L M)).
Qed.
Lemma sort_uniq l : StronglySorted smaller (uniq (sort l)) /\ forall x, In x (uniq (sort l)) <-> In x l.
Proof.
  destruct (sort_is l) as [S P]. destruct (uniq_is (sort l)) as (runs & E & U & C). rewrite U. split.
  - apply spread_sorted; [now rewrite <- E|exact C].
  - intros x. rewrite <- spread_in, <- E. split; apply Permutation_in; [exact P|now apply Permutation_sym].
Qed.
Lemma enum_is {A} (l : list A) n x : In (n, x) (enum l) <-> nth_error l n = Some x.
Proof.
  unfold enum. assert (forall k, In (n, x) (enum_from k l) <-> exists m, n = k + m /\ nth_error l m = Some x) as G.
  { induction l as [|y l IH]; intros k; cbn [enum_from In].
    - split; [tauto|]. intros (m & _ & E). destruct m; discriminate E.
    - rewrite IH. split.
      + intros [[= <- <-]|(m & -> & E)]; [exists 0; split; [lia|reflexivity]|]. exists (S m). split; [lia|exact E].
      + intros ([|m] & -> & E); cbn in E; [left; injection E as ->; f_equal; lia|]. right. exists m. split; [lia|exact E]. }
  rewrite G. split; [intros (m & -> & E); exact E|]. intros E. exists n. auto.
Qed.

(** ** Changing and printing *)
Lemma tr_is {A B} (t : A -> B) input out : tr t input = out <-> Forall2 (fun x y => y = t x) input out.
Proof.
  unfold tr. split.
  - intros <-. induction input; constructor; auto.
  - induction 1 as [|x y input out -> _ IH]; [reflexivity|]. cbn. now rewrite IH.
Qed.
Lemma print_acc ls : forall s, fold_left (fun out line => out ++ line ++ String nl "") ls s = s ++ join (map (fun l => l ++ String nl "") ls).
Proof.
  induction ls as [|l ls IH]; intros s; cbn [fold_left map]; [unfold join; cbn; now rewrite app_nil_s|]. rewrite IH, join_cons, !app_assoc_s. reflexivity.
Qed.
Lemma lines_line l s : forall cur, free_of nl l -> lines_from cur (l ++ String nl s) = (cur ++ l ++ String nl "") :: lines_from "" s.
Proof.
  induction l as [|c l IH]; intros cur F; cbn [append lines_from].
  - rewrite Ascii.eqb_refl. reflexivity.
  - destruct (Ascii.eqb_spec c nl) as [->|N]; [destruct F; now left|]. rewrite IH by (intros I; apply F; now right). now rewrite app_assoc_s.
Qed.
Lemma print_cat ls : (forall l, In l ls -> free_of nl l) -> cat (printto ls) = map (fun l => l ++ String nl "") ls.
Proof.
  unfold cat, printto. rewrite print_acc. cbn [append]. induction ls as [|l ls IH]; intros F; [reflexivity|]. cbn [map]. rewrite join_cons, app_assoc_s.
  cbn [append]. rewrite (lines_line l) by (apply F; now left). cbn [append]. rewrite IH; [reflexivity|]. intros x I. apply F. now right.
Qed.
