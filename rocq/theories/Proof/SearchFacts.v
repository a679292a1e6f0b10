(** * Tokenising, case folding, the inverted index (C40-C43) *)
From Coq Require Import String Ascii ZArith List Lia.
From stdpp Require Import gmap strings.
From Verif Require Import Model.Py Model.ItemByRepo Model.Package Model.ComponentDB Model.Search Model.Databases Model.SearchOps
  Spec.ItemByRepoSpec Spec.DatabaseSpec Spec.SearchSpec
  Proof.PyFacts Proof.ItemByRepoFacts Proof.ItemByRepoMain Proof.DatabaseFacts Proof.RevDepFacts.
Open Scope string_scope.
Open Scope list_scope.

Lemma is_sep_iff c : is_sep c = true <-> separator c.
Proof.
  unfold separator. split.
  - destruct c as [[] [] [] [] [] [] [] []]; vm_compute; intros H; try discriminate H; tauto.
  - intros H. change (list_ascii_of_string separators) with (list_ascii_of_string separators) in H.
    vm_compute in H. repeat (destruct H as [<-|H]; [reflexivity|]). destruct H.
Qed.
Lemma is_sep_false c : is_sep c = false <-> ~ separator c.
Proof. rewrite <- is_sep_iff. destruct (is_sep c); split; congruence. Qed.

Notation los := list_ascii_of_string.
Lemma los_app' s t : los (s +:+ t) = los s ++ los t.
Proof. induction s; simpl; [reflexivity|now f_equal]. Qed.

(** the loop with a token under construction *)
Lemma tokenize_loop_word tok : (tok <> "" -> Forall (fun c => ~ separator c) (los tok)) -> forall s,
  (tok = "" -> words_of (tokenize_loop s tok) s) /\
  (tok <> "" -> exists w ts rest, tokenize_loop s tok = (str_rev tok +:+ w) :: ts /\ s = w +:+ rest /\
     Forall (fun c => ~ separator c) (los w) /\ (rest = "" \/ exists c r, rest = String c r /\ separator c) /\ words_of ts rest).
Proof.
  intros Hw s. revert tok Hw. induction s as [|x s IH]; intros tok Hw; simpl.
  - split.
    + intros ->. simpl. constructor. constructor.
    + intros Hn. destruct tok as [|a tok]; [congruence|]. simpl. exists "", [], "".
      split; [now rewrite str_app_nil_r|]. split; [reflexivity|]. split; [constructor|]. split; [auto|]. constructor. constructor.
  - destruct (is_sep x) eqn:Ex.
    + apply is_sep_iff in Ex. destruct (IH "") as [IH0 _]; [congruence|]. specialize (IH0 eq_refl).
      assert (Hsx : words_of (tokenize_loop s "") (String x s)).
      { inversion IH0 as [g Hg E1|g t ts rest Hg Ht Hr Hts E1]; subst.
        - apply words_none. constructor; assumption.
        - change (String x (g +:+ t +:+ rest)) with (String x g +:+ t +:+ rest). apply words_more; auto. constructor; assumption. }
      split.
      * intros ->. simpl. exact Hsx.
      * intros Hn. destruct tok as [|a tok]; [congruence|]. simpl truthy. cbv iota. exists "", (tokenize_loop s ""), (String x s).
        rewrite str_app_nil_r. split; [reflexivity|]. split; [reflexivity|]. split; [constructor|]. split; [|exact Hsx]. right. eauto.
    + apply is_sep_false in Ex. destruct (IH (String x tok)) as [_ IH1].
      { intros _. simpl. constructor; [exact Ex|]. destruct tok; [constructor|]. apply Hw. congruence. }
      destruct IH1 as (w & ts & rest & E & Es & Fw & Hr & Hts); [congruence|].
      assert (Er : str_rev (String x tok) +:+ w = str_rev tok +:+ String x w).
      { apply PyFacts.los_inj. unfold PyFacts.los. rewrite !los_app'. change los with PyFacts.los. rewrite !los_rev. simpl. now rewrite <- app_assoc. }
      split.
      * intros ->. rewrite E, Er. simpl. rewrite Es. change (String x (w +:+ rest)) with ("" +:+ String x w +:+ rest).
        apply words_more; [constructor| |exact Hr|exact Hts]. split; [congruence|]. simpl. constructor; assumption.
      * intros Hn. exists (String x w), ts, rest. rewrite E, Er, Es. split; [reflexivity|]. split; [reflexivity|]. split; [simpl; constructor; assumption|]. auto.
Qed.
Lemma tokenize_words s : words_of (tokenize s) s.
Proof. unfold tokenize. destruct (tokenize_loop_word "" ltac:(congruence) s) as [H _]. now apply H. Qed.

(** ... and there is only one way to cut a text into words *)
Lemma app_sep_split g : forall g' t t', Forall separator g -> Forall separator g' ->
  (forall c l, t = c :: l -> ~ separator c) -> (forall c l, t' = c :: l -> ~ separator c) ->
  g ++ t = g' ++ t' -> g = g' /\ t = t'.
Proof.
  induction g as [|c g IH]; intros [|c' g'] t t' Hg Hg' Ht Ht' E; simpl in E.
  - auto.
  - exfalso. apply (Ht c' (g' ++ t')); [exact E|now inversion Hg'].
  - exfalso. apply (Ht' c (g ++ t)); [now symmetry|now inversion Hg].
  - injection E as -> E. inversion Hg; inversion Hg'; subst. destruct (IH g' t t') as [-> ->]; auto.
Qed.
Lemma app_word_split w : forall w' t t', Forall (fun c => ~ separator c) w -> Forall (fun c => ~ separator c) w' ->
  (forall c l, t = c :: l -> separator c) -> (forall c l, t' = c :: l -> separator c) ->
  w ++ t = w' ++ t' -> w = w' /\ t = t'.
Proof.
  induction w as [|c g IH]; intros [|c' g'] t t' Hg Hg' Ht Ht' E; simpl in E.
  - auto.
  - exfalso. inversion Hg' as [|? ? N _]. apply N. apply (Ht c' (g' ++ t')). exact E.
  - exfalso. inversion Hg as [|? ? N _]. apply N. apply (Ht' c (g ++ t)). now symmetry.
  - injection E as -> E. inversion Hg; inversion Hg'; subst. destruct (IH g' t t') as [-> ->]; auto.
Qed.
Lemma words_unique ts s : words_of ts s -> forall ts', words_of ts' s -> ts = ts'.
Proof.
  assert (W : forall t rest, word t -> forall c l, los t ++ rest = c :: l -> ~ separator c).
  { intros t rest [Hn Hf] c l. destruct t as [|a t]; [congruence|]. simpl. intros [= <- _]. now inversion Hf. }
  induction 1 as [g Hg|g t ts rest Hg Ht Hr Hts IH]; intros ts' H'.
  - inversion H' as [|g' t' ts2 rest' Hg' Ht' Hr' Hts' E1 E2]; subst; [reflexivity|]. exfalso.
    destruct Ht' as [Hn Hf]. destruct t' as [|a t']; [congruence|]. inversion Hf as [|? ? Ha _]; subst. apply Ha.
    unfold all_separators in Hg. rewrite los_app' in Hg. apply Forall_app in Hg as [_ Hg]. now inversion Hg.
  - inversion H' as [g' Hg' E1 E2|g' t' ts2 rest' Hg' Ht' Hr' Hts' E1 E2]; subst.
    + exfalso. destruct Ht as [Hn Hf]. destruct t as [|a t]; [congruence|]. inversion Hf as [|? ? Ha _]; subst. apply Ha.
      unfold all_separators in Hg'. rewrite los_app' in Hg'. apply Forall_app in Hg' as [_ Hg']. now inversion Hg'.
    + apply (f_equal los) in E2. rewrite !los_app' in E2.
      apply app_sep_split in E2 as [E3 E4]; [|exact Hg'|exact Hg|now apply W|now apply W].
      assert (R : forall rest, rest = "" \/ (exists c r, rest = String c r /\ separator c) -> forall c l, los rest = c :: l -> separator c).
      { intros rr [->|(c & r & -> & Hc)] c' l; simpl; [discriminate|]. now intros [= <- _]. }
      apply app_word_split in E4 as [E5 E6]; [|apply Ht'|apply Ht|now apply R|now apply R].
      apply PyFacts.los_inj in E5. apply PyFacts.los_inj in E6. subst. f_equal. now apply IH.
Qed.
Lemma tokenize_iff s ts : tokenize s = ts <-> words_of ts s.
Proof. split; [intros <-; apply tokenize_words|]. intros H. eapply words_unique; [apply tokenize_words|exact H]. Qed.

(** ** case *)
Lemma lower_char_idem c : lower_char (lower_char c) = lower_char c.
Proof. destruct c as [[] [] [] [] [] [] [] []]; vm_compute; reflexivity. Qed.
Lemma letter_pair_lower a b : letter_pair a b <-> is_upper a = true /\ b = lower_char a.
Proof.
  split.
  - intros (i & H1 & H2). do 26 (destruct i as [|i]; [vm_compute in H1, H2; injection H1 as <-; injection H2 as <-; vm_compute; auto|]).
    vm_compute in H1. discriminate H1.
  - intros [H ->]. exists (nat_of_ascii a - 65)%nat. destruct a as [[] [] [] [] [] [] [] []]; vm_compute in H; try discriminate H; vm_compute; auto.
Qed.
Lemma lower_char_inj a b : is_upper a = true -> is_upper b = true -> lower_char a = lower_char b -> a = b.
Proof.
  intros Ha Hb H. unfold lower_char in H. rewrite Ha, Hb in H. unfold is_upper in *.
  apply andb_prop in Ha as [A1 A2]. apply andb_prop in Hb as [B1 B2]. apply Nat.leb_le in A2, B2.
  apply (f_equal nat_of_ascii) in H. rewrite !nat_ascii_embedding in H by lia.
  rewrite <- (ascii_nat_embedding a), <- (ascii_nat_embedding b). f_equal. lia.
Qed.
Lemma same_letter_iff a b : same_letter a b <-> lower_char a = lower_char b.
Proof.
  unfold same_letter. rewrite !letter_pair_lower. split.
  - intros [->|[[_ ->]|[_ ->]]]; [reflexivity|now rewrite lower_char_idem|now rewrite lower_char_idem].
  - intros H. destruct (is_upper a) eqn:Ea, (is_upper b) eqn:Eb.
    + left. now apply lower_char_inj.
    + right. left. split; [reflexivity|]. rewrite H. unfold lower_char. now rewrite Eb.
    + right. right. split; [reflexivity|]. rewrite <- H. unfold lower_char. now rewrite Ea.
    + left. unfold lower_char in H. now rewrite Ea, Eb in H.
Qed.
Lemma los_map f s : los (str_map f s) = map f (los s).
Proof. induction s; simpl; [reflexivity|now f_equal]. Qed.
Lemma lower_en s : lower "en" s = py_lower s. Proof. reflexivity. Qed.
Lemma lower_en_iff s t : lower "en" s = lower "en" t <-> same_but_case s t.
Proof.
  rewrite !lower_en. unfold py_lower, same_but_case. revert t. induction s as [|a s IH]; intros [|b t]; simpl.
  - split; [constructor|reflexivity].
  - split; [discriminate|]. intros H. inversion H.
  - split; [discriminate|]. intros H. inversion H.
  - split.
    + intros H. apply (f_equal los) in H. simpl in H. injection H as H1 H2. constructor; [now apply same_letter_iff|].
      apply IH. now apply PyFacts.los_inj.
    + intros H. inversion H as [|? ? ? ? H1 H2]; subst. apply same_letter_iff in H1. apply IH in H2. now rewrite H1, H2.
Qed.
Lemma sep_same a b : same_letter a b -> is_sep a = is_sep b.
Proof.
  rewrite same_letter_iff. intros H.
  assert (L : forall c, is_sep (lower_char c) = is_sep c) by (intros [[] [] [] [] [] [] [] []]; vm_compute; reflexivity).
  now rewrite <- (L a), <- (L b), H.
Qed.
Lemma same_case_refl s : same_but_case s s.
Proof. unfold same_but_case. induction (los s); constructor; first [now left|assumption]. Qed.
Lemma py_lower_rev s : py_lower (str_rev s) = str_rev (py_lower s).
Proof. apply PyFacts.los_inj. unfold PyFacts.los, py_lower. rewrite los_map. change los with PyFacts.los. rewrite !los_rev. unfold PyFacts.los. now rewrite los_map, map_rev. Qed.
Lemma truthy_lower s : truthy (Some (py_lower s)) = truthy (Some s).
Proof. destruct s; reflexivity. Qed.
Lemma tokenize_loop_case s : forall t tok tok', same_but_case s t -> py_lower tok = py_lower tok' ->
  map py_lower (tokenize_loop s tok) = map py_lower (tokenize_loop t tok').
Proof.
  induction s as [|a s IH]; intros [|b t] tok tok' H Ht; inversion H; subst; cbn [tokenize_loop].
  - assert (truthy (Some tok) = truthy (Some tok')) as -> by (now rewrite <- (truthy_lower tok), Ht, truthy_lower).
    destruct (truthy (Some tok')); simpl; [|reflexivity]. now rewrite !py_lower_rev, Ht.
  - rewrite (sep_same a b) by assumption. destruct (is_sep b).
    + assert (truthy (Some tok) = truthy (Some tok')) as -> by (now rewrite <- (truthy_lower tok), Ht, truthy_lower).
      destruct (truthy (Some tok')); simpl; [|now apply IH]. rewrite !py_lower_rev, Ht. f_equal. now apply IH.
    + apply IH; [assumption|]. apply same_letter_iff in H3. unfold py_lower in *. cbn [str_map]. now rewrite H3, Ht.
Qed.
Lemma preprocess_en_case s t : same_but_case s t -> preprocess "en" s = preprocess "en" t.
Proof. intros H. unfold preprocess. apply (tokenize_loop_case s t "" ""); [exact H|reflexivity]. Qed.
Lemma lowly_id s : lowly_python s = s.
Proof. unfold lowly_python. induction s as [|a s IH]; [reflexivity|]. cbn [str_map]. now rewrite IH. Qed.
Lemma py_lower_idem s : py_lower (py_lower s) = py_lower s.
Proof. unfold py_lower. induction s as [|a s IH]; [reflexivity|]. cbn [str_map]. now rewrite IH, lower_char_idem. Qed.
Lemma lower_idem lang s : lower lang (lower lang s) = lower lang s.
Proof. unfold lower. destruct (String.eqb lang "tr"); [now rewrite !lowly_id|apply py_lower_idem]. Qed.
Lemma lower_tr s : lower "tr" s = s.
Proof. apply lowly_id. Qed.
Lemma preprocess_lower lang s : map (lower lang) (preprocess lang s) = preprocess lang s.
Proof. unfold preprocess. rewrite map_map. apply map_ext. apply lower_idem. Qed.

(** ** the index *)
#[local] Instance In_str_dec (t : string) l : Decision (In t l) := in_dec string_dec t l.
Definition docs_of (d : index) (t : string) (q : rarg) : gset string := default ∅ (entry d t q).
Lemma get_term_place o d t q : place q -> get_term o d t q = Ok (docs_of d t q).
Proof.
  intros Hp. unfold get_term, docs_of. rewrite has_key_place, get_item_place by exact Hp. simpl. destruct (entry d t q); reflexivity.
Qed.
Lemma iop_step (f : gset string -> gset string) o q terms : place q -> forall d,
  exists d', foldM (fun d term => docs <- get_term o d term q ;; add_item d term (f docs) q) terms d = Ok d' /\
  forall t q', place q' -> (~ (In t terms /\ q = q') -> docs_of d' t q' = docs_of d t q') /\
     (In t terms /\ q = q' -> (forall x, f (f x) = f x) -> docs_of d' t q' = f (docs_of d t q')).
Proof.
  intros Hp. induction terms as [|t0 terms IH]; intros d; simpl.
  - exists d. split; [reflexivity|]. intros t q' _. split; [reflexivity|]. intros [[] _].
  - rewrite get_term_place by exact Hp. cbn [bind].
    destruct (add_item_entry d t0 (f (docs_of d t0 q)) q Hp) as (d1 & E1 & S1). rewrite E1. cbn [bind].
    destruct (IH d1) as (d' & E' & S'). exists d'. split; [exact E'|]. intros t q' Hq'. destruct (S' t q' Hq') as [S2 S3].
    assert (D1 : docs_of d1 t q' = if bool_decide (t0 = t /\ q = q') then f (docs_of d t q') else docs_of d t q').
    { unfold docs_of. rewrite S1 by exact Hq'. destruct (bool_decide _) eqn:B; [|reflexivity]. apply bool_decide_eq_true in B as [<- <-]. reflexivity. }
    split.
    + intros Hn. rewrite S2 by tauto. rewrite D1. rewrite bool_decide_false; [reflexivity|]. intros [-> ->]. tauto.
    + intros [Hin <-] Hf. destruct (in_dec string_dec t terms) as [Hi|Hi].
      * rewrite S3 by auto. rewrite D1. destruct (bool_decide _); [apply Hf|reflexivity].
      * rewrite S2 by tauto. rewrite D1. rewrite bool_decide_true; [reflexivity|]. destruct Hin; [auto|contradiction].
Qed.
Lemma add_doc_eff o d doc terms q : place q -> exists d', add_doc o d doc terms q = Ok d' /\
  forall t q' x, place q' -> (x ∈ docs_of d' t q' <-> x ∈ docs_of d t q' \/ (x = doc /\ In t terms /\ q = q')).
Proof.
  intros Hp. destruct (iop_step (fun s => s ∪ {[doc]}) o q terms Hp d) as (d' & E & S). exists d'. split; [exact E|].
  intros t q' x Hq'. destruct (S t q' Hq') as [S1 S2].
  destruct (decide (In t terms /\ q = q')) as [D|D].
  - rewrite S2 by (try exact D; set_solver). set_solver.
  - rewrite S1 by exact D. tauto.
Qed.
Lemma remove_doc_eff o d doc terms q : place q -> exists d', remove_doc o d doc terms q = Ok d' /\
  forall t q' x, place q' -> (x ∈ docs_of d' t q' <-> x ∈ docs_of d t q' /\ ~ (x = doc /\ In t terms /\ q = q')).
Proof.
  intros Hp. destruct (iop_step (fun s => s ∖ {[doc]}) o q terms Hp d) as (d' & E & S). exists d'. split; [exact E|].
  intros t q' x Hq'. destruct (S t q' Hq') as [S1 S2].
  destruct (decide (In t terms /\ q = q')) as [D|D].
  - rewrite S2 by (try exact D; set_solver). set_solver.
  - rewrite S1 by exact D. tauto.
Qed.

Lemma has_word_snoc h o doc t q : has_word (h ++ [o]) doc t q <->
  match o with
  | IAdd d ts p => (d = doc /\ In t ts /\ p = q) \/ has_word h doc t q
  | IDel d ts p => ~ (d = doc /\ In t ts /\ p = q) /\ has_word h doc t q
  end.
Proof.
  assert (Last : forall h1 ts h2, h ++ [o] = h1 ++ IAdd doc ts q :: h2 ->
     (h2 = [] /\ o = IAdd doc ts q /\ h = h1) \/ (exists h2', h2 = h2' ++ [o] /\ h = h1 ++ IAdd doc ts q :: h2')).
  { intros h1 ts h2 E.
    destruct h2 as [|y h2'] using rev_ind.
    - left. apply app_inj_tail in E as [-> ->]. auto.
    - right. clear IHh2'. rewrite app_comm_cons, app_assoc in E. apply app_inj_tail in E as [-> ->]. eauto. }
  split.
  - intros (h1 & ts & h2 & E & Hin & Hno). apply Last in E as [(-> & -> & ->)|(h2' & -> & ->)]; [auto|].
    assert (Hw : has_word (h1 ++ IAdd doc ts q :: h2') doc t q).
    { exists h1, ts, h2'. split; [reflexivity|]. split; [exact Hin|]. intros o' Ho'. apply Hno. apply in_or_app. now left. }
    specialize (Hno o). destruct o; [now right|]. split; [|exact Hw]. apply Hno. apply in_or_app. right. now left.
  - destruct o as [d ts p|d ts p].
    + intros H. destruct (decide (d = doc /\ In t ts /\ p = q)) as [(-> & Ht & ->)|D].
      * exists h, ts, []. split; [reflexivity|]. split; [exact Ht|]. intros o [].
      * destruct H as [H|(h1 & ts' & h2 & -> & Hin & Hno)]; [contradiction|].
        exists h1, ts', (h2 ++ [IAdd d ts p]). split; [now rewrite <- app_assoc|]. split; [exact Hin|].
        intros o Ho. apply in_app_or in Ho as [Ho|[<-|[]]]; [auto|exact D].
    + intros (D & h1 & ts' & h2 & -> & Hin & Hno).
      exists h1, ts', (h2 ++ [IDel d ts p]). split; [now rewrite <- app_assoc|]. split; [exact Hin|].
      intros o Ho. apply in_app_or in Ho as [Ho|[<-|[]]]; [auto|exact D].
Qed.

(** Running a history, each operation with the repository order of its moment *)
Fixpoint run_iops (h : list (list string * iop)) (d : index) : res index :=
  match h with [] => Ok d | (order, o) :: h' => d' <- apply_iop order d o ;; run_iops h' d' end.
Lemma run_iops_snoc h x d : run_iops (h ++ [x]) d = (d' <- run_iops h d ;; apply_iop x.1 d' x.2).
Proof.
  revert d. induction h as [|[o i] h IH]; intros d; simpl.
  - destruct x as [o i]. simpl. destruct (apply_iop o d i); reflexivity.
  - destruct (apply_iop o d i); simpl; [apply IH|reflexivity].
Qed.
Lemma history_docs h : Forall (fun x => place (iop_place x.2)) h ->
  exists d, run_iops h ∅ = Ok d /\ forall t q doc, place q -> (doc ∈ docs_of d t q <-> has_word (map snd h) doc t q).
Proof.
  induction h as [|[o i] h IH] using rev_ind; intros Hf.
  - exists ∅. split; [reflexivity|]. intros t q doc _. split.
    + unfold docs_of, entry. rewrite lookup_empty. simpl. set_solver.
    + intros (h1 & ts & h2 & E & _). destruct h1; discriminate E.
  - apply Forall_app in Hf as [Hf Hi]. inversion Hi as [|? ? Hp _]; subst. simpl in Hp. destruct (IH Hf) as (d & E & S).
    rewrite run_iops_snoc, E. cbn [bind fst snd]. rewrite map_app. simpl map. destruct i as [doc ts q|doc ts q]; simpl in *.
    + destruct (add_doc_eff o d doc ts q Hp) as (d' & E' & S'). exists d'. split; [exact E'|].
      intros t q' x Hq'. rewrite S', S, has_word_snoc by exact Hq'.
      assert (X : (x = doc /\ In t ts /\ q = q') <-> (doc = x /\ In t ts /\ q = q')) by (split; intros (-> & ? & ?); auto).
      rewrite X. tauto.
    + destruct (remove_doc_eff o d doc ts q Hp) as (d' & E' & S'). exists d'. split; [exact E'|].
      intros t q' x Hq'. rewrite S', S, has_word_snoc by exact Hq'.
      assert (X : (x = doc /\ In t ts /\ q = q') <-> (doc = x /\ In t ts /\ q = q')) by (split; intros (-> & ? & ?); auto).
      rewrite X. tauto.
Qed.

Lemma get_union_term_spec order d t r : ~ place r ->
  exists R, get_union_term order d t r = Ok R /\ forall x, x ∈ R <-> exists q, In q (cands order r) /\ x ∈ docs_of d t q.
Proof.
  intros Hr. unfold get_union_term. destruct (d !! t) as [m|] eqn:Em.
  - rewrite repo_order_cands by exact Hr. cbn [bind]. eexists. split; [reflexivity|].
    assert (G : forall l acc x, x ∈ fold_left (fun (acc : gset string) k => match m !! k with Some docs => acc ∪ docs | None => acc end) (map pkey l) acc <->
        x ∈ acc \/ exists q, In q l /\ x ∈ docs_of d t q).
    { induction l as [|q l IH]; intros acc x; simpl.
      - split; [auto|]. intros [H|(q & [] & _)]; exact H.
      - rewrite IH. assert (Q : x ∈ docs_of d t q <-> exists docs, m !! pkey q = Some docs /\ x ∈ docs).
        { unfold docs_of, entry. rewrite Em. simpl. destruct (m !! pkey q); simpl; split; [eauto|intros (z & [= <-] & K); exact K|set_solver|intros (z & [=] & _)]. }
        destruct (m !! pkey q) as [docs|]; split.
        + rewrite elem_of_union. intros [[K|K]|(q' & K1 & K2)]; [auto| |]; right; [exists q; split; [now left|apply Q; eauto]|exists q'; auto].
        + rewrite elem_of_union. intros [K|(q' & [<-|K1] & K2)]; [auto| |right; eauto]. apply Q in K2 as (z & [= <-] & K). auto.
        + intros [K|(q' & K1 & K2)]; [auto|right; exists q'; auto].
        + intros [K|(q' & [<-|K1] & K2)]; [auto| |right; eauto]. apply Q in K2 as (z & [=] & K). }
    intros x. rewrite G. split; [intros [K|K]; [set_solver|exact K]|auto].
  - exists ∅. split; [reflexivity|]. intros x. split; [set_solver|]. intros (q & _ & K). unfold docs_of, entry in K. rewrite Em in K. simpl in K. set_solver.
Qed.
Lemma query_spec order d terms r : ~ place r ->
  exists R, query order d terms r = Ok R /\
  forall x, x ∈ R <-> terms <> [] /\ forall t, In t terms -> exists q, In q (cands order r) /\ x ∈ docs_of d t q.
Proof.
  intros Hr. unfold query.
  assert (M : exists ds, mapM (fun x => get_union_term order d x r) terms = Ok ds /\ 
    Forall2 (fun t D => forall x, x ∈ D <-> exists q, In q (cands order r) /\ x ∈ docs_of d t q) terms ds).
  { induction terms as [|t terms (ds & E & F)]; simpl; [exists []; split; [reflexivity|constructor]|].
    destruct (get_union_term_spec order d t r Hr) as (D & E1 & S). rewrite E1, E. simpl. eexists. split; [reflexivity|]. constructor; assumption. }
  destruct M as (ds & -> & F). cbn [bind]. destruct F as [|t D terms ds HD F].
  - exists ∅. split; [reflexivity|]. intros x. split; [set_solver|intros [H _]; congruence].
  - eexists. split; [reflexivity|]. intros x.
    assert (G : forall ds terms, Forall2 (fun t D => forall x, x ∈ D <-> exists q, In q (cands order r) /\ x ∈ docs_of d t q) terms ds ->
       forall acc : gset string, x ∈ fold_left (fun a b => a ∩ b) ds acc <-> x ∈ acc /\ forall t, In t terms -> exists q, In q (cands order r) /\ x ∈ docs_of d t q).
    { clear. induction 1 as [|t D terms ds HD F IH]; intros acc; simpl; [split; [intros H; split; [exact H|intros ? []]|tauto]|].
      rewrite IH, elem_of_intersection, HD. split.
      - intros [[K1 K2] K3]. split; [exact K1|]. intros t' [<-|K]; auto.
      - intros [K1 K2]. split; [split; [exact K1|apply K2; now left]|intros; apply K2; now right]. }
    rewrite (G ds terms F D), HD. split.
    + intros [K1 K2]. split; [congruence|]. intros t' [<-|K]; auto.
    + intros [_ K]. split; [apply K; now left|intros; apply K; now right].
Qed.
Lemma cands_searched order r q : ~ place r -> (In q (cands order r) <-> searched order r q).
Proof.
  intros Hr. unfold searched. destruct (place_cases r) as [H|[->| ->]]; [contradiction| |]; simpl.
  - rewrite in_map_iff. split; [intros (n & <- & H); eauto|]. intros [(n & -> & H)|[H _]]; [eauto|discriminate H].
  - rewrite in_app_iff, in_map_iff. simpl. split.
    + intros [(n & <- & H)|[<-|[<-|[]]]]; [left; eauto|right; auto|right; auto].
    + intros [(n & -> & H)|[_ [->| ->]]]; [left; eauto|auto|auto].
Qed.

Lemma query_exact h d order terms r : Forall (fun x => place (iop_place x.2)) h -> run_iops h ∅ = Ok d -> ~ place r ->
  exists R, query order d terms r = Ok R /\
  forall doc, doc ∈ R <-> terms <> [] /\ forall t, In t terms -> exists q, searched order r q /\ has_word (map snd h) doc t q.
Proof.
  intros Hf E Hr. destruct (history_docs h Hf) as (d' & E' & S). assert (d' = d) as -> by congruence.
  destruct (query_spec order d terms r Hr) as (R & EQ & HR). exists R. split; [exact EQ|]. intros doc. rewrite HR.
  split; intros [H1 H2]; (split; [exact H1|]); intros t Ht; destruct (H2 t Ht) as (q & K1 & K2); exists q.
  - split; [now apply cands_searched|]. apply S; [|exact K2]. eapply cands_place; exact K1.
  - apply cands_searched in K1; [|exact Hr]. split; [exact K1|]. apply S; [|exact K2]. eapply cands_place; exact K1.
Qed.
Lemma history_runs h : Forall (fun x => place (iop_place x.2)) h -> exists d, run_iops h ∅ = Ok d.
Proof. intros H. destruct (history_docs h H) as (d & E & _). eauto. Qed.
