(** * Searching the system databases (C41, C58, C59) *)
From Coq Require Import String Ascii ZArith List Lia.
From stdpp Require Import gmap strings.
From Verif Require Import Model.Py Model.ItemByRepo Model.Dependency Model.Package Model.ComponentDB Model.Search Model.Databases Model.SearchOps
  Spec.ItemByRepoSpec Spec.DatabaseSpec Spec.SearchSpec
  Proof.ItemByRepoFacts Proof.ItemByRepoMain Proof.DatabaseFacts Proof.RevDepFacts Proof.SearchFacts.
Open Scope string_scope.
Open Scope list_scope.

Notation idxs := (gmap (string * string) index).
(** [doc] is in the index [id]/[lang] under term [t] for place [q]. *)
Definition indexed (idx : idxs) (id lang t : string) (q : rarg) (doc : string) : Prop :=
  doc ∈ docs_of (default ∅ (idx !! (id, lang))) t q.

Lemma str_in_In x l : str_in x l = true <-> In x l.
Proof. unfold str_in. rewrite existsb_exists. split; [intros (y & H & E); apply String.eqb_eq in E; now subst|]. intros H. exists x. split; [exact H|apply String.eqb_refl]. Qed.

Definition says (texts : list (string * string)) (lang t : string) : Prop :=
  exists text, In (lang, text) texts /\ In lang ["en"; "tr"] /\ In t (preprocess lang text).
Lemma mentions_says p id lang t : mentions p id lang t <->
  (id = "summary" /\ says (p_summary p) lang t) \/ (id = "description" /\ says (p_description p) lang t).
Proof. unfold mentions, says. split; [intros (x & A & B & [[-> C]|[-> C]]); eauto 7|intros [[-> (x & A & B & C)]|[-> (x & A & B & C)]]; eauto 7]. Qed.

Lemma index_add_eff o q id doc texts : place q -> forall idx,
  exists idx', index_texts (fun d doc terms => add_doc o d doc terms q) id doc texts idx = Ok idx' /\
  forall id' lang t q' x, place q' ->
    (indexed idx' id' lang t q' x <-> indexed idx id' lang t q' x \/ (x = doc /\ q = q' /\ id = id' /\ says texts lang t)).
Proof.
  intros Hp. unfold index_texts. induction texts as [|[l text] texts IH]; intros idx; cbn [foldM].
  - exists idx. split; [reflexivity|]. intros. split; [auto|]. intros [H'|(_ & _ & _ & y & [] & _)]; exact H'.
  - destruct (str_in l ["en"; "tr"]) eqn:El.
    + destruct (add_doc_eff o (default ∅ (idx !! (id, l))) doc (preprocess l text) q Hp) as (d' & Ed & S). rewrite Ed. cbn [bind].
      destruct (IH (<[(id, l) := d']> idx)) as (idx' & E & S'). exists idx'. split; [exact E|].
      intros id' lang t q' x Hq'. rewrite S' by exact Hq'.
      assert (X : indexed (<[(id, l) := d']> idx) id' lang t q' x <->
        indexed idx id' lang t q' x \/ (x = doc /\ q = q' /\ id = id' /\ l = lang /\ In t (preprocess l text))).
      { unfold indexed. destruct (decide ((id, l) = (id', lang))) as [[= <- <-]|D].
        - rewrite lookup_insert. simpl. rewrite S by exact Hq'. intuition congruence.
        - rewrite lookup_insert_ne by exact D. split; [auto|]. intros [H|(_ & _ & -> & -> & _)]; [exact H|congruence]. }
      rewrite X. apply str_in_In in El. split.
      * intros [[H|(-> & -> & -> & -> & H)]|(-> & -> & -> & (y & H1 & H2 & H3))]; [auto| |].
        -- right. split; [reflexivity|]. split; [reflexivity|]. split; [reflexivity|]. exists text. split; [now left|auto].
        -- right. split; [reflexivity|]. split; [reflexivity|]. split; [reflexivity|]. exists y. split; [now right|auto].
      * intros [H|(-> & -> & -> & (y & [[= -> ->]|H1] & H2 & H3))]; [auto|auto 10|].
        right. split; [reflexivity|]. split; [reflexivity|]. split; [reflexivity|]. exists y. auto.
    + cbn [bind]. destruct (IH idx) as (idx' & E & S'). exists idx'. split; [exact E|].
      intros id' lang t q' x Hq'. rewrite S' by exact Hq'. split; (intros [H|(-> & -> & -> & (y & H1 & H2 & H3))]; [auto|]); right;
        (split; [reflexivity|]; split; [reflexivity|]; split; [reflexivity|]); exists y; (split; [|auto]).
      * now right.
      * destruct H1 as [[= -> ->]|H1]; [|exact H1]. apply str_in_In in H2. congruence.
Qed.
Lemma index_remove_eff o q id doc texts : place q -> forall idx,
  exists idx', index_texts (fun d doc terms => remove_doc o d doc terms q) id doc texts idx = Ok idx' /\
  forall id' lang t q' x, place q' ->
    (indexed idx' id' lang t q' x <-> indexed idx id' lang t q' x /\ ~ (x = doc /\ q = q' /\ id = id' /\ says texts lang t)).
Proof.
  intros Hp. unfold index_texts. induction texts as [|[l text] texts IH]; intros idx; cbn [foldM].
  - exists idx. split; [reflexivity|]. intros. split; [|tauto]. intros H'. split; [exact H'|]. intros (_ & _ & _ & y & [] & _).
  - destruct (str_in l ["en"; "tr"]) eqn:El.
    + destruct (remove_doc_eff o (default ∅ (idx !! (id, l))) doc (preprocess l text) q Hp) as (d' & Ed & S). rewrite Ed. cbn [bind].
      destruct (IH (<[(id, l) := d']> idx)) as (idx' & E & S'). exists idx'. split; [exact E|].
      intros id' lang t q' x Hq'. rewrite S' by exact Hq'.
      assert (X : indexed (<[(id, l) := d']> idx) id' lang t q' x <->
        indexed idx id' lang t q' x /\ ~ (x = doc /\ q = q' /\ id = id' /\ l = lang /\ In t (preprocess l text))).
      { unfold indexed. destruct (decide ((id, l) = (id', lang))) as [[= <- <-]|D].
        - rewrite lookup_insert. simpl. rewrite S by exact Hq'. intuition congruence.
        - rewrite lookup_insert_ne by exact D. split; [|tauto]. intros H. split; [exact H|]. intros (_ & _ & -> & -> & _). congruence. }
      rewrite X. apply str_in_In in El. split.
      * intros [[H1 H2] H3]. split; [exact H1|]. intros (-> & -> & -> & (y & [[= -> ->]|K1] & K2 & K3)).
        -- apply H2. auto.
        -- apply H3. split; [reflexivity|]. split; [reflexivity|]. split; [reflexivity|]. exists y. auto.
      * intros [H1 H2]. split; [split; [exact H1|]|].
        -- intros (-> & -> & -> & -> & K). apply H2. split; [reflexivity|]. split; [reflexivity|]. split; [reflexivity|]. exists text. split; [now left|auto].
        -- intros (-> & -> & -> & (y & K1 & K2 & K3)). apply H2. split; [reflexivity|]. split; [reflexivity|]. split; [reflexivity|]. exists y. split; [now right|auto].
    + cbn [bind]. destruct (IH idx) as (idx' & E & S'). exists idx'. split; [exact E|].
      intros id' lang t q' x Hq'. rewrite S' by exact Hq'. split; intros [H1 H2]; (split; [exact H1|]); intros (-> & -> & -> & (y & K1 & K2 & K3)); apply H2;
        (split; [reflexivity|]; split; [reflexivity|]; split; [reflexivity|]); exists y; (split; [|auto]).
      * destruct K1 as [[= -> ->]|K1]; [|exact K1]. apply str_in_In in K2. congruence.
      * now right.
Qed.

Lemma add_package_idx s p q s' : place q -> add_package s p q = Ok s' ->
  order_of s' = order_of s /\
  forall id lang t q' x, place q' ->
    (indexed (db_idx s') id lang t q' x <-> indexed (db_idx s) id lang t q' x \/ (x = p_name p /\ q = q' /\ mentions p id lang t)).
Proof.
  intros Hp H. unfold add_package in H. inv_ok H. injection H as <-. simpl. split; [reflexivity|].
  destruct (index_add_eff (order_of s) q "summary" (p_name p) (p_summary p) Hp (db_idx s)) as (i1 & F1 & S1). rewrite F1 in E3. injection E3 as <-.
  destruct (index_add_eff (order_of s) q "description" (p_name p) (p_description p) Hp i1) as (i2 & F2 & S2). rewrite F2 in E4. injection E4 as <-.
  intros id lang t q' x Hq'. rewrite S2, S1, mentions_says by exact Hq'. split.
  - intros [[H|(-> & -> & <- & H)]|(-> & -> & <- & H)]; auto 10.
  - intros [H|(-> & -> & [[-> H]|[-> H]])]; auto 10.
Qed.
Lemma remove_package_idx s n q s' : place q -> remove_package s n q = Ok s' ->
  exists p, entry (db_pkg s) n q = Some p /\ order_of s' = order_of s /\
  (forall m q', place q' -> entry (db_pkg s') m q' = if bool_decide (n = m /\ q = q') then None else entry (db_pkg s) m q') /\
  forall id lang t q' x, place q' ->
    (indexed (db_idx s') id lang t q' x <-> indexed (db_idx s) id lang t q' x /\ ~ (x = p_name p /\ q = q' /\ mentions p id lang t)).
Proof.
  intros Hp H. unfold remove_package in H. inv_ok H. injection H as <-. simpl. exists v.
  split; [now apply entry_get in E|]. split; [reflexivity|]. split; [exact (remove_item_entry _ _ _ _ _ Hp E0)|].
  destruct (index_remove_eff (order_of s) q "summary" (p_name v) (p_summary v) Hp (db_idx s)) as (i1 & F1 & S1).
  destruct (index_remove_eff (order_of s) q "description" (p_name v) (p_description v) Hp i1) as (i2 & F2 & S2).
  repeat match goal with K : index_texts _ _ _ _ _ = Ok _ |- _ => first [rewrite F1 in K; injection K as <-; clear F1|rewrite F2 in K; injection K as <-; clear F2] end.
  intros id lang t q' x Hq'. rewrite S2, S1, mentions_says by exact Hq'. split.
  - intros [[H1 H2] H3]. split; [exact H1|]. intros (-> & -> & [[-> K]|[-> K]]); [apply H2|apply H3]; auto.
  - intros [H1 H2]. split; [split; [exact H1|]|]; intros (-> & -> & <- & K); apply H2; auto 10.
Qed.

Lemma add_packages_eff q ps : place q -> forall s s', foldM (fun s p => add_package s p q) ps s = Ok s' ->
  order_of s' = order_of s /\
  (forall m q', place q' -> q' <> q -> entry (db_pkg s') m q' = entry (db_pkg s) m q') /\
  (forall m, In m (map p_name ps) -> is_Some (entry (db_pkg s') m q)) /\
  (forall m, is_Some (entry (db_pkg s) m q) -> is_Some (entry (db_pkg s') m q)) /\
  (forall m pk, entry (db_pkg s') m q = Some pk -> (In pk ps /\ p_name pk = m) \/ entry (db_pkg s) m q = Some pk) /\
  forall id lang t q' x, place q' ->
    (indexed (db_idx s') id lang t q' x <-> indexed (db_idx s) id lang t q' x \/
       (q = q' /\ exists p, In p ps /\ x = p_name p /\ mentions p id lang t)).
Proof.
  intros Hp. induction ps as [|p ps IH]; intros s s'; simpl.
  - intros [= <-]. repeat split; auto; try (intros ? []). intros [H'|(_ & p & [] & _)]; exact H'.
  - intros H. apply bind_ok in H as (s1 & E & E'). destruct (IH s1 s' E') as (A1 & A2 & A3 & A4 & A5 & A6).
    pose proof (add_package_entries _ _ _ _ Hp E) as B. destruct (add_package_idx _ _ _ _ Hp E) as [C1 C2].
    split; [congruence|]. split; [|split; [|split; [|split]]].
    + intros m q' Hq' Hne. rewrite A2 by assumption. rewrite B by exact Hq'. rewrite bool_decide_false by (intros [_ K]; congruence). reflexivity.
    + intros m [<-|Hm]; [|auto]. apply A4. rewrite B by exact Hp. rewrite bool_decide_true by auto. eauto.
    + intros m Hm. apply A4. rewrite B by exact Hp. destruct (bool_decide _); eauto.
    + intros m pk K. destruct (A5 m pk K) as [[K1 K2]|K1]; [auto|]. rewrite B in K1 by exact Hp. destruct (bool_decide (p_name p = m /\ q = q)) eqn:D; [|auto].
      apply bool_decide_eq_true in D as [<- _]. injection K1 as <-. left. auto.
    + intros id lang t q' x Hq'. rewrite A6, C2 by exact Hq'. split.
      * intros [[H|(-> & -> & H)]|(-> & p' & H1 & H2)]; [auto| |]; right; (split; [reflexivity|]); [exists p|exists p']; auto.
      * intros [H|(-> & p' & [<-|H1] & H2 & H3)]; [auto|auto|]. right. split; [reflexivity|]. eauto.
Qed.

(** what each operation does to the repository list, the packages and the indexes *)
Lemma op_update_eff s n ix s' : inv s -> op_update_repo s n ix = Ok s' ->
  In n (order_of s) /\ order_of s' = order_of s /\
  (forall m q', place q' -> q' <> RName n -> entry (db_pkg s') m q' = entry (db_pkg s) m q') /\
  (forall m, In m (map p_name (ix_packages ix)) -> is_Some (entry (db_pkg s') m (RName n))) /\
  (forall m pk, entry (db_pkg s') m (RName n) = Some pk -> In pk (ix_packages ix) /\ p_name pk = m) /\
  forall id lang t q' x, place q' ->
    (indexed (db_idx s') id lang t q' x <-> indexed (db_idx s) id lang t q' x \/
       (RName n = q' /\ exists p, In p (ix_packages ix) /\ x = p_name p /\ mentions p id lang t)).
Proof.
  intros HI. unfold op_update_repo. destruct (has_repo _ n) eqn:E; [|discriminate]. intros H.
  destruct HI as [Hr Hs]. apply has_repo_spec in E. apply (proj2 Hr) in E. pose proof (place_name n) as Hp.
  unfold update_db in H.
  destruct (comp_remove_repo_ok _ s _ Hs Hp) as (s1 & K1 & A1 & _ & A5 & A2 & A3 & A4 & A6 & A7). rewrite K1 in H. cbn [bind] in H. inv_ok H.
  assert (I1 : db_idx s1 = db_idx s) by (unfold comp_remove_repo in K1; inv_ok K1; now injection K1 as <-).
  assert (U : db_pkg v = db_pkg s /\ db_idx v = db_idx s /\ db_repo v = db_repo s).
  { split; [rewrite <- A3|split; [rewrite <- I1|rewrite <- A2]].
    - eapply (foldM_same db_pkg); [|exact E0]. intros t c t' K. simpl in K. inv_ok K. now injection K as <-.
    - eapply (foldM_same db_idx); [|exact E0]. intros t c t' K. simpl in K. inv_ok K. now injection K as <-.
    - eapply (foldM_same db_repo); [|exact E0]. intros t c t' K. simpl in K. inv_ok K. now injection K as <-. }
  destruct U as (U1 & U2 & U3).
  assert (B2 : shelves_ok (order_of s) v).
  { eapply (foldM_inv (shelves_ok (order_of s))); [|exact A1|exact E0].
    intros t c t' _ [] H'. inv_ok H'. injection H' as <-. constructor; simpl; auto.
    eapply update_component_good; eauto. split; [exact Hp|intros r [= <-]; exact E]. }
  assert (I2 : db_idx v0 = db_idx s) by (unfold pkg_remove_repo in E1; inv_ok E1; now injection E1 as <-).
  destruct (pkg_remove_repo_ok _ v _ B2 Hp) as (s2 & E' & _ & _ & _ & S1 & S2 & V1 & _). rewrite E' in E1. injection E1 as <-.
  destruct (add_packages_eff (RName n) (ix_packages ix) Hp s2 v1 E2) as (C1 & C2 & C3 & C4 & C5 & C6).
  assert (G : db_pkg s' = db_pkg v1 /\ db_idx s' = db_idx v1 /\ db_repo s' = db_repo v1).
  { assert (G2 : db_pkg v2 = db_pkg v1 /\ db_idx v2 = db_idx v1 /\ db_repo v2 = db_repo v1) by (unfold src_remove_repo in E3; inv_ok E3; now injection E3 as <-).
    destruct G2 as (G1 & G2 & G3). rewrite <- G1, <- G2, <- G3. split; [|split].
    - eapply (foldM_same db_pkg); [|exact H]. intros t c t' K. unfold add_spec in K. inv_ok K. now injection K as <-.
    - eapply (foldM_same db_idx); [|exact H]. intros t c t' K. unfold add_spec in K. inv_ok K. now injection K as <-.
    - eapply (foldM_same db_repo); [|exact H]. intros t c t' K. unfold add_spec in K. inv_ok K. now injection K as <-. }
  destruct G as (G1 & G2 & G3). split; [exact E|]. split; [|split; [|split; [|split]]].
  - unfold order_of in *. rewrite G3, C1, V1, U3. reflexivity.
  - intros m q' Hq' Hne. rewrite G1, C2 by assumption. rewrite S1 by exact Hq'. rewrite bool_decide_false by exact Hne. now rewrite U1.
  - intros m Hm. rewrite G1. auto.
  - intros m pk K. rewrite G1 in K. destruct (C5 m pk K) as [K'|K']; [exact K'|]. rewrite S1 in K' by exact Hp. rewrite bool_decide_true in K' by reflexivity. discriminate K'.
  - intros id lang t q' x Hq'. rewrite G2, C6, I2 by exact Hq'. reflexivity.
Qed.

Lemma op_remove_repo_eff s n s' : inv s -> op_remove_repo s n = Ok s' -> s' = s \/
  ((forall r, In r (order_of s') <-> In r (order_of s) /\ r <> n) /\ same_but (RName n) (db_pkg s) (db_pkg s') /\ db_idx s' = db_idx s).
Proof.
  intros [Hr Hs]. unfold op_remove_repo. destruct (has_repo _ n) eqn:E; [|intros [= <-]; auto].
  intros H. right. apply has_repo_spec in E. apply (proj2 Hr) in E.
  destruct (repo_remove_ok _ n Hr E) as (rd & E' & R1 & R2).
  destruct (remove_repo_ok _ s n rd Hs E') as (s1 & K & Q1 & Q2 & S1 & _). rewrite K in H. injection H as <-.
  split; [|split; [exact S1|]].
  - intros r. unfold order_of. rewrite Q1, R2. unfold minus. rewrite filter_In.
    destruct (bool_decide (RName n = RName r)) eqn:B; simpl.
    + apply bool_decide_eq_true in B. split; [intros [_ KK]; discriminate KK|intros [_ KK]; congruence].
    + apply bool_decide_eq_false in B. split; [intros [KK _]; split; [exact KK|congruence]|tauto].
  - unfold remove_repo in K. inv_ok K. unfold pkg_remove_repo, src_remove_repo, comp_remove_repo in *.
    inv_ok K. injection K as <-. inv_ok E1. injection E1 as <-. inv_ok E2. injection E2 as <-. reflexivity.
Qed.
Lemma op_add_repo_eff s n u p s' : op_add_repo s n u p = Ok s' ->
  (forall r, In r (order_of s') -> In r (order_of s) \/ r = n) /\ db_pkg s' = db_pkg s /\ db_idx s' = db_idx s.
Proof.
  unfold op_add_repo. destruct (has_repo _ n) eqn:E; [discriminate|]. unfold add_repo. intros H. inv_ok H. injection H as <-. simpl.
  split; [|auto]. unfold order_of. simpl. unfold repo_add in E0. rewrite E in E0. destruct p as [z|].
  - destruct (_ || _); [discriminate|]. injection E0 as <-. simpl. intros r Hr. rewrite <- (take_drop (Z.to_nat z) (rd_order (db_repo s))).
    apply in_app_or in Hr as [Hr|[<-|Hr]]; [left; apply in_or_app; auto|auto|left; apply in_or_app; auto].
  - injection E0 as <-. simpl. intros r Hr. apply in_app_or in Hr as [Hr|[<-|[]]]; auto.
Qed.
Lemma forget_steps s n s' (P : dbs -> Prop) :
  (forall t q t', (q = RInst \/ q = RThird) -> P t -> remove_package t n q = Ok t' -> P t') ->
  P s -> remove_tracking_package s n = Ok s' -> P s'.
Proof.
  intros Hstep Hs H. unfold remove_tracking_package in H. inv_ok H.
  assert (I0 : P v0) by (destruct v; [eapply Hstep; [left; reflexivity|exact Hs|exact E0]|injection E0 as <-; exact Hs]).
  destruct v1; [eapply Hstep; [right; reflexivity|exact I0|exact H]|injection H as <-; exact I0].
Qed.

(** ** C59: completeness, in every history *)
Definition complete (s : dbs) : Prop :=
  forall n q pk, place q -> entry (db_pkg s) n q = Some pk ->
    p_name pk = n /\ forall id lang t, mentions pk id lang t -> indexed (db_idx s) id lang t q n.
Lemma apply_op_complete s o s' : inv s -> complete s -> apply_op s o = Ok s' -> complete s'.
Proof.
  intros HI C. destruct o as [n u p|n|n ix|p|p|n]; simpl.
  - intros H. apply op_add_repo_eff in H as (_ & E1 & E2). unfold complete. now rewrite E1, E2.
  - intros H. destruct (op_remove_repo_eff _ _ _ HI H) as [->|(_ & S & E)]; [exact C|]. intros m q pk Hq. rewrite S by exact Hq.
    destruct (bool_decide _); [discriminate|]. rewrite E. now apply C.
  - intros H. destruct (op_update_eff _ _ _ _ HI H) as (_ & _ & A2 & A3 & A4 & A5). intros m q pk Hq K.
    destruct (decide (q = RName n)) as [->|Hne].
    + apply A4 in K as [K <-]. split; [reflexivity|]. intros id lang t M. apply A5; [exact Hq|]. right. eauto.
    + rewrite A2 in K by assumption. destruct (C m q pk Hq K) as [C1 C2]. split; [exact C1|]. intros id lang t M. apply A5; [exact Hq|]. auto.
  - intros H. intros m q pk Hq K. rewrite (add_package_entries _ _ _ _ place_inst H) in K by exact Hq. destruct (add_package_idx _ _ _ _ place_inst H) as [_ A].
    destruct (bool_decide _) eqn:B.
    + apply bool_decide_eq_true in B as [<- <-]. injection K as <-. split; [reflexivity|]. intros. apply A; auto.
    + destruct (C m q pk Hq K) as [C1 C2]. split; [exact C1|]. intros. apply A; auto.
  - intros H. intros m q pk Hq K. rewrite (add_package_entries _ _ _ _ place_third H) in K by exact Hq. destruct (add_package_idx _ _ _ _ place_third H) as [_ A].
    destruct (bool_decide _) eqn:B.
    + apply bool_decide_eq_true in B as [<- <-]. injection K as <-. split; [reflexivity|]. intros. apply A; auto.
    + destruct (C m q pk Hq K) as [C1 C2]. split; [exact C1|]. intros. apply A; auto.
  - apply (forget_steps s n s' complete); [|exact C]. intros t q t' Hq Ct K.
    assert (Hp : place q) by (destruct Hq as [->| ->]; [apply place_inst|apply place_third]).
    destruct (remove_package_idx _ _ _ _ Hp K) as (p & P1 & _ & P2 & P3). destruct (Ct n q p Hp P1) as [Pn _].
    intros m q' pk Hq' K'. rewrite P2 in K' by exact Hq'. destruct (bool_decide _) eqn:B; [discriminate K'|].
    destruct (Ct m q' pk Hq' K') as [C1 C2]. split; [exact C1|]. intros id lang tt M. apply P3; [exact Hq'|]. split; [auto|].
    intros (-> & -> & _). apply bool_decide_eq_false in B. apply B. auto.
Qed.
Lemma reachable_complete s : reachable s -> complete s.
Proof.
  induction 1 as [|s o s' H IH _ E]; [intros n q pk _ K; discriminate K|]. eapply apply_op_complete; eauto. eapply history_inv; eauto.
Qed.

(** ** C41: soundness, in careful histories *)
Lemma findable_indexed s q doc : place q -> (findable s q doc <-> exists id lang t,
  In id ["summary"; "description"] /\ In lang ["en"; "tr"] /\ indexed (db_idx s) id lang t q doc).
Proof.
  intros Hp. unfold findable, indexed. split.
  - intros (id & lang & t & docs & H1 & H2 & H3 & H4). rewrite get_term_place in H3 by exact Hp. injection H3 as <-. eauto 10.
  - intros (id & lang & t & H1 & H2 & H3). exists id, lang, t, (docs_of (default ∅ (db_idx s !! (id, lang))) t q).
    split; [exact H1|]. split; [exact H2|]. split; [now apply get_term_place|exact H3].
Qed.
Record sound (s : dbs) : Prop := mkSound {
  sd_ids : forall id lang t q doc, place q -> indexed (db_idx s) id lang t q doc -> In id ["summary"; "description"] /\ In lang ["en"; "tr"];
  sd_names : forall n q pk, place q -> entry (db_pkg s) n q = Some pk -> p_name pk = n;
  sd_track : forall id lang t q doc, (q = RInst \/ q = RThird) -> indexed (db_idx s) id lang t q doc ->
     exists pk, entry (db_pkg s) doc q = Some pk /\ mentions pk id lang t;
  sd_repos : forall id lang t n doc, In n (order_of s) -> indexed (db_idx s) id lang t (RName n) doc ->
     is_Some (entry (db_pkg s) doc (RName n))
}.
Lemma mentions_ids p id lang t : mentions p id lang t -> In id ["summary"; "description"] /\ In lang ["en"; "tr"].
Proof. intros (x & _ & H & [[-> _]|[-> _]]); simpl; auto. Qed.
Lemma track_place q : q = RInst \/ q = RThird -> place q.
Proof. intros [->| ->]; [apply place_inst|apply place_third]. Qed.

Lemma add_tracking_sound s p q s' : (q = RInst \/ q = RThird) -> entry (db_pkg s) (p_name p) q = None -> sound s ->
  add_package s p q = Ok s' -> sound s'.
Proof.
  intros Hq Hno [I1 I2 I3 I4] H. pose proof (track_place q Hq) as Hp.
  pose proof (add_package_entries _ _ _ _ Hp H) as B. destruct (add_package_idx _ _ _ _ Hp H) as [O A].
  constructor.
  - intros id lang t q' doc Hq' K. apply A in K as [K|(_ & _ & K)]; [eauto|now apply mentions_ids in K|exact Hq'].
  - intros n q' pk Hq' K. rewrite B in K by exact Hq'. destruct (bool_decide _) eqn:D; [|eauto]. apply bool_decide_eq_true in D as [<- _]. now injection K as <-.
  - intros id lang t q' doc Hq' K. rewrite B by now apply track_place. apply A in K as [K|(-> & -> & K)]; [| |now apply track_place].
    + destruct (I3 _ _ _ _ _ Hq' K) as (pk & K1 & K2). rewrite bool_decide_false; [eauto|]. intros [<- <-]. congruence.
    + rewrite bool_decide_true by auto. eauto.
  - intros id lang t n doc Hn K. rewrite B by apply place_name. rewrite bool_decide_false by (intros [_ ->]; destruct Hq; discriminate).
    apply A in K as [K|(_ & -> & _)]; [rewrite O in Hn; eauto|destruct Hq; discriminate|apply place_name].
Qed.
Lemma remove_tracking_sound s n q s' : (q = RInst \/ q = RThird) -> sound s -> remove_package s n q = Ok s' -> sound s'.
Proof.
  intros Hq [I1 I2 I3 I4] H. pose proof (track_place q Hq) as Hp.
  destruct (remove_package_idx _ _ _ _ Hp H) as (p & P1 & O & B & A). pose proof (I2 _ _ _ Hp P1) as Pn.
  constructor.
  - intros id lang t q' doc Hq' K. apply A in K as [K _]; [eauto|exact Hq'].
  - intros m q' pk Hq' K. rewrite B in K by exact Hq'. destruct (bool_decide _); [discriminate K|eauto].
  - intros id lang t q' doc Hq' K. rewrite B by now apply track_place. apply A in K as [K Kn]; [|now apply track_place].
    destruct (I3 _ _ _ _ _ Hq' K) as (pk & K1 & K2). rewrite bool_decide_false; [eauto|]. intros [<- <-]. apply Kn.
    assert (pk = p) as -> by congruence. auto.
  - intros id lang t m doc Hm K. rewrite B by apply place_name. rewrite bool_decide_false by (intros [_ ->]; destruct Hq; discriminate).
    apply A in K as [K _]; [rewrite O in Hm; eauto|apply place_name].
Qed.
Lemma apply_op_sound s o s' : inv s -> search_careful s o -> sound s -> apply_op s o = Ok s' -> sound s'.
Proof.
  intros HI C S. destruct o as [n u p|n|n ix|p|p|n]; simpl.
  - intros H. apply op_add_repo_eff in H as (O & E1 & E2). destruct S as [I1 I2 I3 I4]. constructor; rewrite ?E1, ?E2; auto.
    intros id lang t m doc Hm K. apply O in Hm as [Hm| ->]; [eauto|]. exfalso. apply (C doc). apply findable_indexed; [apply place_name|].
    destruct (I1 _ _ _ _ _ (place_name n) K) as [K1 K2]. eauto 10.
  - intros H. destruct (op_remove_repo_eff _ _ _ HI H) as [->|(O & B & E)]; [exact S|]. destruct S as [I1 I2 I3 I4]. constructor; rewrite ?E; auto.
    + intros m q pk Hq K. rewrite B in K by exact Hq. destruct (bool_decide _); [discriminate K|eauto].
    + intros id lang t q doc Hq K. rewrite B by now apply track_place. rewrite bool_decide_false by (intros ->; destruct Hq; discriminate). eauto.
    + intros id lang t m doc Hm K. apply O in Hm as [Hm Hne]. rewrite B by apply place_name. rewrite bool_decide_false by congruence. eauto.
  - intros H. destruct (op_update_eff _ _ _ _ HI H) as (Hin & O & B1 & B2 & B3 & A). destruct S as [I1 I2 I3 I4]. constructor.
    + intros id lang t q doc Hq K. apply A in K as [K|(_ & p & _ & _ & K)]; [eauto|now apply mentions_ids in K|exact Hq].
    + intros m q pk Hq K. destruct (decide (q = RName n)) as [->|Hne]; [now apply B3 in K|]. rewrite B1 in K by assumption. eauto.
    + intros id lang t q doc Hq K. assert (q <> RName n) by (intros ->; destruct Hq; discriminate).
      rewrite B1 by (try assumption; now apply track_place). apply A in K as [K|(<- & _)]; [eauto|congruence|now apply track_place].
    + intros id lang t m doc Hm K. rewrite O in Hm. destruct (decide (m = n)) as [->|Hne].
      * apply B2. apply A in K as [K|(_ & p & K1 & -> & _)]; [| now apply in_map|apply place_name].
        apply C. apply findable_indexed; [apply place_name|]. destruct (I1 _ _ _ _ _ (place_name n) K) as [K1 K2]. eauto 10.
      * rewrite B1 by (try apply place_name; congruence). apply A in K as [K|(K & _)]; [eauto|congruence|apply place_name].
  - intros H. eapply (add_tracking_sound s p RInst); eauto. apply (entry_missing (order_of s)); [apply place_inst|exact C].
  - intros H. eapply (add_tracking_sound s p RThird); eauto. apply (entry_missing (order_of s)); [apply place_third|exact C].
  - apply (forget_steps s n s' sound); [|exact S]. intros t q t' Hq St. now apply remove_tracking_sound.
Qed.
Lemma careful_sound s : history_where search_careful s -> sound s.
Proof.
  induction 1 as [|s o s' H IH C E].
  - assert (N : forall id lang t q doc, ~ indexed (db_idx empty_dbs) id lang t q doc).
    { intros id lang t q doc. unfold indexed, empty_dbs. cbn [db_idx]. rewrite lookup_empty. simpl. unfold docs_of, entry. rewrite lookup_empty. simpl. set_solver. }
    constructor.
    + intros id lang t q doc _ K. now apply N in K.
    + intros n q pk _ K. discriminate K.
    + intros id lang t q doc _ K. now apply N in K.
    + intros id lang t n doc _ K. now apply N in K.
  - eapply apply_op_sound; eauto. eapply history_inv; eauto.
Qed.

(** ** the search operations *)
Lemma sys_query_spec s id lang text r : ~ place r -> In id ["summary"; "description"] -> In lang ["en"; "tr"] ->
  exists R, sys_query s id lang text r = Ok R /\
  forall x, x ∈ R <-> preprocess lang text <> [] /\ forall t, In t (preprocess lang text) ->
     exists q, searched (order_of s) r q /\ indexed (db_idx s) id lang t q x.
Proof.
  intros Hr Hi Hl. unfold sys_query, sys_query_terms, invidx. apply str_in_In in Hi, Hl. rewrite Hi, Hl. cbn [andb bind].
  rewrite preprocess_lower. destruct (query_spec (order_of s) (default ∅ (db_idx s !! (id, lang))) (preprocess lang text) r Hr) as (R & E & H).
  exists R. split; [exact E|]. intros x. rewrite H. unfold indexed. now setoid_rewrite (cands_searched (order_of s) r _ Hr).
Qed.
Lemma names_spec s q : reachable s -> exists R, search_package_names s q = Ok R /\
  forall x, x ∈ R <-> py_contains x q = true /\ exists r pk, In r (order_of s) /\ get_package s x (RName r) = Ok pk.
Proof.
  intros H. destruct (reachable_inv s H) as [_ [Hg _ _ _ _]]. unfold search_package_names. cbn [list_items bind].
  eexists. split; [reflexivity|]. intros x. rewrite elem_of_list_to_set, elem_of_list_In, filter_In.
  assert (L : In x (List.filter (fun kv : string * gmap string package => not_just_tracking kv.2) (map_to_list (db_pkg s))).*1 <-> has_key (db_pkg s) x RRepos = Ok true).
  { simpl. rewrite <- elem_of_list_In, elem_of_list_fmap. split.
    - intros ([k m] & -> & K). apply elem_of_list_In, filter_In in K as [K1 K2]. apply elem_of_list_In, elem_of_map_to_list in K1. simpl in *. now rewrite K1, K2.
    - destruct (db_pkg s !! x) as [m|] eqn:E; [|discriminate]. intros [= K]. exists (x, m). split; [reflexivity|].
      apply elem_of_list_In, filter_In. split; [apply elem_of_list_In, elem_of_map_to_list; exact E|exact K]. }
  rewrite L. destruct (good_agree (order_of s) (db_pkg s) x RRepos Hg) as [A _]. rewrite A. clear L A. split.
  - intros [(pk & K) Hc]. split; [exact Hc|]. apply get_item_repo_get in K as (q' & K). apply first_repository in K as (pre & r & post & E & -> & K & _).
    exists r, pk. split; [rewrite E; apply in_or_app; right; now left|exact K].
  - intros [Hc (r & pk & Hr & K)]. split; [|exact Hc]. destruct (get_item (order_of s) (db_pkg s) x RRepos) as [y|e] eqn:E; [eauto|].
    exfalso. assert (M : missing (get_item (order_of s) (db_pkg s) x RRepos)) by (exists e; exact E).
    rewrite lookup_fails in M. destruct (M r Hr) as [e' M']. unfold get_package in K. congruence.
Qed.
Lemma search_spec s text lang names r : reachable s -> ~ place r -> In lang ["en"; "tr"] ->
  exists R, search_package s text lang names r = Ok R /\
  forall x, x ∈ R <->
    (names = true /\ py_contains x text = true /\ exists n pk, In n (order_of s) /\ get_package s x (RName n) = Ok pk) \/
    (preprocess lang text <> [] /\ exists id, In id ["summary"; "description"] /\ forall t, In t (preprocess lang text) ->
       exists q, searched (order_of s) r q /\ indexed (db_idx s) id lang t q x).
Proof.
  intros H Hr Hl. unfold search_package.
  destruct (sys_query_spec s "summary" lang text r Hr ltac:(simpl; auto) Hl) as (R1 & -> & H1). cbn [bind].
  destruct (sys_query_spec s "description" lang text r Hr ltac:(simpl; auto) Hl) as (R2 & -> & H2). cbn [bind].
  assert (U : forall x, x ∈ R1 ∪ R2 <-> (preprocess lang text <> [] /\ exists id, In id ["summary"; "description"] /\ forall t, In t (preprocess lang text) ->
       exists q, searched (order_of s) r q /\ indexed (db_idx s) id lang t q x)).
  { intros x. rewrite elem_of_union, H1, H2. simpl. split.
    - intros [[K1 K2]|[K1 K2]]; (split; [exact K1|]); eauto.
    - intros [K1 (id & [<-|[<-|[]]] & K2)]; auto. }
  destruct names.
  - destruct (names_spec s text H) as (N & -> & HN). cbn [bind]. eexists. split; [reflexivity|]. intros x.
    rewrite elem_of_union, U, HN. tauto.
  - eexists. split; [reflexivity|]. intros x. rewrite U. intuition discriminate.
Qed.

Lemma searched_place order r q : searched order r q -> place q.
Proof. intros [(n & -> & _)|[_ [->| ->]]]; split; discriminate. Qed.

(** C41 *)
Lemma search_results_exist s text lang names r R : history_where search_careful s -> ~ place r -> In lang ["en"; "tr"] ->
  search_package s text lang names r = Ok R -> forall x, x ∈ R -> exists q pk, searched (order_of s) RAll q /\ get_package s x q = Ok pk.
Proof.
  intros H Hr Hl E x Hx.
  assert (Hre : reachable s) by (clear - H; induction H; [constructor|econstructor; eauto]).
  destruct (search_spec s text lang names r Hre Hr Hl) as (R' & E' & S). assert (R' = R) as -> by congruence.
  apply S in Hx as [(_ & _ & n & pk & Hn & K)|(Hne & id & Hid & K)].
  - exists (RName n), pk. split; [left; eauto|exact K].
  - destruct (preprocess lang text) as [|t ts] eqn:Et; [congruence|]. destruct (K t (or_introl eq_refl)) as (q & Hq & Hix).
    destruct (careful_sound s H) as [I1 I2 I3 I4]. assert (P : is_Some (entry (db_pkg s) x q)).
    { destruct Hq as [(n & -> & Hn)|[_ Hq]]; [eauto|]. destruct (I3 id lang t q x) as (pk & -> & _); [tauto|exact Hix|eauto]. }
    destruct P as [pk P]. exists q, pk. split; [destruct Hq as [Hq|[_ Hq]]; [left|right]; auto|].
    apply entry_get; [|exact P]. eapply searched_place; exact Hq.
Qed.
(** C59 *)
Lemma search_finds s text lang names r id q x pk : reachable s -> ~ place r -> In lang ["en"; "tr"] ->
  searched (order_of s) r q -> get_package s x q = Ok pk -> preprocess lang text <> [] ->
  (forall t, In t (preprocess lang text) -> mentions pk id lang t) ->
  exists R, search_package s text lang names r = Ok R /\ x ∈ R.
Proof.
  intros H Hr Hl Hq Hg Hne M. destruct (search_spec s text lang names r H Hr Hl) as (R & E & S). exists R. split; [exact E|].
  apply S. right. split; [exact Hne|]. pose proof (searched_place _ _ _ Hq) as Hp. apply entry_get in Hg; [|exact Hp].
  destruct (reachable_complete s H x q pk Hp Hg) as [_ C]. exists id. split.
  - destruct (preprocess lang text) as [|t ts]; [congruence|]. now destruct (mentions_ids _ _ _ _ (M t (or_introl eq_refl))).
  - intros t Ht. exists q. split; [exact Hq|]. auto.
Qed.
(** C58 *)
Lemma search_other_language s text lang names r : ~ In lang ["en"; "tr"] -> search_package s text lang names r = Err EKey.
Proof.
  intros H. unfold search_package, sys_query, sys_query_terms, invidx.
  destruct (str_in lang ["en"; "tr"]) eqn:E; [apply str_in_In in E; contradiction|]. rewrite andb_false_r. reflexivity.
Qed.
(** [py_contains] is substring *)
Lemma contains_iff s p : py_contains s p = true <-> exists a b, s = a +:+ p +:+ b.
Proof.
  induction s as [|c s IH]; cbn [py_contains]; rewrite orb_true_iff, Proof.PyFacts.startswith_iff.
  - split; [intros [(r & ->)|H]; [exists "", r; reflexivity|discriminate H]|]. intros (a & b & E). left. destruct a; [|discriminate E]. simpl in E. eauto.
  - rewrite IH. split.
    + intros [(r & ->)|(a & b & ->)]; [exists "", r; reflexivity|exists (String c a), b; reflexivity].
    + intros (a & b & E). destruct a as [|c' a]; [left; exists b; exact E|]. injection E as -> ->. right. eauto.
Qed.
