(** * Invariants of the databases *)
From Coq Require Import String List ZArith.
From stdpp Require Import gmap strings.
From Verif Require Import Model.Py Model.ItemByRepo Model.Dependency Model.Package Model.ComponentDB Model.Search Model.Databases
  Spec.ItemByRepoSpec Spec.DatabaseSpec Proof.ItemByRepoFacts Proof.ItemByRepoMain.
Open Scope string_scope.
Open Scope list_scope.

Lemma bind_ok {A B} (x : res A) (f : A -> res B) b : bind x f = Ok b <-> exists a, x = Ok a /\ f a = Ok b.
Proof. destruct x; simpl; split; [eauto|intros (a' & [= <-] & H); exact H|discriminate|intros (a & H & _); discriminate H]. Qed.

Lemma foldM_inv {A S} (P : S -> Prop) (f : S -> A -> res S) l : forall s s',
  (forall s x s', In x l -> P s -> f s x = Ok s' -> P s') -> P s -> foldM f l s = Ok s' -> P s'.
Proof.
  induction l as [|x l IH]; intros s s' H Hs; simpl; [intros [= <-]; exact Hs|].
  rewrite bind_ok. intros (s1 & E & E'). apply (IH s1 s'); [|eapply H; eauto; now left|exact E'].
  intros. eapply H; eauto. now right.
Qed.

Ltac inv_ok H :=
  repeat match type of H with
  | bind _ _ = Ok _ => let a := fresh "v" in let E := fresh "E" in apply bind_ok in H as (a & E & H)
  end.

(** a place the operations may write to *)
Definition okplace (order : list string) (q : rarg) : Prop := place q /\ forall r, q = RName r -> In r order.

Definition good {A} (order : list string) (d : shelf A) : Prop :=
  wf d /\ forall n r, is_Some (entry d n (RName r)) -> In r order.

Section good.
  Context {A : Type}.
  Implicit Types (d : shelf A) (order : list string).
  Lemma good_empty order : good order (∅ : shelf A).
  Proof. split; [apply wf_empty|]. intros n r [x H]. discriminate H. Qed.
  Lemma good_listed order d : good order d -> listed order d.
  Proof. intros [_ H]. now apply listed_entry. Qed.
  Lemma good_mono order order' d : (forall r, In r order -> In r order') -> good order d -> good order' d.
  Proof. intros H [Hw Hl]. split; [exact Hw|]. intros n r Hr. apply H. eauto. Qed.
  Lemma good_add order d n x q d' : good order d -> okplace order q -> add_item d n x q = Ok d' -> good order d'.
  Proof.
    intros [Hw Hl] [Hp Hq] H. split; [eapply wf_add; eauto|]. intros n' r Hr.
    rewrite add_item_ok in H by exact Hp. injection H as <-. rewrite entry_add in Hr by (auto using place_name).
    destruct (bool_decide _) eqn:E; [|eauto]. apply bool_decide_eq_true in E as [_ ->]. now apply Hq.
  Qed.
  Lemma good_remove order order' d n q d' : good order d -> place q -> remove_item order' d n q = Ok d' -> good order d'.
  Proof.
    intros [Hw Hl] Hp H. split; [eapply wf_remove_item; eauto|]. intros n' r Hr.
    unfold remove_item in H. rewrite (proj2 (place_wildcard q) Hp) in H.
    rewrite (entry_remove d n q d' n' (RName r) Hp (place_name r) H) in Hr.
    destruct (bool_decide _); [destruct Hr; discriminate|eauto].
  Qed.
  Lemma good_remove_repo order d q : good order d -> place q ->
    exists d', remove_repo_items d q = Ok d' /\ good (List.filter (fun r => negb (bool_decide (q = RName r))) order) d' /\ good order d' /\
      forall n q', place q' -> entry d' n q' = if bool_decide (q' = q) then None else entry d n q'.
  Proof.
    intros [Hw Hl] Hp. destruct (remove_repo_spec d q Hp Hw) as (d' & E & W & S). exists d'. split; [exact E|].
    assert (G : forall n r, is_Some (entry d' n (RName r)) -> In r order /\ RName r <> q).
    { intros n r Hr. rewrite S in Hr by apply place_name. destruct (bool_decide (RName r = q)) eqn:B; [destruct Hr; discriminate|].
      apply bool_decide_eq_false in B. eauto. }
    split; [|split; [|exact S]].
    - split; [exact W|]. intros n r Hr. apply G in Hr as [H1 H2]. apply filter_In. split; [exact H1|].
      now rewrite bool_decide_false by congruence.
    - split; [exact W|]. intros n r Hr. now apply G in Hr.
  Qed.
End good.

(** ** The state invariant *)
Definition repo_ok (rd : repodb) : Prop :=
  NoDup (rd_order rd) /\ forall n, is_Some (rd_infos rd !! n) <-> In n (rd_order rd).

Record shelves_ok (order : list string) (s : dbs) : Prop := mkShelvesOk {
  ok_pkg : good order (db_pkg s);
  ok_rev : good order (db_rev s);
  ok_src : good order (db_src s);
  ok_p2s : good order (db_p2s s);
  ok_comp : good order (db_comp s)
}.
Definition inv (s : dbs) : Prop := repo_ok (db_repo s) /\ shelves_ok (order_of s) s.

Lemma comp_add_good order o d c p q d' : good order d -> okplace order q -> comp_add_package o d c p q = Ok d' -> good order d'.
Proof.
  intros Hg Hq. unfold comp_add_package. destruct c as [c|]; [|discriminate]. destruct (truthy (Some c)); [|discriminate].
  intros H. inv_ok H. eapply good_add; eauto.
Qed.
Lemma comp_add_spec_good order o d c p q d' : good order d -> okplace order q -> comp_add_spec o d c p q = Ok d' -> good order d'.
Proof.
  intros Hg Hq. unfold comp_add_spec. destruct c as [c|]; [|discriminate]. destruct (truthy (Some c)); [|discriminate].
  intros H. inv_ok H. eapply good_add; eauto.
Qed.
Lemma comp_remove_good order o d c p q d' : good order d -> okplace order q -> comp_remove_package o d c p q = Ok d' -> good order d'.
Proof.
  intros Hg Hq H. unfold comp_remove_package in H. inv_ok H. destruct v; [|discriminate H]. inv_ok H. eapply good_add; eauto.
Qed.
Lemma update_component_good order o d c q d' : good order d -> okplace order q -> update_component o d c q = Ok d' -> good order d'.
Proof.
  intros Hg Hq H. unfold update_component in H. inv_ok H. destruct v; [inv_ok H|]; eapply good_add; eauto.
Qed.
Lemma add_revdep_good order o d n q dep d' : good order d -> okplace order q -> add_revdep o d n q dep = Ok d' -> good order d'.
Proof.
  intros Hg Hq H. unfold add_revdep in H. inv_ok H. destruct v; [inv_ok H|]; eapply good_add; eauto.
Qed.
Lemma drop_revdep_good order o d n q dep d' : good order d -> okplace order q -> drop_revdep o d n q dep = Ok d' -> good order d'.
Proof.
  intros Hg Hq H. unfold drop_revdep in H. inv_ok H. destruct v; [inv_ok H; eapply good_add; eauto|]. injection H as <-. exact Hg.
Qed.

(** what the operations leave alone: the repository list *)
Lemma add_package_repo s p q s' : add_package s p q = Ok s' -> db_repo s' = db_repo s.
Proof. unfold add_package. intros H. inv_ok H. now injection H as <-. Qed.
Lemma remove_package_repo s n q s' : remove_package s n q = Ok s' -> db_repo s' = db_repo s.
Proof. unfold remove_package. intros H. inv_ok H. now injection H as <-. Qed.
Lemma add_spec_repo s p q s' : add_spec s p q = Ok s' -> db_repo s' = db_repo s.
Proof. unfold add_spec. intros H. inv_ok H. now injection H as <-. Qed.

Lemma add_package_ok order s p q s' : shelves_ok order s -> okplace order q -> add_package s p q = Ok s' -> shelves_ok order s'.
Proof.
  intros [] Hq H. unfold add_package in H. inv_ok H. injection H as <-. constructor; simpl; auto.
  - eapply good_add; eauto.
  - eapply (foldM_inv (good order)); [|exact ok_rev0|eassumption]. intros ? ? ? ? ? K; eapply add_revdep_good; [eassumption|exact Hq|exact K].
  - eapply comp_add_good; eauto.
Qed.
Lemma remove_package_ok order s n q s' : shelves_ok order s -> okplace order q -> remove_package s n q = Ok s' -> shelves_ok order s'.
Proof.
  intros [] Hq H. unfold remove_package in H. inv_ok H. injection H as <-.
  match goal with H : foldM _ _ _ = Ok ?x |- _ => assert (G : good order x) by
    (eapply (foldM_inv (good order)); [|exact ok_rev0|exact H]; intros ? ? ? ? ? K; eapply drop_revdep_good; [eassumption|exact Hq|exact K]) end.
  constructor; simpl; auto.
  - eapply good_remove; [exact ok_pkg0|apply Hq|eassumption].
  - destruct v3.
    + eapply good_remove; [exact G|apply Hq|eassumption].
    + match goal with H : Ok _ = Ok _ |- _ => injection H as <- end. exact G.
  - eapply comp_remove_good; eauto.
Qed.
Lemma add_spec_ok order s p q s' : shelves_ok order s -> okplace order q -> add_spec s p q = Ok s' -> shelves_ok order s'.
Proof.
  intros [] Hq H. unfold add_spec in H. inv_ok H. injection H as <-. constructor; simpl; auto.
  - eapply good_add; eauto.
  - eapply (foldM_inv (good order)); [|exact ok_p2s0|eassumption]. intros ? ? ? ? ? K. eapply good_add; [eassumption|exact Hq|exact K].
  - eapply comp_add_spec_good; eauto.
Qed.

(** removing everything recorded for a repository *)
Definition minus (order : list string) (q : rarg) : list string :=
  List.filter (fun r => negb (bool_decide (q = RName r))) order.
Definition same_but {A} (q : rarg) (d d' : shelf A) : Prop :=
  forall n q', place q' -> entry d' n q' = if bool_decide (q' = q) then None else entry d n q'.

Lemma pkg_remove_repo_ok order s q : shelves_ok order s -> place q -> exists s', pkg_remove_repo s q = Ok s' /\
  shelves_ok order s' /\ good (minus order q) (db_pkg s') /\ good (minus order q) (db_rev s') /\
  same_but q (db_pkg s) (db_pkg s') /\ same_but q (db_rev s) (db_rev s') /\
  db_repo s' = db_repo s /\ db_src s' = db_src s /\ db_p2s s' = db_p2s s /\ db_comp s' = db_comp s.
Proof.
  intros [] Hp. unfold pkg_remove_repo.
  destruct (good_remove_repo _ _ q ok_pkg0 Hp) as (d1 & -> & H1 & H2 & H3). simpl.
  destruct (good_remove_repo _ _ q ok_rev0 Hp) as (d2 & -> & H4 & H5 & H6). simpl.
  eexists. split; [reflexivity|]. split; [constructor; auto|]. auto 10.
Qed.
Lemma src_remove_repo_ok order s q : shelves_ok order s -> place q -> exists s', src_remove_repo s q = Ok s' /\
  shelves_ok order s' /\ good (minus order q) (db_src s') /\ good (minus order q) (db_p2s s') /\
  same_but q (db_src s) (db_src s') /\ same_but q (db_p2s s) (db_p2s s') /\
  db_repo s' = db_repo s /\ db_pkg s' = db_pkg s /\ db_rev s' = db_rev s /\ db_comp s' = db_comp s.
Proof.
  intros [] Hp. unfold src_remove_repo.
  destruct (good_remove_repo _ _ q ok_src0 Hp) as (d1 & -> & H1 & H2 & H3). simpl.
  destruct (good_remove_repo _ _ q ok_p2s0 Hp) as (d2 & -> & H4 & H5 & H6). simpl.
  eexists. split; [reflexivity|]. split; [constructor; auto|]. auto 10.
Qed.
Lemma comp_remove_repo_ok order s q : shelves_ok order s -> place q -> exists s', comp_remove_repo s q = Ok s' /\
  shelves_ok order s' /\ good (minus order q) (db_comp s') /\
  same_but q (db_comp s) (db_comp s') /\
  db_repo s' = db_repo s /\ db_pkg s' = db_pkg s /\ db_rev s' = db_rev s /\ db_src s' = db_src s /\ db_p2s s' = db_p2s s.
Proof.
  intros [] Hp. unfold comp_remove_repo.
  destruct (good_remove_repo _ _ q ok_comp0 Hp) as (d1 & -> & H1 & H2 & H3). simpl.
  eexists. split; [reflexivity|]. split; [constructor; auto|]. auto 10.
Qed.

Lemma shelves_ok_repo order s rd : shelves_ok order s -> shelves_ok order (set_repo s rd).
Proof. intros []. now constructor. Qed.

Lemma remove_repo_ok order s name rd : shelves_ok order s -> repo_remove (db_repo s) name = Ok rd ->
  exists s', remove_repo s name = Ok s' /\ db_repo s' = rd /\
    shelves_ok (minus order (RName name)) s' /\
    same_but (RName name) (db_pkg s) (db_pkg s') /\ same_but (RName name) (db_rev s) (db_rev s') /\
    same_but (RName name) (db_src s) (db_src s') /\ same_but (RName name) (db_p2s s) (db_p2s s') /\
    same_but (RName name) (db_comp s) (db_comp s').
Proof.
  intros Hs Hr. unfold remove_repo. rewrite Hr. simpl. pose proof (place_name name) as Hp.
  destruct (pkg_remove_repo_ok order (set_repo s rd) _ (shelves_ok_repo order s rd Hs) Hp) as (s1 & -> & A1 & A2 & A3 & A4 & A5 & A6 & A7 & A8 & A9). simpl.
  destruct (src_remove_repo_ok order s1 _ A1 Hp) as (s2 & -> & B1 & B2 & B3 & B4 & B5 & B6 & B7 & B8 & B9). simpl.
  destruct (comp_remove_repo_ok order s2 _ B1 Hp) as (s3 & -> & C1 & C2 & C3 & C4 & C5 & C6 & C7 & C8).
  exists s3. split; [reflexivity|]. simpl in *.
  split; [congruence|].
  rewrite C5, C6, C7, C8, B7, B8 in *. rewrite A7, A8 in *. rewrite A9 in B9. rewrite B9 in C3.
  split; [constructor; rewrite ?C5, ?C6, ?C7, ?C8, ?B7, ?B8, ?B9, ?A7, ?A8; auto|]. auto 10.
Qed.

Lemma update_db_ok order s ix repo s' : shelves_ok order s -> In repo order -> update_db s ix repo = Ok s' ->
  shelves_ok order s' /\ db_repo s' = db_repo s.
Proof.
  intros Hs Hin. pose proof (place_name repo) as Hp.
  assert (Hq : okplace order (RName repo)) by (split; [exact Hp|intros r [= <-]; exact Hin]).
  unfold update_db.
  destruct (comp_remove_repo_ok order s _ Hs Hp) as (s1 & -> & A1 & _ & _ & A2 & _). simpl. intros H. inv_ok H.
  assert (B : shelves_ok order v /\ db_repo v = db_repo s).
  { eapply (foldM_inv (fun s' => shelves_ok order s' /\ db_repo s' = db_repo s)); [|split; [exact A1|exact A2]|exact E].
    intros t c t' _ [[] Ht] H'. inv_ok H'. injection H' as <-. split; [constructor; simpl; auto|exact Ht].
    eapply update_component_good; eauto. }
  destruct B as [B1 B2].
  destruct (pkg_remove_repo_ok order v _ B1 Hp) as (s2 & E' & C1 & _ & _ & _ & _ & C2 & _).
  rewrite E' in E0. injection E0 as <-.
  assert (D : shelves_ok order v1 /\ db_repo v1 = db_repo s).
  { eapply (foldM_inv (fun s' => shelves_ok order s' /\ db_repo s' = db_repo s)); [|split; [exact C1|rewrite C2; exact B2]|exact E1].
    intros t c t' _ [Ht1 Ht2] H'. split; [eapply add_package_ok; eauto|]. rewrite (add_package_repo _ _ _ _ H'). exact Ht2. }
  destruct D as [D1 D2].
  destruct (src_remove_repo_ok order v1 _ D1 Hp) as (s3 & E3 & F1 & _ & _ & _ & _ & F2 & _).
  rewrite E3 in E2. injection E2 as <-.
  eapply (foldM_inv (fun s' => shelves_ok order s' /\ db_repo s' = db_repo s)); [|split; [exact F1|rewrite F2; exact D2]|exact H].
  intros t c t' _ [Ht1 Ht2] H'. split; [eapply add_spec_ok; eauto|]. rewrite (add_spec_repo _ _ _ _ H'). exact Ht2.
Qed.

Lemma has_repo_spec rd n : has_repo rd n = true <-> is_Some (rd_infos rd !! n).
Proof. unfold has_repo. destruct (_ !! _); split; intros H; eauto; try discriminate H. destruct H; discriminate. Qed.

Lemma str_in_iff x l : str_in x l = true <-> In x l.
Proof.
  induction l as [|y l IH]; simpl; [split; [discriminate|intros []]|].
  rewrite orb_true_iff, IH. destruct (String.eqb_spec x y); intuition congruence.
Qed.

Lemma remove_first_nodup x l : NoDup l -> remove_first x l = List.filter (fun y => negb (bool_decide (RName x = RName y))) l.
Proof.
  induction l as [|y l IH]; intros N; simpl; [reflexivity|]. inversion N as [|? ? N1 N2]; subst.
  destruct (String.eqb_spec x y) as [->|Hne].
  - rewrite bool_decide_true by reflexivity. simpl. symmetry. clear IH N N2.
    induction l as [|z l IH]; simpl; [reflexivity|]. rewrite bool_decide_false.
    + simpl. f_equal. apply IH. intros H. apply N1. now right.
    + intros [= ->]. apply N1. left.
  - rewrite bool_decide_false by congruence. simpl. f_equal. auto.
Qed.

Lemma repo_add_ok rd n u p rd' : repo_ok rd -> repo_add rd n u p = Ok rd' ->
  repo_ok rd' /\ forall r, In r (rd_order rd) -> In r (rd_order rd').
Proof.
  intros [Hn Hi]. unfold repo_add. destruct (has_repo rd n) eqn:E; [discriminate|].
  assert (Nin : ~ In n (rd_order rd)).
  { intros K. apply Hi in K. apply has_repo_spec in K. congruence. }
  assert (G : forall pre post, rd_order rd = pre ++ post -> repo_ok (mkRepoDB (<[n := u]> (rd_infos rd)) (pre ++ n :: post)) /\
            forall r, In r (rd_order rd) -> In r (pre ++ n :: post)).
  { intros pre post Eo. rewrite Eo in *. split.
    - split; simpl.
      + apply NoDup_app in Hn as (N1 & N2 & N3). apply NoDup_app. split; [exact N1|]. split.
        * intros y Hy Hy'. apply elem_of_cons in Hy' as [->|Hy']; [|now apply (N2 y)].
          apply Nin. apply in_or_app. left. now apply elem_of_list_In.
        * constructor; [|exact N3]. rewrite elem_of_list_In. intros K. apply Nin. apply in_or_app. auto.
      + intros m. rewrite in_app_iff. simpl. specialize (Hi m). rewrite in_app_iff in Hi. destruct (decide (m = n)) as [->|Hm].
        * rewrite lookup_insert. split; eauto.
        * rewrite lookup_insert_ne by congruence. rewrite Hi. intuition congruence.
    - intros r. rewrite !in_app_iff. simpl. tauto. }
  destruct p as [z|].
  - destruct ((z <? 0)%Z || _); [discriminate|]. intros [= <-]. simpl. apply G. symmetry. apply take_drop.
  - intros [= <-]. simpl. apply G. now rewrite app_nil_r.
Qed.

Lemma repo_remove_ok rd n : repo_ok rd -> In n (rd_order rd) -> exists rd', repo_remove rd n = Ok rd' /\
  repo_ok rd' /\ rd_order rd' = minus (rd_order rd) (RName n).
Proof.
  intros [Hn Hi] Hin. unfold repo_remove. destruct (proj2 (Hi n) Hin) as [u Hu]. rewrite Hu.
  assert (str_in n (rd_order rd) = true) as -> by now apply str_in_iff.
  eexists. split; [reflexivity|]. simpl. rewrite remove_first_nodup by exact Hn. split; [|reflexivity].
  split; simpl.
  - clear Hi Hin Hu. induction (rd_order rd) as [|y l IH]; simpl; [constructor|]. inversion Hn; subst.
    destruct (negb _); [|auto]. constructor; [|auto]. rewrite elem_of_list_In, filter_In, <- elem_of_list_In. tauto.
  - intros m. rewrite filter_In. destruct (decide (m = n)) as [->|Hm].
    + rewrite lookup_delete, bool_decide_true by reflexivity. simpl. split; [intros []; discriminate|intros [_ K]; discriminate K].
    + rewrite lookup_delete_ne by congruence. rewrite Hi. rewrite bool_decide_false by congruence. simpl. tauto.
Qed.

Lemma apply_op_inv s o s' : inv s -> apply_op s o = Ok s' -> inv s'.
Proof.
  intros [Hr Hs]. destruct o as [n u p|n|n ix|p|p|n]; simpl.
  - unfold op_add_repo. destruct (has_repo _ n); [discriminate|]. unfold add_repo. intros H. inv_ok H. injection H as <-.
    destruct (repo_add_ok _ _ _ _ _ Hr E) as [R1 R2]. split; [exact R1|].
    destruct Hs. constructor; eapply good_mono; eauto.
  - unfold op_remove_repo. destruct (has_repo _ n) eqn:E; [|intros [= <-]; split; assumption].
    apply has_repo_spec in E. destruct Hr as [Hr1 Hr2]. apply Hr2 in E.
    destruct (repo_remove_ok _ n (conj Hr1 Hr2) E) as (rd & E' & R1 & R2).
    destruct (remove_repo_ok _ s n rd Hs E') as (s1 & -> & Q1 & Q2 & _). intros [= <-].
    split; [rewrite Q1; exact R1|]. unfold order_of in *. rewrite Q1, R2. exact Q2.
  - unfold op_update_repo. destruct (has_repo _ n) eqn:E; [|discriminate]. intros H.
    apply has_repo_spec in E. apply (proj2 Hr) in E.
    destruct (update_db_ok (order_of s) s ix n s' Hs E H) as [U1 U2]. split; [rewrite U2; exact Hr|].
    unfold order_of in *. rewrite U2. exact U1.
  - intros H. pose proof (add_package_repo _ _ _ _ H) as E. split; [rewrite E; exact Hr|]. unfold order_of in *. rewrite E.
    eapply add_package_ok; [exact Hs| |exact H]. split; [apply place_inst|discriminate].
  - intros H. pose proof (add_package_repo _ _ _ _ H) as E. split; [rewrite E; exact Hr|]. unfold order_of in *. rewrite E.
    eapply add_package_ok; [exact Hs| |exact H]. split; [apply place_third|discriminate].
  - unfold remove_tracking_package. intros H. inv_ok H.
    assert (G : forall t q t', okplace (order_of t) q -> inv t -> remove_package t n q = Ok t' -> inv t').
    { intros t q t' Hq [T1 T2] K. pose proof (remove_package_repo _ _ _ _ K) as Er. split; [rewrite Er; exact T1|].
      unfold order_of in *. rewrite Er. eapply remove_package_ok; eauto. }
    assert (I : inv v0).
    { destruct v; [eapply (G s RInst); eauto; [split; [apply place_inst|discriminate]|split; assumption]|].
      injection E0 as <-. split; assumption. }
    destruct v1; [eapply (G v0 RThird); eauto; split; [apply place_third|discriminate]|]. injection H as <-. exact I.
Qed.

Lemma inv_empty : inv empty_dbs.
Proof.
  split; [split; [constructor|]|constructor; apply good_empty]. intros n. simpl. rewrite lookup_empty.
  split; [intros []; discriminate|intros []].
Qed.
Lemma history_inv P s : history_where P s -> inv s.
Proof. induction 1; eauto using inv_empty, apply_op_inv. Qed.
Lemma reachable_inv s : reachable s -> inv s.
Proof. apply history_inv. Qed.

(** ** C23 *)
Lemma good_agree {A} order (d : shelf A) n r : good order d -> agree (has_key d n r) (get_item order d n r).
Proof. intros Hg. apply has_get; [apply Hg|now apply good_listed]. Qed.
Lemma system_agree s n r : reachable s ->
  agree (has_package s n r) (get_package s n r) /\
  agree (has_key (db_src s) n r) (get_item (order_of s) (db_src s) n r) /\
  agree (has_key (db_p2s s) n r) (get_item (order_of s) (db_p2s s) n r) /\
  agree (has_component (db_comp s) n r) (get_component (order_of s) (db_comp s) n r) /\
  agree (has_key (db_rev s) n r) (get_item (order_of s) (db_rev s) n r).
Proof. intros H. destruct (reachable_inv s H) as [_ []]. repeat split; try apply good_agree; auto. Qed.

(** ** C25 *)
Lemma same_but_get {A} order order' q (d d' : shelf A) : place q -> same_but q d d' ->
  (forall n, missing (get_item order' d' n q)) /\
  (forall n q', place q' -> q' <> q -> get_item order' d' n q' = get_item order d n q').
Proof.
  intros Hp S. split.
  - intros n. apply entry_missing; [exact Hp|]. rewrite S by exact Hp. now rewrite bool_decide_true.
  - intros n q' Hq' Hne. rewrite !get_item_place by exact Hq'. rewrite S by exact Hq'. now rewrite bool_decide_false.
Qed.

Lemma system_remove_repo s name : reachable s -> In name (order_of s) ->
  exists s', op_remove_repo s name = Ok s' /\
    order_of s' = List.filter (fun r => negb (String.eqb r name)) (order_of s) /\
    gone_only s s' name db_pkg /\ gone_only s s' name db_rev /\ gone_only s s' name db_src /\
    gone_only s s' name db_p2s /\ gone_only s s' name db_comp.
Proof.
  intros H Hin. destruct (reachable_inv s H) as [Hr Hs]. unfold op_remove_repo.
  assert (has_repo (db_repo s) name = true) as -> by (apply has_repo_spec, (proj2 Hr), Hin).
  destruct (repo_remove_ok _ name Hr Hin) as (rd & E' & R1 & R2).
  destruct (remove_repo_ok _ s name rd Hs E') as (s1 & -> & Q1 & Q2 & S1 & S2 & S3 & S4 & S5).
  exists s1. split; [reflexivity|]. split.
  - unfold order_of. rewrite Q1, R2. unfold minus. apply filter_ext. intros r. f_equal.
    destruct (String.eqb_spec r name) as [->|Hne]; [now apply bool_decide_true|]. apply bool_decide_false. congruence.
  - pose proof (place_name name) as Hp.
    split; [|split; [|split; [|split]]]; unfold gone_only; apply same_but_get; assumption.
Qed.
Lemma system_remove_unknown s name : reachable s -> ~ In name (order_of s) -> op_remove_repo s name = Ok s.
Proof.
  intros H Hin. destruct (reachable_inv s H) as [Hr _]. unfold op_remove_repo.
  destruct (has_repo (db_repo s) name) eqn:E; [|reflexivity]. apply has_repo_spec in E. apply (proj2 Hr) in E. contradiction.
Qed.
(** so no lookup in the repositories finds anything that came from it *)
Lemma lookup_from_listed {A} (s : dbs) (d : shelf A) n x q :
  get_item_repo (order_of s) d n RRepos = Ok (x, q) -> exists r, q = RName r /\ In r (order_of s).
Proof.
  intros H. apply first_repository in H as (pre & r & post & E & -> & _). exists r. split; [reflexivity|].
  rewrite E. apply in_or_app. right. now left.
Qed.

(** ** C26 *)
Lemma op_add_repo_possible s n uri position : reachable s ->
  ((exists s', op_add_repo s n uri position = Ok s') <->
   ~ In n (order_of s) /\ match position with None => True | Some z => (0 <= z <= Z.of_nat (length (order_of s)))%Z end).
Proof.
  intros H. apply reachable_inv in H as [[_ R] _]. unfold op_add_repo, add_repo, repo_add, order_of. assert (Rn : In n (rd_order (db_repo s)) <-> has_repo (db_repo s) n = true) by (rewrite has_repo_spec; symmetry; apply R); rewrite Rn; clear Rn R.
  destruct (has_repo (db_repo s) n).
  - split; [intros [? [=]]|intros [K _]; congruence].
  - destruct position as [z|]; cbn [bind].
    + destruct (Z.ltb_spec z 0) as [L|L]; cbn [orb].
      * split; [intros [? [=]]|intros [_ K]; lia].
      * destruct (Z.ltb_spec (Z.of_nat (length (rd_order (db_repo s)))) z) as [L'|L']; cbn [bind].
        -- split; [intros [? [=]]|intros [_ K]; lia].
        -- split; [intros _; split; [congruence|lia]|eauto].
    + split; [intros _; split; [congruence|exact I]|eauto].
Qed.
Lemma op_add_repo_result s n uri position s' : reachable s -> op_add_repo s n uri position = Ok s' ->
  rd_infos (db_repo s') = <[n := uri]> (rd_infos (db_repo s)) /\ s' = set_repo s (db_repo s') /\
  match position with
  | None => order_of s' = (order_of s ++ [n])%list
  | Some z => exists pre post, order_of s = (pre ++ post)%list /\ z = Z.of_nat (length pre) /\ order_of s' = (pre ++ n :: post)%list
  end.
Proof.
  intros _. unfold op_add_repo, add_repo, repo_add, order_of. destruct (has_repo (db_repo s) n); [discriminate|].
  destruct position as [z|]; cbn [bind].
  - destruct (Z.ltb_spec z 0) as [L|L]; cbn [orb bind]; [discriminate|].
    destruct (Z.ltb_spec (Z.of_nat (length (rd_order (db_repo s)))) z) as [L'|L']; cbn [bind]; [discriminate|]. intros [= <-].
    split; [reflexivity|]. split; [reflexivity|]. exists (take (Z.to_nat z) (rd_order (db_repo s))), (drop (Z.to_nat z) (rd_order (db_repo s))).
    split; [symmetry; apply take_drop|]. split; [rewrite take_length; lia|reflexivity].
  - intros [= <-]. split; [reflexivity|]. split; reflexivity.
Qed.
