(** * The reverse-dependency index (C30) *)
From Coq Require Import String List ZArith.
From stdpp Require Import gmap strings.
From Verif Require Import Model.Py Model.ItemByRepo Model.Dependency Model.Package Model.ComponentDB Model.Search Model.Databases
  Spec.ItemByRepoSpec Spec.DatabaseSpec Proof.ItemByRepoFacts Proof.ItemByRepoMain Proof.DatabaseFacts.
Open Scope string_scope.
Open Scope list_scope.

Notation revshelf := (shelf (list (string * dependency))).
Definition revof (d : revshelf) (x : string) (q : rarg) : list (string * dependency) := default [] (entry d x q).

Lemma get_rev_deps_place s x q : place q -> get_rev_deps s x q = Ok (revof (db_rev s) x q).
Proof.
  intros Hp. unfold get_rev_deps, revof. rewrite has_key_place, get_item_place by exact Hp. simpl.
  destruct (entry (db_rev s) x q); reflexivity.
Qed.
Lemma get_package_place s n q pk : place q -> (get_package s n q = Ok pk <-> entry (db_pkg s) n q = Some pk).
Proof. intros Hp. now apply entry_get. Qed.

Lemma add_item_entry {A} (d : shelf A) n x q : place q ->
  exists d', add_item d n x q = Ok d' /\
    forall n' q', place q' -> entry d' n' q' = if bool_decide (n = n' /\ q = q') then Some x else entry d n' q'.
Proof.
  intros Hp. rewrite add_item_ok by exact Hp. eexists. split; [reflexivity|].
  intros n' q' Hq'. apply entry_add; assumption.
Qed.

Lemma drop_name_in name l p d : In (p, d) (drop_name name l) <-> In (p, d) l /\ p <> name.
Proof. unfold drop_name. rewrite filter_In. simpl. destruct (String.eqb_spec p name); simpl; intuition congruence. Qed.

Lemma add_revdep_entry o dr name q dep : place q ->
  exists d', add_revdep o dr name q dep = Ok d' /\
    (forall x q', place q' -> revof d' x q' =
      if bool_decide (dep_package dep = x /\ q = q') then drop_name name (revof dr x q') ++ [(name, dep)] else revof dr x q').
Proof.
  intros Hp. unfold add_revdep. rewrite has_key_place, get_item_place by exact Hp. simpl.
  assert (E : exists l, (if bool_decide (is_Some (entry dr (dep_package dep) q))
            then revdep <- (match entry dr (dep_package dep) q with Some x => Ok x | None => Err EError end) ;; add_item dr (dep_package dep) (drop_name name revdep ++ [(name, dep)]) q
            else add_item dr (dep_package dep) [(name, dep)] q) = add_item dr (dep_package dep) l q /\
          l = drop_name name (revof dr (dep_package dep) q) ++ [(name, dep)]).
  { unfold revof. destruct (entry dr (dep_package dep) q) as [l|]; simpl; eauto. }
  destruct E as (l & -> & El). destruct (add_item_entry dr (dep_package dep) l q Hp) as (d' & Ed & S).
  exists d'. split; [exact Ed|]. intros x q' Hq'. unfold revof at 1. rewrite S by exact Hq'.
  destruct (bool_decide (dep_package dep = x /\ q = q')) eqn:B; [|reflexivity].
  apply bool_decide_eq_true in B as [<- <-]. simpl. exact El.
Qed.

Lemma add_revdeps_entry o name q deps : place q -> NoDup (map dep_package deps) -> forall dr,
  exists d', foldM (fun dr dep => add_revdep o dr name q dep) deps dr = Ok d' /\
    forall x q', place q' -> 
      (q' <> q \/ ~ In x (map dep_package deps) -> revof d' x q' = revof dr x q') /\
      (forall dep, In dep deps -> dep_package dep = x -> revof d' x q = drop_name name (revof dr x q) ++ [(name, dep)]).
Proof.
  intros Hp. induction deps as [|dep deps IH]; intros Hn dr; simpl.
  - exists dr. split; [reflexivity|]. intros x q' _. split; [reflexivity|]. intros dep [].
  - inversion Hn as [|? ? N1 N2]; subst. destruct (add_revdep_entry o dr name q dep Hp) as (d1 & -> & S1). simpl.
    destruct (IH N2 d1) as (d2 & E2 & S2). exists d2. split; [exact E2|]. intros x q' Hq'. destruct (S2 x q' Hq') as [A1 A2]. split.
    + intros H. rewrite A1 by tauto; rewrite S1 by exact Hq'. rewrite bool_decide_false; [reflexivity|]. intros [K1 K2]; subst x q'; tauto.
    + intros dep' [<-|Hin] Hx.
      * destruct (S2 x q Hp) as [B1 _]. subst x. rewrite B1 by (right; rewrite <- elem_of_list_In; exact N1).
        rewrite S1 by exact Hp. now rewrite bool_decide_true.
      * rewrite (A2 dep' Hin Hx). rewrite S1 by exact Hp. rewrite bool_decide_false; [reflexivity|].
        intros [K _]. subst x. apply N1. rewrite K, elem_of_list_In. now apply in_map.
Qed.

Lemma drop_revdep_entry o dr name q dep : place q ->
  exists d', drop_revdep o dr name q dep = Ok d' /\
    (forall x q', place q' -> revof d' x q' =
      if bool_decide (dep_package dep = x /\ q = q') then drop_name name (revof dr x q') else revof dr x q').
Proof.
  intros Hp. unfold drop_revdep. rewrite has_key_place, get_item_place by exact Hp. simpl.
  destruct (entry dr (dep_package dep) q) as [l|] eqn:El; simpl.
  - destruct (add_item_entry dr (dep_package dep) (drop_name name l) q Hp) as (d' & Ed & S).
    exists d'. split; [exact Ed|]. intros x q' Hq'. unfold revof at 1. rewrite S by exact Hq'.
    destruct (bool_decide (dep_package dep = x /\ q = q')) eqn:B; [|reflexivity].
    apply bool_decide_eq_true in B as [<- <-]. simpl. unfold revof. now rewrite El.
  - exists dr. split; [reflexivity|]. intros x q' Hq'.
    destruct (bool_decide (dep_package dep = x /\ q = q')) eqn:B; [|reflexivity].
    apply bool_decide_eq_true in B as [<- <-]. unfold revof. rewrite El. reflexivity.
Qed.
Lemma drop_name_idem name l : drop_name name (drop_name name l) = drop_name name l.
Proof.
  unfold drop_name. induction l as [|[p d] l IH]; simpl; [reflexivity|].
  destruct (negb (p =? name)%string) eqn:E; simpl; [rewrite E; now f_equal|exact IH].
Qed.
Lemma drop_revdeps_entry o name q deps : place q -> forall dr,
  exists d', foldM (fun dr dep => drop_revdep o dr name q dep) deps dr = Ok d' /\
    forall x q', place q' -> 
      (q' <> q \/ ~ In x (map dep_package deps) -> revof d' x q' = revof dr x q') /\
      (In x (map dep_package deps) -> revof d' x q = drop_name name (revof dr x q)).
Proof.
  intros Hp. induction deps as [|dep deps IH]; intros dr; simpl.
  - exists dr. split; [reflexivity|]. intros x q' _. split; [reflexivity|]. intros [].
  - destruct (drop_revdep_entry o dr name q dep Hp) as (d1 & -> & S1). simpl.
    destruct (IH d1) as (d2 & E2 & S2). exists d2. split; [exact E2|]. intros x q' Hq'. destruct (S2 x q' Hq') as [A1 A2]. split.
    + intros H. rewrite A1 by tauto. rewrite S1 by exact Hq'. rewrite bool_decide_false; [reflexivity|]. intros [K1 K2]; subst x q'; tauto.
    + intros H. destruct (in_dec String.string_dec x (map dep_package deps)) as [Hin|Hin].
      * rewrite (A2 Hin), S1 by exact Hp. destruct (bool_decide _); [apply drop_name_idem|reflexivity].
      * destruct H as [<-|H]; [|contradiction]. destruct (S2 (dep_package dep) q Hp) as [B1 _]. rewrite B1 by (right; exact Hin).
        rewrite S1 by exact Hp. now rewrite bool_decide_true.
Qed.

(** ** The invariant *)
Definition revinv (s : dbs) : Prop :=
  (forall n q pk, place q -> entry (db_pkg s) n q = Some pk -> p_name pk = n) /\
  forall x q p d, place q ->
    (In (p, d) (revof (db_rev s) x q) <-> exists pk, entry (db_pkg s) p q = Some pk /\ In d (p_deps pk) /\ dep_package d = x).

Lemma revinv_exact s : revinv s -> revdeps_exact s.
Proof.
  intros [_ H] x q l Hp Hl p d. rewrite get_rev_deps_place in Hl by exact Hp. injection Hl as <-.
  rewrite H by exact Hp. unfold recorded. setoid_rewrite get_package_place; [reflexivity|exact Hp].
Qed.

Lemma add_package_revinv s p q s' : place q -> revinv s -> entry (db_pkg s) (p_name p) q = None ->
  one_dep_per_target p -> add_package s p q = Ok s' -> revinv s'.
Proof.
  intros Hp [I1 I2] Hno H1 H. unfold add_package in H. inv_ok H. injection H as <-. simpl in *.
  destruct (add_item_entry (db_pkg s) (p_name p) p q Hp) as (d' & Ed & S). rewrite Ed in E. injection E as <-.
  unfold runtimeDependencies in E0. destruct (p_compdeps p); [|discriminate E0]. injection E0 as <-.
  destruct (add_revdeps_entry (order_of s) (p_name p) q (p_deps p) Hp H1 (db_rev s)) as (d2 & E2' & S2).
  rewrite E2' in E1. injection E1 as <-.
  split; simpl.
  - intros n q' pk Hq'. rewrite S by exact Hq'. destruct (bool_decide _) eqn:B; [|apply I1; exact Hq'].
    apply bool_decide_eq_true in B as [<- _]. now intros [= <-].
  - intros x q' pp d Hq'. rewrite S by exact Hq'. destruct (S2 x q' Hq') as [A1 A2].
    destruct (decide (q' = q)) as [->|Hqq].
    2: { rewrite A1 by now left. rewrite bool_decide_false by (intros [_ K]; congruence). now apply I2. }
    destruct (in_dec String.string_dec x (map dep_package (p_deps p))) as [Hin|Hin].
    + apply in_map_iff in Hin as (dep & <- & Hdep). rewrite (A2 dep Hdep eq_refl). rewrite in_app_iff, drop_name_in, I2 by exact Hp.
      destruct (bool_decide (p_name p = pp /\ q = q)) eqn:B.
      * apply bool_decide_eq_true in B as [<- _]. split.
        -- intros [[_ K]|[[= <-]|[]]]; [congruence|]. eauto.
        -- intros (pk & [= <-] & Hd & Ex). right. left. f_equal. 
           clear -H1 Hd Hdep Ex. unfold one_dep_per_target in H1. induction (p_deps p) as [|y l IH]; [destruct Hd|].
           inversion H1 as [|? ? N1 N2]; subst. rewrite elem_of_list_In in N1. destruct Hd as [->|Hd], Hdep as [->|Hdep]; auto.
           ++ exfalso. apply N1. rewrite Ex. now apply in_map.
           ++ exfalso. apply N1. rewrite <- Ex. now apply in_map.
      * apply bool_decide_eq_false in B. split.
        -- intros [[K _]|[[= K _]|[]]]; [exact K|]. exfalso. apply B. auto.
        -- intros K. left. split; [exact K|]. intros ->. apply B. auto.
    + rewrite A1 by now right. rewrite I2 by exact Hp. destruct (bool_decide (p_name p = pp /\ q = q)) eqn:B; [|reflexivity].
      apply bool_decide_eq_true in B as [<- _]. split.
      * intros (pk & K & _). rewrite Hno in K. discriminate K.
      * intros (pk & [= <-] & Hd & Ex). exfalso. apply Hin. rewrite <- Ex. now apply in_map.
Qed.

Lemma remove_item_entry {A} o (d : shelf A) n q d' : place q -> remove_item o d n q = Ok d' ->
  forall n' q', place q' -> entry d' n' q' = if bool_decide (n = n' /\ q = q') then None else entry d n' q'.
Proof.
  intros Hp H n' q' Hq'. unfold remove_item in H. rewrite (proj2 (place_wildcard q) Hp) in H. eapply entry_remove; eauto.
Qed.

Lemma remove_package_revinv s n q s' : place q -> revinv s ->
  (forall p pk d, entry (db_pkg s) p q = Some pk -> In d (p_deps pk) -> dep_package d = n -> p = n) ->
  remove_package s n q = Ok s' -> revinv s'.
Proof.
  intros Hp [I1 I2] Hun H. unfold remove_package in H. inv_ok H. injection H as <-. simpl in *.
  rename v into pk. apply entry_get in E; [|exact Hp].
  pose proof (remove_item_entry _ _ _ _ _ Hp E0) as S.
  unfold runtimeDependencies in E1. destruct (p_compdeps pk); [|discriminate E1]. injection E1 as <-.
  destruct (drop_revdeps_entry (order_of s) n q (p_deps pk) Hp (db_rev s)) as (d2 & E2' & S2).
  rewrite E2' in E2. injection E2 as <-.
  assert (S3 : forall x q', place q' -> revof v4 x q' = if bool_decide (n = x /\ q = q') then [] else revof d2 x q').
  { intros x q' Hq'. rewrite has_key_place in E3 by exact Hp. injection E3 as <-.
    destruct (bool_decide (is_Some (entry d2 n q))) eqn:B.
    - unfold revof. rewrite (remove_item_entry _ _ _ _ _ Hp E4) by exact Hq'. destruct (bool_decide (n = x /\ q = q')); reflexivity.
    - injection E4 as <-. destruct (bool_decide (n = x /\ q = q')) eqn:B'; [|reflexivity].
      apply bool_decide_eq_true in B' as [<- <-]. apply bool_decide_eq_false in B. unfold revof.
      destruct (entry d2 n q); [exfalso; eauto|reflexivity]. }
  split; simpl.
  - intros m q' pk' Hq'. rewrite S by exact Hq'. destruct (bool_decide _); [discriminate|]. apply I1; exact Hq'.
  - intros x q' pp d Hq'. rewrite S, S3 by exact Hq'. destruct (S2 x q' Hq') as [A1 A2].
    destruct (decide (q' = q)) as [->|Hqq].
    2: { rewrite !bool_decide_false by (intros [_ K]; congruence). rewrite A1 by now left. now apply I2. }
    destruct (bool_decide (n = x /\ q = q)) eqn:B.
    + apply bool_decide_eq_true in B as [<- _]. split; [intros []|]. intros (pk' & K & Hd & Ex).
      destruct (bool_decide (n = pp /\ q = q)) eqn:B2; [discriminate K|]. apply bool_decide_eq_false in B2.
      exfalso. apply B2. split; [|reflexivity]. symmetry. eapply Hun; eauto.
    + assert (X : In (pp, d) (revof d2 x q) <-> In (pp, d) (revof (db_rev s) x q) /\ pp <> n).
      { destruct (in_dec String.string_dec x (map dep_package (p_deps pk))) as [Hin|Hin].
        - rewrite (A2 Hin). apply drop_name_in.
        - rewrite A1 by now right. split; [|tauto]. intros K. split; [exact K|]. intros ->.
          apply I2 in K; [|exact Hp]. destruct K as (pk' & K & Hd & Ex). assert (pk' = pk) as -> by congruence.
          apply Hin. rewrite <- Ex. now apply in_map. }
      rewrite X, I2 by exact Hp. destruct (bool_decide (n = pp /\ q = q)) eqn:B2.
      * apply bool_decide_eq_true in B2 as [<- _]. split; [tauto|]. intros (pk' & K & _). discriminate K.
      * apply bool_decide_eq_false in B2. split; [tauto|]. intros K. split; [exact K|]. intros ->. apply B2. auto.
Qed.

(** changing other databases does not matter *)
Lemma revinv_ext s s' : db_pkg s' = db_pkg s -> db_rev s' = db_rev s -> revinv s -> revinv s'.
Proof. intros E1 E2 [H1 H2]. split; [rewrite E1; exact H1|]. rewrite E1, E2. exact H2. Qed.

Lemma revinv_remove_repo s s' q : place q -> same_but q (db_pkg s) (db_pkg s') -> same_but q (db_rev s) (db_rev s') ->
  revinv s -> revinv s' /\ forall n, entry (db_pkg s') n q = None.
Proof.
  intros Hp S1 S2 [I1 I2]. split; [split|].
  - intros n q' pk Hq'. rewrite S1 by exact Hq'. destruct (bool_decide _); [discriminate|]. apply I1; exact Hq'.
  - intros x q' p d Hq'. unfold revof. rewrite S1, S2 by exact Hq'. destruct (bool_decide (q' = q)).
    + simpl. split; [intros []|]. intros (pk & K & _). discriminate K.
    + now apply I2.
  - intros n. rewrite S1 by exact Hp. now rewrite bool_decide_true.
Qed.

Lemma add_package_entries s p q s' : place q -> add_package s p q = Ok s' ->
  forall n q', place q' -> entry (db_pkg s') n q' = if bool_decide (p_name p = n /\ q = q') then Some p else entry (db_pkg s) n q'.
Proof.
  intros Hp H. unfold add_package in H. inv_ok H. injection H as <-. simpl.
  destruct (add_item_entry (db_pkg s) (p_name p) p q Hp) as (d' & Ed & S). rewrite Ed in E. injection E as <-. exact S.
Qed.

Lemma add_packages_revinv q ps : place q -> NoDup (map p_name ps) -> Forall one_dep_per_target ps -> forall s s',
  revinv s -> (forall p, In p ps -> entry (db_pkg s) (p_name p) q = None) ->
  foldM (fun s p => add_package s p q) ps s = Ok s' -> revinv s'.
Proof.
  intros Hp. induction ps as [|p ps IH]; intros Hn Ho s s' I Hno; simpl; [now intros [= <-]|].
  rewrite bind_ok. intros (s1 & E & E'). inversion Hn as [|? ? N1 N2]; inversion Ho as [|? ? O1 O2]; subst.
  apply (IH N2 O2 s1 s'); [|intros p' Hp'|exact E'].
  - eapply add_package_revinv; eauto. apply Hno. now left.
  - rewrite (add_package_entries _ _ _ _ Hp E) by exact Hp. rewrite bool_decide_false; [apply Hno; now right|].
    intros [K _]. apply N1. rewrite K, elem_of_list_In. now apply in_map.
Qed.

Lemma foldM_same {A S T} (g : S -> T) (f : S -> A -> res S) l s s' :
  (forall s x s', f s x = Ok s' -> g s' = g s) -> foldM f l s = Ok s' -> g s' = g s.
Proof.
  intros H E. eapply (foldM_inv (fun t => g t = g s)); [|reflexivity|exact E]. intros t x t' _ K F. rewrite (H _ _ _ F). exact K.
Qed.

Lemma apply_op_revinv s o s' : inv s -> revdep_careful s o -> revinv s -> apply_op s o = Ok s' -> revinv s'.
Proof.
  intros HI C I. pose proof (place_inst) as Pi. pose proof place_third as Pt.
  destruct o as [n u p|n|n ix|p|p|n]; simpl.
  - unfold op_add_repo. destruct (has_repo _ n); [discriminate|]. unfold add_repo. intros H. inv_ok H. injection H as <-.
    eapply revinv_ext; [| |exact I]; reflexivity.
  - unfold op_remove_repo. destruct (has_repo _ n) eqn:E; [|intros [= <-]; exact I].
    intros H. destruct HI as [Hr Hs]. apply has_repo_spec in E. apply (proj2 Hr) in E.
    destruct (repo_remove_ok _ n Hr E) as (rd & E' & R1 & R2).
    destruct (remove_repo_ok _ s n rd Hs E') as (s1 & K & Q1 & Q2 & S1 & S2 & _). rewrite K in H. injection H as <-.
    eapply revinv_remove_repo; [apply place_name|exact S1|exact S2|exact I].
  - unfold op_update_repo. destruct (has_repo _ n) eqn:E; [|discriminate]. intros H.
    destruct HI as [Hr Hs]. apply has_repo_spec in E. apply (proj2 Hr) in E. pose proof (place_name n) as Hp.
    destruct C as [C1 C2]. unfold update_db in H.
    destruct (comp_remove_repo_ok _ s _ Hs Hp) as (s1 & K1 & A1 & _ & _ & A2 & A3 & A4 & _). rewrite K1 in H. simpl in H. inv_ok H.
    assert (B1 : revinv v).
    { eapply revinv_ext; [| |exact I].
      - rewrite <- A3. eapply (foldM_same db_pkg); [|exact E0]. intros t c t' K. simpl in K. inv_ok K. now injection K as <-.
      - rewrite <- A4. eapply (foldM_same db_rev); [|exact E0]. intros t c t' K. simpl in K. inv_ok K. now injection K as <-. }
    assert (B2 : shelves_ok (order_of s) v).
    { eapply (foldM_inv (shelves_ok (order_of s))); [|exact A1|exact E0].
      intros t c t' _ [] H'. inv_ok H'. injection H' as <-. constructor; simpl; auto.
      eapply update_component_good; eauto. split; [exact Hp|intros r [= <-]; exact E]. }
    destruct (pkg_remove_repo_ok _ v _ B2 Hp) as (s2 & E' & _ & _ & _ & S1 & S2 & _). rewrite E' in E1. injection E1 as <-.
    destruct (revinv_remove_repo _ _ _ Hp S1 S2 B1) as [D1 D2].
    assert (F : revinv v1) by (eapply (add_packages_revinv (RName n) (ix_packages ix) Hp C1 C2 s2 v1 D1); [intros; apply D2|exact E2]).
    assert (G1 : db_pkg s' = db_pkg v1 /\ db_rev s' = db_rev v1).
    { split.
      - transitivity (db_pkg v2).
        + eapply (foldM_same db_pkg); [|exact H]. intros t c t' K. unfold add_spec in K. inv_ok K. now injection K as <-.
        + unfold src_remove_repo in E3. inv_ok E3. now injection E3 as <-.
      - transitivity (db_rev v2).
        + eapply (foldM_same db_rev); [|exact H]. intros t c t' K. unfold add_spec in K. inv_ok K. now injection K as <-.
        + unfold src_remove_repo in E3. inv_ok E3. now injection E3 as <-. }
    destruct G1 as [G1 G2]. eapply revinv_ext; [exact G1|exact G2|exact F].
  - intros H. destruct C as [C1 C2]. eapply (add_package_revinv s p RInst s'); eauto. apply (entry_missing (order_of s)); [assumption|exact C1].
  - intros H. destruct C as [C1 C2]. eapply (add_package_revinv s p RThird s'); eauto. apply (entry_missing (order_of s)); [assumption|exact C1].
  - unfold remove_tracking_package. intros H. inv_ok H. destruct C as [C1 C2].
    assert (U : forall q, place q -> unneeded s n q ->
       forall p pk d, entry (db_pkg s) p q = Some pk -> In d (p_deps pk) -> dep_package d = n -> p = n).
    { intros q Hq Hu p pk d K. apply (Hu p pk d). now apply get_package_place. }
    assert (R : forall t t', remove_package t n RInst = Ok t' -> forall m, entry (db_pkg t') m RThird = entry (db_pkg t) m RThird).
    { intros t t' K m. unfold remove_package in K. inv_ok K. injection K as <-. simpl.
      rewrite (remove_item_entry _ _ _ _ _ Pi E3) by exact Pt. now rewrite bool_decide_false by (intros [_ K]; discriminate K). }
    assert (I0 : revinv v0 /\ forall m, entry (db_pkg v0) m RThird = entry (db_pkg s) m RThird).
    { destruct v.
      - split; [|intros m; exact (R _ _ E0 m)]. eapply (remove_package_revinv s n RInst); eauto.
      - injection E0 as <-. auto. }
    destruct I0 as [I0 I1]. destruct v1; [|injection H as <-; exact I0].
    eapply (remove_package_revinv v0 n RThird); eauto. intros p pk d K. rewrite I1 in K. eapply (U RThird); eauto.
Qed.

Lemma revinv_empty : revinv empty_dbs.
Proof.
  split.
  - intros n q pk _ H. discriminate H.
  - intros x q p d _. simpl. split; [intros []|]. intros (pk & H & _). discriminate H.
Qed.
Lemma history_revinv s : history_where revdep_careful s -> revinv s.
Proof.
  induction 1 as [|s o s' H IH C E]; [apply revinv_empty|]. eapply apply_op_revinv; eauto. eapply history_inv; eauto.
Qed.
Lemma revdeps_exact_careful s : history_where revdep_careful s -> revdeps_exact s.
Proof. intros H. now apply revinv_exact, history_revinv. Qed.

(** ** What goes wrong without care *)
Definition dep_on (x : string) : dependency := mkDep x None None None None None None.
Definition pkg (name : string) (deps : list dependency) : package :=
  mkPackage name "1" "1" None deps [] [] (Some "system.base") [] [] [] false "".
Definition run_ops (l : list dbop) : dbs :=
  fold_left (fun s o => match apply_op s o with Ok s' => s' | Err _ => s end) l empty_dbs.
Lemma run_ops_reachable l : reachable (run_ops l).
Proof.
  unfold run_ops. assert (G : forall s, reachable s -> reachable (fold_left (fun s o => match apply_op s o with Ok s' => s' | Err _ => s end) l s)).
  { induction l as [|o l IH]; intros s H; simpl; [exact H|]. apply IH. destruct (apply_op s o) eqn:E; [|exact H]. econstructor; eauto. }
  apply G. constructor.
Qed.

(** glibc and bash (which needs it) installed, glibc upgraded: bash's dependency is no longer found. *)
Definition upgraded : dbs := run_ops [OInstalled (pkg "glibc" []); OInstalled (pkg "bash" [dep_on "glibc"]); OForget "glibc"; OInstalled (pkg "glibc" [])].
Lemma upgrade_loses_revdeps : reachable upgraded /\ ~ revdeps_exact upgraded.
Proof.
  split; [apply run_ops_reachable|]. intros H.
  specialize (H "glibc" RInst [] place_inst). assert (E : get_rev_deps upgraded "glibc" RInst = Ok []) by (vm_compute; reflexivity).
  specialize (H E "bash" (dep_on "glibc")). destruct H as [_ H]. apply H. exists (pkg "bash" [dep_on "glibc"]).
  split; [vm_compute; reflexivity|]. split; [now left|reflexivity].
Qed.
(** two dependencies on one package: only the last is kept *)
Definition ranged : dbs := run_ops [OInstalled (pkg "bash" [mkDep "glibc" None (Some "2") None None None None; mkDep "glibc" None None (Some "3") None None None])].
Lemma two_deps_lose_one : reachable ranged /\ ~ revdeps_exact ranged.
Proof.
  split; [apply run_ops_reachable|]. intros H.
  set (d2 := mkDep "glibc" None None (Some "3") None None None).
  set (d1 := mkDep "glibc" None (Some "2") None None None None).
  specialize (H "glibc" RInst [("bash", d2)] place_inst). assert (E : get_rev_deps ranged "glibc" RInst = Ok [("bash", d2)]) by (vm_compute; reflexivity).
  specialize (H E "bash" d1). destruct H as [_ H]. destruct H as [K|[]]; [|discriminate K]. exists (pkg "bash" [d1; d2]).
  split; [vm_compute; reflexivity|]. split; [now left|reflexivity].
Qed.
