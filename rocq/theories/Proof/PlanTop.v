(** * Consequences of the planning lemmas, in the form the properties are stated *)
From Coq Require Import String List ZArith.
From stdpp Require Import gmap strings relations.
From Verif Require Import Proof.GraphFacts.
From Verif Require Import Model.Py Model.ItemByRepo Model.Dependency Model.Package Model.Databases
  Model.InstallDB Model.System Model.Graph Model.Plan
  Spec.VersionSpec Spec.ItemByRepoSpec Spec.DependencySpec Spec.DatabaseSpec Spec.SystemSpec Spec.GraphSpec Spec.PlanSpec
  Proof.ItemByRepoFacts Proof.ItemByRepoMain Proof.DatabaseFacts Proof.RevDepFacts Proof.SystemFacts Proof.PlanFacts Proof.UpgradeFacts.
Open Scope string_scope.

(** ** What the package database holds has no component dependencies *)
Definition plain (s : dbs) : Prop := forall n q pk, place q -> entry (db_pkg s) n q = Some pk -> p_compdeps pk = [] /\ p_name pk = n.
Lemma add_package_plain s p q s' : place q -> plain s -> add_package s p q = Ok s' -> plain s'.
Proof.
  intros Hp I E n q' pk Hq'. rewrite (add_package_entries s p q s' Hp E n q' Hq'). destruct (bool_decide _) eqn:B; [|apply I, Hq'].
  intros [= <-]. apply bool_decide_eq_true in B as [B _]. split; [|exact B]. unfold add_package in E. inv_ok E. unfold runtimeDependencies in E1. now destruct (p_compdeps p).
Qed.
Lemma remove_package_plain s n q s' : place q -> plain s -> remove_package s n q = Ok s' -> plain s'.
Proof.
  intros Hp I E m q' pk Hq'. unfold remove_package in E. inv_ok E. injection E as <-. simpl.
  rewrite (remove_item_entry _ _ _ _ _ Hp E1) by exact Hq'. destruct (bool_decide _); [discriminate|]. apply I, Hq'.
Qed.
Lemma plain_ext s s' : db_pkg s' = db_pkg s -> plain s -> plain s'.
Proof. intros E H. unfold plain. now rewrite E. Qed.
Lemma plain_same_but s s' q : same_but q (db_pkg s) (db_pkg s') -> plain s -> plain s'.
Proof. intros S I n q' pk Hq'. rewrite S by exact Hq'. destruct (bool_decide _); [discriminate|]. apply I, Hq'. Qed.
Lemma apply_op_plain s o s' : inv s -> plain s -> apply_op s o = Ok s' -> plain s'.
Proof.
  intros HI I. destruct o as [n u p|n|n ix|p|p|n]; simpl.
  - unfold op_add_repo. destruct (has_repo _ n); [discriminate|]. unfold add_repo. intros H. inv_ok H. injection H as <-. eapply plain_ext; [|exact I]; reflexivity.
  - unfold op_remove_repo. destruct (has_repo _ n) eqn:E; [|intros [= <-]; exact I].
    intros H. destruct HI as [Hr Hs]. apply has_repo_spec in E. apply (proj2 Hr) in E. destruct (repo_remove_ok _ n Hr E) as (rd & E' & _).
    destruct (remove_repo_ok _ s n rd Hs E') as (s1 & K & _ & _ & S1 & _). rewrite K in H. injection H as <-. eapply plain_same_but; [exact S1|exact I].
  - unfold op_update_repo. destruct (has_repo _ n) eqn:E; [|discriminate]. intros H.
    destruct HI as [Hr Hs]. apply has_repo_spec in E. apply (proj2 Hr) in E. pose proof (place_name n) as Hp. unfold update_db in H.
    destruct (comp_remove_repo_ok _ s _ Hs Hp) as (s1 & K1 & A1 & _ & _ & A2 & A3 & A4 & _). rewrite K1 in H. simpl in H. inv_ok H.
    assert (B1 : plain v).
    { eapply plain_ext; [|exact I]. rewrite <- A3. eapply (foldM_same db_pkg); [|exact E0]. intros t c t' K. simpl in K. inv_ok K. now injection K as <-. }
    assert (B2 : shelves_ok (order_of s) v).
    { eapply (foldM_inv (shelves_ok (order_of s))); [|exact A1|exact E0].
      intros t c t' _ [] H'. inv_ok H'. injection H' as <-. constructor; simpl; auto. eapply update_component_good; eauto. split; [exact Hp|intros r [= <-]; exact E]. }
    destruct (pkg_remove_repo_ok _ v _ B2 Hp) as (s2 & E' & _ & _ & _ & S1 & _). rewrite E' in E1. injection E1 as <-.
    assert (D1 : plain s2) by (eapply plain_same_but; [exact S1|exact B1]).
    assert (F : plain v1). { eapply (foldM_inv plain); [|exact D1|exact E2]. intros t c t' _ Pt K. exact (add_package_plain _ _ _ _ Hp Pt K). }
    eapply plain_ext; [|exact F]. transitivity (db_pkg v2).
    + eapply (foldM_same db_pkg); [|exact H]. intros t c t' K. unfold add_spec in K. inv_ok K. now injection K as <-.
    + unfold src_remove_repo in E3. inv_ok E3. now injection E3 as <-.
  - apply add_package_plain; [apply place_inst|exact I].
  - apply add_package_plain; [apply place_third|exact I].
  - unfold remove_tracking_package. intros H. inv_ok H.
    assert (I0 : plain v0). { destruct v; [eapply remove_package_plain; eauto using place_inst|injection E0 as <-; exact I]. }
    destruct v1; [eapply remove_package_plain; eauto using place_third|injection H as <-; exact I0].
Qed.
Lemma reachable_plain s : reachable s -> plain s.
Proof.
  induction 1 as [|s o s' H IH C E]; [intros n q pk _ K; discriminate K|]. eapply apply_op_plain; eauto. eapply reachable_inv; eauto.
Qed.
Lemma found_plain s n r p : reachable s -> r = RRepos \/ place r -> get_package s n r = Ok p -> p_compdeps p = [] /\ p_name p = n.
Proof.
  intros H Hr G. apply reachable_plain in H. destruct Hr as [->|Hr].
  - unfold get_package, get_item in G. destruct (get_item_repo (order_of s) (db_pkg s) n RRepos) as [[x q]|] eqn:E; [|discriminate]. simpl in G. injection G as <-.
    pose proof E as E'. apply lookup_from_listed in E' as (r & -> & _). apply first_repository in E as (pre & r' & post & E1 & [= <-] & E2 & _).
    eapply H; [apply (place_name r)|]. apply (entry_get (order_of s)); [apply place_name|]. exact E2.
  - eapply H; [exact Hr|]. now apply get_package_place.
Qed.

(** ** Install plans *)
Lemma install_ok s it A g order : system s -> any_order it -> NoDup A -> plan_install s it A = Ok (g, order) ->
  NoDup order /\ (forall x, In x order <-> needed s A x) /\
  (forall x y, In x order -> needs s x y -> In y order /\ comes_before order y x).
Proof.
  intros H I N E. pose proof (plan_install_spec s it A H I N) as P. rewrite E in P. destruct P as (P1 & P2 & P3 & _ & _).
  split; [exact P1|]. split; [exact P2|]. intros x y Hx K. split; [|now apply P3]. apply P2. apply P2 in Hx as (a & Ha & Hx). exists a. split; [exact Ha|]. eapply rtc_r; eauto.
Qed.
Lemma install_fails s it A e : system s -> any_order it -> NoDup A -> plan_install s it A = Err e ->
  (exists x, needed s A x /\ (forall p, ~ offered s x p) /\ e = EError) \/
  (exists x p d, needed s A x /\ offered s x p /\ In d (p_deps p) /\ ~ answerable s d /\ e = EValue) \/
  (exists c, need_cycle s A /\ e = ECycle c).
Proof.
  intros H I N E. pose proof (plan_install_spec s it A H I N) as P. rewrite E in P. destruct P as [(x & P1 & [e' P2] & P3)|[(x & p & P1 & P2 & P3 & _)|[P|(c & -> & P & _)]]].
  - left. exists x. split; [exact P1|]. split; [|exact P3]. intros p K. unfold offered in K. congruence.
  - exfalso. apply P3. apply (found_plain (y_db s) x RRepos p); [apply (lived_yinv _ _ H)|now left|exact P2].
  - right. left. exact P.
  - right. right. exists c. auto.
Qed.
Lemma install_iff s it A : system s -> any_order it -> NoDup A ->
  ((exists plan, plan_install s it A = Ok plan) <->
   (forall x, needed s A x -> exists p, offered s x p /\ forall d, In d (p_deps p) -> answerable s d) /\ ~ need_cycle s A).
Proof.
  intros H I N. pose proof (plan_install_spec s it A H I N) as P. destruct (plan_install s it A) as [[g order]|e] eqn:E.
  - destruct P as (_ & _ & _ & P1 & P2). split; [intros _|eauto]. split; [|exact P2]. intros x Hx. destruct (P1 x Hx) as (p & K1 & _ & K2). eauto.
  - split; [intros [p K]; discriminate K|]. intros [K1 K2]. exfalso. destruct (install_fails s it A e H I N E) as [(x & X1 & X2 & _)|[(x & p & d & X1 & X2 & X3 & X4 & _)|(c & X & _)]].
    + destruct (K1 x X1) as (p & K & _). now apply (X2 p).
    + destruct (K1 x X1) as (q & K & L). unfold offered in K, X2. rewrite K in X2. injection X2 as ->. now apply X4, L.
    + now apply K2.
Qed.

(** ** Remove plans *)
Lemma remove_ok s it A g order : system s -> any_order it -> NoDup A -> plan_remove s it A = Ok (g, order) ->
  NoDup order /\ (forall x, In x order <-> falls_with s A x) /\ forall x, In x order -> exists p, present s x p.
Proof.
  intros H I N E. pose proof (plan_remove_spec s it A H I N) as P. rewrite E in P. destruct P as (P1 & P2 & _ & P3 & _).
  split; [exact P1|]. split; [exact P2|]. intros x Hx. apply P3, P2, Hx.
Qed.
Lemma remove_order s it A g order : system s -> any_order it -> NoDup A -> plan_remove s it A = Ok (g, order) ->
  forall x, In x order -> ~ In x A -> exists y, In y order /\ relies_on s y x /\ comes_before order x y.
Proof.
  intros H I N E. pose proof (plan_remove_spec s it A H I N) as P. rewrite E in P. destruct P as (_ & _ & P & _). intros x Hx Nx. destruct (P x Hx); [contradiction|assumption].
Qed.
Lemma remove_fails s it A e : system s -> any_order it -> NoDup A -> plan_remove s it A = Err e ->
  (exists x, In x A /\ is_installed (y_inst s) x = false /\ e = EError) \/
  (exists x l y d, falls_with s A x /\ get_rev_deps (y_db s) x RInst = Ok l /\ In (y, d) l /\ ~ answerable s d /\ e = EValue).
Proof.
  intros H I N E. pose proof (plan_remove_spec s it A H I N) as P. rewrite E in P. destruct P as [P|(x & l & y & d & p & P1 & P2 & P3 & _ & P4 & P5)]; [now left|right; exists x, l, y, d; auto].
Qed.

(** The packages that stay keep what they depend on, if the index is exact and they had it. *)
Lemma remove_keeps s it A g order : system s -> any_order it -> NoDup A -> plan_remove s it A = Ok (g, order) ->
  (forall x l y q d, get_rev_deps (y_db s) x RInst = Ok l -> present s y q -> In d (p_deps q) -> dep_package d = x -> In (y, d) l) ->
  forall y q d, present s y q -> ~ In y order -> In d (p_deps q) -> met s d -> ~ In (dep_package d) order.
Proof.
  intros H I N E X y q d Hy Ny Hd M K. apply Ny. destruct (remove_ok s it A g order H I N E) as (_ & P & _). apply P. apply P in K as (a & Ha & K). exists a. split; [exact Ha|]. eapply rtc_r; [exact K|].
  exists (revof (db_rev (y_db s)) (dep_package d) RInst), d. assert (L := get_rev_deps_place (y_db s) (dep_package d) RInst place_inst). split; [exact L|]. split; [eapply X; eauto|]. split; [eauto|exact M].
Qed.

Lemma remove_dependents s it A g order : system s -> any_order it -> NoDup A -> plan_remove s it A = Ok (g, order) ->
  forall x l y d, In x order -> get_rev_deps (y_db s) x RInst = Ok l -> In (y, d) l -> is_installed (y_inst s) y = true -> met s d -> In y order.
Proof.
  intros H I N E x l y d Hx Hl Hd Hy M. destruct (remove_ok s it A g order H I N E) as (_ & P & _). apply P. apply P in Hx as (a & Ha & K). exists a. split; [exact Ha|]. eapply rtc_r; [exact K|].
  exists l, d. split; [exact Hl|]. split; [exact Hd|]. split; [|exact M]. destruct (proj1 (proj1 (system_agrees s y H)) Hy) as [p Hp]. exists p. now apply present_get.
Qed.
Lemma install_closed s it A g order : system s -> any_order it -> NoDup A -> plan_install s it A = Ok (g, order) ->
  NoDup order /\ (forall x, In x A -> In x order) /\
  (forall x p d, In x order -> offered s x p -> In d (p_deps p) -> ~ met s d ->
     In (dep_package d) order /\ comes_before order (dep_package d) x).
Proof.
  intros H I N E. destruct (install_ok s it A g order H I N E) as (P1 & P2 & P3). split; [exact P1|]. split.
  - intros x Hx. apply P2. exists x. split; [exact Hx|apply rtc_refl].
  - intros x p d Hx Hp Hd M. apply P3; [exact Hx|]. exists p, d. auto.
Qed.

Lemma remove_order_simple s it A g order : system s -> any_order it -> NoDup A -> plan_remove s it A = Ok (g, order) ->
  (forall x, In x A -> forall y, In y order -> ~ relies_on s y x) ->
  (forall x y z, In y order -> In z order -> relies_on s y x -> relies_on s z x -> y = z) ->
  forall x y, In x order -> In y order -> relies_on s y x -> comes_before order x y.
Proof.
  intros H I N E S1 S2 x y Hx Hy R. destruct (in_dec string_dec x A) as [K|K]; [destruct (S1 x K y Hy R)|].
  destruct (remove_order s it A g order H I N E x Hx K) as (z & Z1 & Z2 & Z3). now rewrite (S2 x y z Hy Z1 R Z2).
Qed.
