(** * Installing and removing leave what the repositories hold as it was *)
From Coq Require Import String Ascii ZArith List.
From stdpp Require Import gmap strings relations.
From Verif Require Import Proof.GraphFacts.
From Verif Require Import Model.Py Model.Version Model.ItemByRepo Model.Dependency Model.Package Model.ComponentDB Model.Databases
  Model.InstallDB Model.System Model.Graph Model.Plan Model.Path Model.Fs Model.Ops
  Spec.VersionSpec Spec.DependencySpec Spec.ItemByRepoSpec Spec.DatabaseSpec Spec.SystemSpec Spec.GraphSpec Spec.PlanSpec
  Spec.PathSpec Spec.FsSpec Spec.OpsSpec
  Proof.PyFacts Proof.PathFacts Proof.ItemByRepoFacts Proof.DatabaseFacts Proof.RevDepFacts Proof.ComponentFacts Proof.SearchSystem Proof.InstallDBFacts Proof.SystemFacts
  Proof.PlanFacts Proof.UpgradeFacts Proof.PlanTop Proof.FsFacts Proof.OpsFacts Proof.OpsTop Proof.OpsSteps.
Open Scope string_scope.

Definition same_shop (d d' : dbs) : Prop :=
  db_repo d' = db_repo d /\ forall n r, entry (db_pkg d') n (RName r) = entry (db_pkg d) n (RName r) /\
                                        entry (db_comp d') n (RName r) = entry (db_comp d) n (RName r).
Global Instance same_shop_pre : PreOrder same_shop.
Proof.
  split; [intros d; split; [reflexivity|]; intros n r; split; reflexivity|].
  intros a b c [E1 E2] [F1 F2]. split; [congruence|]. intros n r. destruct (E2 n r), (F2 n r). split; congruence.
Qed.
Lemma same_shop_sym a b : same_shop a b -> same_shop b a.
Proof. intros [E1 E2]. split; [congruence|]. intros n r. destruct (E2 n r). split; congruence. Qed.

Fixpoint first_entry {A} (order : list string) (d : shelf A) (n : string) : option (A * rarg) :=
  match order with
  | [] => None
  | r :: order => match entry d n (RName r) with Some x => Some (x, RName r) | None => first_entry order d n end
  end.
Lemma str_repo_name r : str_repo ("repo-" +:+ r) = Ok (RName r).
Proof. exact (str_repo_pkey (RName r) (place_name r)). Qed.
Lemma get_repos {A} order (d : shelf A) n :
  get_item_repo order d n RRepos = match first_entry order d n with Some x => Ok x | None => Err EError end.
Proof.
  unfold get_item_repo. destruct (d !! n) as [data|] eqn:E.
  - cbn [repo_order bind]. induction order as [|r order IH]; [reflexivity|]. cbn [map first_of first_entry]. unfold entry at 1. rewrite E. cbn [mbind option_bind pkey].
    destruct (data !! ("repo-" +:+ r)); [|exact IH]. rewrite str_repo_name. reflexivity.
  - induction order as [|r order IH]; [reflexivity|]. cbn [first_entry]. unfold entry at 1. rewrite E. exact IH.
Qed.
Lemma first_entry_eq {A} order (d d' : shelf A) n : (forall r, entry d' n (RName r) = entry d n (RName r)) -> first_entry order d' n = first_entry order d n.
Proof. intros H. induction order as [|r order IH]; [reflexivity|]. cbn [first_entry]. now rewrite H, IH. Qed.

Lemma ok_bool (a b : bool) : (Ok a = Ok true <-> Ok b = Ok true) -> Ok a = Ok b.
Proof. intros [H1 H2]. destruct a, b; try reflexivity; [now specialize (H1 eq_refl)|now specialize (H2 eq_refl)]. Qed.

Section same.
  Context (d d' : dbs) (S : same_shop d d').
  Lemma shop_order : order_of d' = order_of d.
  Proof. unfold order_of. now rewrite (proj1 S). Qed.
  Lemma shop_get n : get_package d' n RRepos = get_package d n RRepos.
  Proof.
    unfold get_package, get_item. rewrite shop_order, !get_repos. now rewrite (first_entry_eq _ (db_pkg d) (db_pkg d') n) by (intros r; apply (proj2 S)).
  Qed.
  Lemma shop_which n : which_repo (order_of d') (db_pkg d') n = which_repo (order_of d) (db_pkg d) n.
  Proof.
    unfold which_repo. rewrite shop_order, !get_repos. now rewrite (first_entry_eq _ (db_pkg d) (db_pkg d') n) by (intros r; apply (proj2 S)).
  Qed.
  Lemma shop_has_component c : reachable d -> reachable d' -> has_component (db_comp d') c RRepos = has_component (db_comp d) c RRepos.
  Proof.
    intros R R'. destruct (reachable_inv _ R) as [_ [_ _ _ _ [W _]]]. destruct (reachable_inv _ R') as [_ [_ _ _ _ [W' _]]]. unfold has_component.
    pose proof (has_key_repos _ c W) as H. pose proof (has_key_repos _ c W') as H'.
    assert (E : has_key (db_comp d') c RRepos = Ok true <-> has_key (db_comp d) c RRepos = Ok true).
    { rewrite H, H'. split; intros (nm & [x X]); exists nm; destruct (proj2 S c nm) as [_ K]; exists x; congruence. }
    cbn [has_key] in E |- *. apply ok_bool. exact E.
  Qed.
  Lemma shop_has_package n : reachable d -> reachable d' -> has_package d' n RRepos = has_package d n RRepos.
  Proof.
    intros R R'. destruct (reachable_inv _ R) as [_ [[W _] _ _ _ _]]. destruct (reachable_inv _ R') as [_ [[W' _] _ _ _ _]]. unfold has_package.
    pose proof (has_key_repos _ n W) as H. pose proof (has_key_repos _ n W') as H'.
    assert (E : has_key (db_pkg d') n RRepos = Ok true <-> has_key (db_pkg d) n RRepos = Ok true).
    { rewrite H, H'. split; intros (nm & [x X]); exists nm; destruct (proj2 S n nm) as [K _]; exists x; congruence. }
    cbn [has_key] in E |- *. apply ok_bool. exact E.
  Qed.
  Lemma shop_lists c r p : lists_package d' c (RName r) p <-> lists_package d c (RName r) p.
  Proof. rewrite !lists_package_iff by apply place_name. unfold pkgs_of. now rewrite (proj2 (proj2 S c r)). Qed.
End same.

Lemma shop_base s s' x : same_shop (y_db s) (y_db s') -> reachable (y_db s) -> reachable (y_db s') -> in_base s' x <-> in_base s x.
Proof.
  intros S R R'. unfold in_base. rewrite (shop_has_component _ _ S _ R R'), (shop_order _ _ S).
  split; intros (H & r & I & L); (split; [exact H|]); exists r; (split; [exact I|]); now apply (shop_lists _ _ S).
Qed.
Lemma shop_requested s s' A x : same_shop (y_db s) (y_db s') -> reachable (y_db s) -> reachable (y_db s') -> requested s' A x <-> requested s A x.
Proof.
  intros S R R'. unfold requested. rewrite (shop_order _ _ S).
  split; intros (y & Hy & [[H E]|(H & r & I & L)]); exists y; (split; [exact Hy|]).
  - left. split; [|exact E]. now rewrite <- (shop_has_component _ _ S _ R R').
  - right. rewrite <- (shop_has_component _ _ S _ R R'). split; [exact H|]. exists r. split; [exact I|]. now apply (shop_lists _ _ S).
  - left. split; [|exact E]. now rewrite (shop_has_component _ _ S _ R R').
  - right. rewrite (shop_has_component _ _ S _ R R'). split; [exact H|]. exists r. split; [exact I|]. now apply (shop_lists _ _ S).
Qed.

Lemma add_package_shop d p q d' : (q = RInst \/ q = RThird) -> add_package d p q = Ok d' -> same_shop d d'.
Proof.
  intros Q H. assert (P : place q) by (destruct Q as [->| ->]; split; discriminate). split; [now apply add_package_repo in H|]. intros n r. split.
  - rewrite (add_package_entries _ _ _ _ P H) by apply place_name. rewrite bool_decide_false; [reflexivity|]. intros [_ E]. destruct Q; congruence.
  - unfold add_package in H. inv_ok H. injection H as <-. simpl. unfold comp_add_package in E2. destruct (p_partOf p) as [cn|]; [|discriminate]. destruct (truthy (Some cn)); [|discriminate]. inv_ok E2.
    match goal with K : add_item (db_comp d) cn ?x q = Ok _ |- _ => destruct (add_item_entry (db_comp d) cn x q P) as (d2 & Ed & S); rewrite Ed in K; injection K as <- end.
    rewrite S by apply place_name. rewrite bool_decide_false; [reflexivity|]. intros [_ E']. destruct Q; congruence.
Qed.
Lemma remove_package_shop d n q d' : (q = RInst \/ q = RThird) -> remove_package d n q = Ok d' -> same_shop d d'.
Proof.
  intros Q H. assert (P : place q) by (destruct Q as [->| ->]; split; discriminate). split; [now apply remove_package_repo in H|]. intros m r. unfold remove_package in H. inv_ok H. injection H as <-. simpl. split.
  - rewrite (remove_item_entry _ _ _ _ _ P E0) by apply place_name. rewrite bool_decide_false; [reflexivity|]. intros [_ E']. destruct Q; congruence.
  - match goal with K : comp_remove_package _ _ _ _ _ = Ok _ |- _ => unfold comp_remove_package in K; inv_ok K; rename K into E9 end.
    match type of E9 with (if ?b then _ else _) = _ => destruct b; [|discriminate] end. inv_ok E9.
    match goal with K : add_item (db_comp d) ?cn ?x q = Ok _ |- _ => destruct (add_item_entry (db_comp d) cn x q P) as (d2 & Ed & S); rewrite Ed in K; injection K as <- end.
    rewrite S by apply place_name. rewrite bool_decide_false; [reflexivity|]. intros [_ E']. destruct Q; congruence.
Qed.
Lemma forget_shop d n d' : remove_tracking_package d n = Ok d' -> same_shop d d'.
Proof.
  unfold remove_tracking_package. intros H. inv_ok H. transitivity v0.
  - destruct v; [exact (remove_package_shop _ _ _ _ (or_introl eq_refl) E0)|]. injection E0 as <-. reflexivity.
  - destruct v1; [exact (remove_package_shop _ _ _ _ (or_intror eq_refl) H)|]. injection H as <-. reflexivity.
Qed.
Lemma record_remove_shop s n s' : record_remove s n = Ok s' -> same_shop (y_db s) (y_db s').
Proof.
  unfold record_remove. intros H. apply bind_ok in H as (p & _ & H). apply bind_ok in H as (old & _ & H).
  destruct (is_installed (y_inst s) n); [|discriminate]. apply bind_ok in H as (s1 & D & [= <-]). unfold remove_db in D. inv_ok D. injection D as <-. simpl. eapply forget_shop; eauto.
Qed.
Lemma update_databases_shop s p files later old s' : update_databases s p files later old = Ok s' -> same_shop (y_db s) (y_db s').
Proof.
  unfold update_databases. intros H. inv_ok H. injection H as <-. simpl. etransitivity; [|eapply add_package_shop; [left; reflexivity|eassumption]].
  destruct old; [|injection E as <-; reflexivity]. unfold remove_db in E. inv_ok E. injection E as <-. simpl. eapply forget_shop; eauto.
Qed.
Lemma record_install_shop s p files later s' : record_install s p files later = Ok s' -> same_shop (y_db s) (y_db s').
Proof.
  unfold record_install. destruct (is_installed (y_inst s) (p_name p)); intros H.
  - inv_ok H. cbn zeta in H. apply update_databases_shop in H. exact H.
  - cbn zeta in H. apply update_databases_shop in H. exact H.
Qed.
