(** * Operations, step by step *)
From Coq Require Import String Ascii ZArith List.
From stdpp Require Import gmap strings relations.
From Verif Require Import Proof.GraphFacts.
From Verif Require Import Model.Py Model.Version Model.ItemByRepo Model.Dependency Model.Package Model.ComponentDB Model.Databases
  Model.InstallDB Model.System Model.Graph Model.Plan Model.Path Model.Fs Model.Ops
  Spec.VersionSpec Spec.DependencySpec Spec.ItemByRepoSpec Spec.DatabaseSpec Spec.SystemSpec Spec.GraphSpec Spec.PlanSpec
  Spec.PathSpec Spec.FsSpec Spec.OpsSpec
  Proof.PyFacts Proof.ItemByRepoFacts Proof.DatabaseFacts Proof.RevDepFacts Proof.ComponentFacts Proof.InstallDBFacts Proof.SystemFacts
  Proof.PlanFacts Proof.UpgradeFacts Proof.PlanTop Proof.FsFacts Proof.OpsFacts Proof.OpsTop.
Open Scope string_scope.

(** Latest first *)
Inductive passes (R : sys -> sys -> Prop) : sys -> list sys -> sys -> Prop :=
| pass_none s : passes R s [] s
| pass_step s l s1 s2 : passes R s l s1 -> R s1 s2 -> passes R s (s1 :: l) s2.
Lemma passes_app R a l b : passes R a l b -> forall l' c, passes R b l' c -> passes R a (l' ++ l) c.
Proof.
  intros H l' c K. revert H. induction K as [s|s l1 s1 s2 K IH r]; intros H; [exact H|]. cbn [app]. econstructor; eauto.
Qed.
Lemma passes_mono (R R' : sys -> sys -> Prop) : (forall a b, R a b -> R' a b) -> forall a l b, passes R a l b -> passes R' a l b.
Proof. intros H a l b K. induction K; econstructor; eauto. Qed.
Lemma passes_pair R a l b : passes R a l b -> forall pre s' s post, (b :: l = pre ++ s' :: s :: post)%list -> R s s'.
Proof.
  induction 1 as [s|s l s1 s2 K IH r]; intros pre s' s0 post E.
  - destruct pre as [|? [|? ?]]; discriminate E.
  - destruct pre as [|x pre]; [injection E as <- <- <-; exact r|]. injection E as _ E. eapply IH; exact E.
Qed.

Definition passed (R : sys -> sys -> Prop) (w w' : world) : Prop :=
  exists new, w_past w' = (new ++ w_past w)%list /\ passes R (w_sys w) (map fst new) (w_sys w').
Global Instance passed_pre R : PreOrder (passed R).
Proof.
  split; [intros w; exists []; split; [reflexivity|constructor]|]. intros a b c (n1 & E1 & P1) (n2 & E2 & P2).
  exists (n2 ++ n1)%list. rewrite E2, E1. split; [apply app_assoc|]. rewrite map_app. eapply passes_app; eauto.
Qed.
Lemma passed_successive R w w' : passed R w w' -> forall s s', successive w w' s s' -> R s s'.
Proof.
  intros (new & E & P) s s' (new' & pre & post & E' & K). rewrite E in E'. apply app_inv_tail in E'. subst new'. eapply passes_pair; eauto.
Qed.
Lemma passed_mono (R R' : sys -> sys -> Prop) : (forall a b, R a b -> R' a b) -> forall w w', passed R w w' -> passed R' w w'.
Proof. intros H w w' (new & E & P). exists new. split; [exact E|]. eapply passes_mono; eauto. Qed.
Lemma passed_untouched R {A} (m : M A) : keeps untouched m -> keeps (passed R) m.
Proof. intros H w. destruct (H w) as (E1 & _ & E3). exists []. split; [exact E3|]. rewrite E1. constructor. Qed.
Lemma passed_commit (R : sys -> sys -> Prop) f : (forall s s', f s = Ok s' -> R s s') -> keeps (passed R) (commit f).
Proof.
  intros H w. unfold commit. destruct (f (w_sys w)) as [s|e] eqn:E; [|reflexivity]. exists [(w_sys w, w_fs w)]. split; [reflexivity|]. econstructor; [constructor|]. cbn [w_sys fst]. auto.
Qed.
Lemma passed_touch (R : sys -> sys -> Prop) f : (forall s, R s s) -> keeps (passed R) (touch f).
Proof.
  intros H w. unfold touch. destruct (f (w_fs w)) as [s|e] eqn:E; [|reflexivity]. exists [(w_sys w, w_fs w)]. split; [reflexivity|]. econstructor; [constructor|]. cbn [w_sys fst]. auto.
Qed.
Lemma passes_trans (R : sys -> sys -> Prop) : PreOrder R -> forall a l b, passes R a l b -> R a b.
Proof. intros P a l b H. induction H; [reflexivity|]. etransitivity; eauto. Qed.

Global Instance same_records_pre : PreOrder same_records.
Proof. split; [exact same_records_refl|exact same_records_trans]. Qed.
Lemma same_records_sym a b : same_records a b -> same_records b a.
Proof. intros (E1 & E2 & E3). split; [congruence|]. split; [congruence|]. intros n. destruct (E3 n). split; congruence. Qed.

Section steps.
  Context (h : host) (o : opts).

  Lemma touch_same f : keeps (passed same_records) (touch f).
  Proof. apply passed_touch. reflexivity. Qed.
  Lemma check_relations_same k i : keeps (passed same_records) (check_relations h o k i).
  Proof. unfold check_relations. kp. apply passed_commit. intros s s' E. apply bind_ok in E as (d & E & [= <-]). eapply add_third_records; exact E. Qed.
  Lemma keep_config_same c p x : keeps (passed same_records) (keep_config h o c p x).
  Proof. unfold keep_config, put_aside. kp; apply touch_same. Qed.
  Lemma extract_install_same k old : keeps (passed same_records) (extract_install h o k old).
  Proof.
    unfold extract_install. cbn zeta. apply keeps_bind; [typeclasses eauto| |].
    - destruct old as [old|].
      + generalize (@nil string). generalize (zip (List.filter (has_path old) (sort_by_path (k_files k))) (List.filter (has_path (k_files k)) (sort_by_path old))).
        intros l. induction l as [|[a b] l IH]; intros c; cbn [keep_configs]; [kp|]. destruct (f_path a =? f_path b)%string; [|kp]. apply keeps_bind; [typeclasses eauto| |intros c'; apply IH].
        kp. apply keep_config_same.
      + generalize (@nil string). generalize (k_files k). intros l. induction l as [|a l IH]; intros c; cbn [keep_stray]; [kp|]. apply keeps_bind; [typeclasses eauto| |intros c'; apply IH].
        kp. apply keep_config_same.
    - intros changed. unfold restore_config. kp; apply touch_same.
  Qed.
  Lemma store_same k old : keeps (passed same_records) (store_pisi_files k old).
  Proof. unfold store_pisi_files. kp; apply passed_commit; intros s s' [= <-]; (split; [reflexivity|]); (split; [reflexivity|]); intros n; split; reflexivity. Qed.

  (** The relation between successive states of the databases *)
  Definition step (s s' : sys) : Prop :=
    same_records s s' \/
    (exists s0 p files later, system s0 /\ same_records s s0 /\ record_install s0 p files later = Ok s' /\
       (o_ignore_dependency o = false -> forall d, In d (p_deps p) -> met s d)) \/
    (exists s1 n, system s /\ record_remove s n = Ok s1 /\ same_records s1 s').
  Definition tracks {A} (m : M A) : Prop := forall w, system (w_sys w) ->
    passed step w (m w).1 /\ forall a, (m w).2 = Ok a -> system (w_sys (m w).1).

  Lemma same_step s s' : same_records s s' -> step s s'.
  Proof. now left. Qed.

  Lemma tracks_bind {A B} (m : M A) (k : A -> M B) : tracks m -> (forall a, tracks (k a)) -> tracks (bindM m k).
  Proof.
    intros H K w S. unfold bindM. destruct (H w S) as [P1 S1]. destruct (m w) as [w1 [a|e]]; cbn [fst snd] in *.
    - destruct (K a w1 (S1 a eq_refl)) as [P2 S2]. split; [etransitivity; eauto|exact S2].
    - split; [exact P1|discriminate].
  Qed.
  Lemma tracks_untouched {A} (m : M A) : keeps untouched m -> tracks m.
  Proof. intros H w S. split; [now apply (passed_untouched step m H)|]. intros a _. destruct (H w) as (E & _). now rewrite E. Qed.
  Lemma tracks_ret {A} (a : A) : tracks (ret a). Proof. apply tracks_untouched. kp. Qed.
  Lemma tracks_throw {A} e : tracks (throw (A := A) e). Proof. apply tracks_untouched. kp. Qed.
  Lemma tracks_lift {A} (r : res A) : tracks (lift r). Proof. apply tracks_untouched. kp. Qed.
  Lemma tracks_look {A} (f : sys -> res A) : tracks (look f). Proof. apply tracks_untouched. kp. Qed.
  Lemma tracks_confirm q : tracks (confirm h q). Proof. apply tracks_untouched, confirm_untouched. Qed.
  Lemma tracks_each {A} (f : A -> M unit) l : (forall x, In x l -> tracks (f x)) -> tracks (eachM f l).
  Proof.
    induction l as [|x l IH]; intros H; [apply tracks_ret|]. cbn [eachM]. apply tracks_bind; [apply H; now left|]. intros _. apply IH. intros y Hy. apply H. now right.
  Qed.
  Lemma tracks_map {A B} (f : A -> M B) l : (forall x, In x l -> tracks (f x)) -> tracks (mapMM f l).
  Proof.
    induction l as [|x l IH]; intros H; [apply tracks_ret|]. cbn [mapMM]. apply tracks_bind; [apply H; now left|]. intros y. apply tracks_bind; [|intros ys; apply tracks_ret].
    apply IH. intros z Hz. apply H. now right.
  Qed.

  Lemma install_tracks k i ask : tracks (install_package h o k i ask).
  Proof.
    intros w S. destruct (install_package h o k i ask w) as [w' r] eqn:H. cbn [fst snd]. split; [|intros u ->; eapply install_system; eauto].
    pose proof H as H0. unfold install_package in H. cbn zeta in H.
    assert (G : exists w1, passed same_records w w1 /\ (w' = w1 \/
      (exists s f l, w' = mkWorld s f ((w_sys w1, w_fs w1) :: w_past w1) l /\ r = Ok tt))).
    { pose proof (check_relations_same k i w) as K1. unfold bindM in H at 1. destruct (check_relations h o k i w) as [w1 [u1|e1]]; [|injection H as <- <-; eauto 7].
      pose proof (passed_untouched same_records _ (check_reinstall_untouched h o k ask) w1) as K2. unfold bindM in H at 1. destruct (check_reinstall h o k ask w1) as [w2 [old|e1]]; cbn [fst] in *;
        (assert (K12 : passed same_records w w2) by (etransitivity; eassumption)); [|injection H as <- <-; eauto 7].
      pose proof (extract_install_same k (option_map fst old) w2) as K3. unfold bindM in H at 1. destruct (extract_install h o k (option_map fst old) w2) as [w3 [u3|e1]]; cbn [fst] in *;
        (assert (K13 : passed same_records w w3) by (etransitivity; eassumption)); [|injection H as <- <-; eauto 7].
      pose proof (store_same k old w3) as K4. unfold bindM in H at 1. destruct (store_pisi_files k old w3) as [w4 [u4|e1]]; cbn [fst] in *;
        (assert (K14 : passed same_records w w4) by (etransitivity; eassumption)); [|injection H as <- <-; eauto 7].
      assert (K5 : keeps (passed same_records) (if o_comar o then hook h (EvPostInstall (p_name (k_pkg k))) (p_name (k_pkg k)) else ret tt)).
      { destruct (o_comar o); [apply passed_untouched, hook_untouched|kp]. }
      specialize (K5 w4). unfold bindM in H at 1. destruct ((if o_comar o then hook h (EvPostInstall (p_name (k_pkg k))) (p_name (k_pkg k)) else ret tt) w4) as [w5 [u5|e1]]; cbn [fst] in *;
        (assert (K15 : passed same_records w w5) by (etransitivity; eassumption)); [|injection H as <- <-; eauto 7].
      unfold bindM in H at 1. unfold commit in H at 1. destruct (update_databases (w_sys w5) (k_pkg k) (k_files k) (negb (o_comar o)) (option_map fst old)) as [s|e1]; [|injection H as <- <-; eauto 7].
      injection H as <- <-. exists w5. split; [exact K15|]. right. eauto. }
    destruct G as (w1 & P & [->|(s & f & l & -> & ->)]); [eapply passed_mono; [|exact P]; exact same_step|].
    destruct (install_package_ok _ _ _ _ _ _ _ _ H0) as (s0 & N & R & _). cbn [w_sys] in R.
    assert (E1 : same_records (w_sys w) (w_sys w1)) by (destruct P as (nw & _ & P); eapply passes_trans; [typeclasses eauto|exact P]).
    destruct P as (new & EN & P). exists ((w_sys w1, w_fs w1) :: new). cbn [w_past w_sys map fst]. split; [rewrite EN; reflexivity|].
    econstructor; [eapply passes_mono; [|exact P]; exact same_step|]. right. left. exists s0, (k_pkg k), (k_files k), (negb (o_comar o)).
    split; [eapply noted_system; eauto|]. split; [etransitivity; [apply same_records_sym; exact E1|eapply noted_same; exact N]|]. split; [exact R|].
    intros NI d Hd. apply (same_met (w_sys w)); [exact E1|]. exact (proj1 (install_deps _ _ _ _ _ _ _ _ S NI H0 d Hd)).
  Qed.

  Lemma remove_files_same n files : keeps (passed same_records)
    (eachM (fun fi => let! owners := look (fun s => Ok (y_files s)) in touch (remove_file (h_sha1 h) (o_dest o) owners n fi)) files).
  Proof. kp. apply touch_same. Qed.
  Lemma preremove_untouched n : keeps untouched (run_preremove h o n).
  Proof. unfold run_preremove. kp. apply hook_untouched. Qed.
  Lemma set_lists_same s l : same_records s (set_lists s l).
  Proof. split; [reflexivity|]. split; [reflexivity|]. intros n. split; reflexivity. Qed.
  Lemma remove_single_tracks n : tracks (remove_single h o n).
  Proof.
    intros w S. destruct (remove_single h o n w) as [w' r] eqn:H. cbn [fst snd]. split.
    2: { intros u ->. apply remove_single_ok in H as [H _]. eapply lived_step with (o := YRemove n); [exact S|discriminate|exact I|exact H]. }
    pose proof H as H0. unfold remove_single in H. unfold bindM in H at 1. cbn [look] in H. destruct (get_package (y_db (w_sys w)) n RInst) as [p|e]; [|injection H as <- _; reflexivity].
    unfold bindM in H at 1. cbn [look] in H. destruct (list_of (w_sys w) n) as [files|e]; [|injection H as <- _; reflexivity].
    unfold bindM in H at 1. cbn [look] in H. destruct (is_installed (y_inst (w_sys w)) n); [|injection H as <- _; reflexivity]. cbn [negb] in H.
    pose proof (passed_untouched same_records _ (preremove_untouched n) w) as K1. pose proof (preremove_untouched n w) as U1.
    unfold bindM in H at 1. destruct (run_preremove h o n w) as [w1 [u1|e]]; [|injection H as <- _; eapply passed_mono; [|exact K1]; exact same_step]. cbn [fst] in *.
    pose proof (remove_files_same n files w1) as K2. assert (U2 : keeps same_sys_log (eachM (fun fi => let! owners := look (fun s => Ok (y_files s)) in touch (remove_file (h_sha1 h) (o_dest o) owners n fi)) files)) by (kp; apply keeps_touch).
    specialize (U2 w1). unfold bindM in H at 1. destruct (eachM _ files w1) as [w2 [u2|e]]; cbn [fst] in *;
      (assert (K12 : passed same_records w w2) by (etransitivity; eassumption)); [|injection H as <- _; eapply passed_mono; [|exact K12]; exact same_step].
    unfold bindM in H at 1. unfold commit in H at 1. destruct (remove_db (w_sys w2) n files) as [s3|e] eqn:RD; [|injection H as <- _; eapply passed_mono; [|exact K12]; exact same_step].
    unfold bindM, commit, note in H. cbn [w_sys w_fs w_past w_log] in H. injection H as <- <-. apply remove_single_ok in H0 as [H0 _]. cbn [w_sys] in H0.
    assert (E2 : w_sys w2 = w_sys w) by (destruct U1 as (U1 & _); destruct U2 as [U2 _]; congruence).
    destruct K12 as (new & EN & P). exists ((s3, w_fs w2) :: (w_sys w2, w_fs w2) :: new). cbn [w_past w_sys map fst]. split; [rewrite EN; reflexivity|].
    econstructor; [econstructor; [eapply passes_mono; [|exact P]; exact same_step|]|].
    - right. right. eexists _, n. split; [rewrite E2; exact S|]. split; [rewrite E2; exact H0|]. apply same_records_sym, set_lists_same.
    - left. apply set_lists_same.
  Qed.
End steps.

Ltac tk := repeat first
  [ apply tracks_ret | apply tracks_throw | apply tracks_lift | apply tracks_look | apply tracks_confirm | apply install_tracks | apply remove_single_tracks
  | assumption
  | progress cbn zeta
  | match goal with
    | |- tracks _ (bindM _ _) => apply tracks_bind; [|intros ?]
    | |- tracks _ (eachM _ _) => apply tracks_each; intros ? _
    | |- tracks _ (mapMM _ _) => apply tracks_map; intros ? _
    | |- tracks _ (if ?b then _ else _) => destruct b eqn:?
    | |- tracks _ (match ?b with _ => _ end) => destruct b eqn:?
    end ].

Section whole.
  Context (h : host) (o : opts).
  Lemma remove_tracks A i : tracks o (remove h o A i).
  Proof. unfold remove. tk. Qed.
  Lemma check_conflicts_tracks get order : tracks o (check_conflicts h o get order).
  Proof. unfold check_conflicts. tk. apply remove_tracks. Qed.
  Lemma plan_install_tracks A : tracks o (plan_install_pkg_names h o A).
  Proof. unfold plan_install_pkg_names. tk. apply check_conflicts_tracks. Qed.
  Lemma plan_upgrade_tracks A : tracks o (plan_upgrade_pkg_names h o A).
  Proof. unfold plan_upgrade_pkg_names. tk. apply check_conflicts_tracks. Qed.
  Lemma upgrade_base_tracks A : tracks o (upgrade_base h o A).
  Proof. unfold upgrade_base. tk; try apply plan_install_tracks; try apply plan_upgrade_tracks. Qed.
  Lemma install_names_tracks A r : tracks o (install_pkg_names h o A r).
  Proof. unfold install_pkg_names, install_single_name, upgrade_pisi. tk; try apply upgrade_base_tracks; try apply plan_install_tracks. Qed.
  Lemma upgrade_tracks A : tracks o (upgrade_pkg_names h o A).
  Proof. unfold upgrade_pkg_names, upgrade_pisi. tk; try apply upgrade_base_tracks; try apply plan_upgrade_tracks. Qed.
  Lemma install_files_tracks A : tracks o (install_pkg_files h o A).
  Proof. unfold install_pkg_files, install_single_file. tk; try apply install_names_tracks; try apply check_conflicts_tracks. Qed.
  Lemma all_install_tracks A r : tracks o (install h o A r).
  Proof. unfold install. tk; [apply install_files_tracks|apply install_names_tracks]. Qed.


  Lemma run_tracks c : tracks o (run h o c).
  Proof. destruct c; cbn [run]; tk; [apply all_install_tracks|apply upgrade_tracks|apply remove_tracks]. Qed.
  Lemma run_whole c w w' r : system (w_sys w) -> run h o c w = (w', r) -> forall s s', successive w w' s s' -> whole_step s s'.
  Proof.
    intros S H s s' K. destruct (run_tracks c w S) as [P _]. rewrite H in P. destruct (passed_successive _ _ _ P _ _ K) as [?|[(s0 & p & files & later & A1 & A2 & A3 & _)|?]]; [now left| |right; now right].
    right. left. eauto 7.
  Qed.
  Lemma run_system c w w' u : system (w_sys w) -> run h o c w = (w', Ok u) -> system (w_sys w').
  Proof. intros S H. destruct (run_tracks c w S) as [_ P]. rewrite H in P. eauto. Qed.
  Lemma run_deps c w w' r : system (w_sys w) -> o_ignore_dependency o = false -> run h o c w = (w', r) ->
    forall s s', successive w w' s s' -> forall n p, present s' n p -> ~ present s n p ->
    forall d, In d (p_deps p) -> met s d /\ (dep_package d <> n -> met s' d).
  Proof.
    intros S NI H s s' K n p Hp Np d Hd. destruct (run_tracks c w S) as [P _]. rewrite H in P.
    destruct (passed_successive _ _ _ P _ _ K) as [E|[(s0 & p0 & files & later & S0 & E & R & D)|(s1 & m & S1 & R & E)]].
    - destruct Np. now apply (same_present _ _ n p E).
    - pose proof (record_install_present _ _ _ _ _ (lived_yinv _ _ S0) R) as RP. apply RP in Hp as [[-> ->]|[_ Hp]].
      + specialize (D NI d Hd). split; [exact D|]. intros Ne. apply (same_met _ _ d E) in D. destruct D as (q & Q1 & Q2). exists q. split; [|exact Q2]. apply RP. auto.
      + destruct Np. now apply (same_present _ _ n p E).
    - destruct Np. apply (same_present _ _ n p E) in Hp. now apply (record_remove_present _ _ _ (lived_yinv _ _ S1) R) in Hp.
  Qed.
End whole.
