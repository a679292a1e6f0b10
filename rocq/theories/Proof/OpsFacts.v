(** * Lemmas about operations *)
From Coq Require Import String Ascii ZArith List.
From stdpp Require Import gmap strings relations.
From Verif Require Import Proof.GraphFacts.
From Verif Require Import Model.Py Model.Version Model.ItemByRepo Model.Dependency Model.Package Model.ComponentDB Model.Databases
  Model.InstallDB Model.System Model.Graph Model.Plan Model.Path Model.Fs Model.Ops
  Spec.VersionSpec Spec.DependencySpec Spec.ItemByRepoSpec Spec.DatabaseSpec Spec.SystemSpec Spec.GraphSpec Spec.PlanSpec
  Spec.PathSpec Spec.FsSpec Spec.OpsSpec
  Proof.PyFacts Proof.ItemByRepoFacts Proof.DatabaseFacts Proof.RevDepFacts Proof.ComponentFacts Proof.InstallDBFacts Proof.SystemFacts
  Proof.PlanFacts Proof.UpgradeFacts Proof.PlanTop Proof.FsFacts.
Open Scope string_scope.

(** ** Actions *)
Lemma bindM_ok {A B} (m : M A) (k : A -> M B) w w' b :
  bindM m k w = (w', Ok b) <-> exists w1 a, m w = (w1, Ok a) /\ k a w1 = (w', Ok b).
Proof.
  unfold bindM. destruct (m w) as [w1 [a|e]]; split.
  - intros H. eauto.
  - intros (w2 & a2 & [= <- <-] & H). exact H.
  - discriminate.
  - intros (w2 & a2 & [=] & _).
Qed.
Lemma bindM_err {A B} (m : M A) (k : A -> M B) w w' e :
  bindM m k w = (w', Err e) <-> m w = (w', Err e) \/ exists w1 a, m w = (w1, Ok a) /\ k a w1 = (w', Err e).
Proof.
  unfold bindM. destruct (m w) as [w1 [a|e1]]; split.
  - intros H. eauto.
  - intros [[=]|(w2 & a2 & [= <- <-] & H)]. exact H.
  - intros [= -> ->]. now left.
  - intros [[= -> ->]|(w2 & a2 & [=] & _)]. reflexivity.
Qed.
Lemma look_ok {A} (f : sys -> res A) w w' a : look f w = (w', Ok a) <-> w' = w /\ f (w_sys w) = Ok a.
Proof. unfold look. split; [intros [= -> ->]; auto|intros [-> ->]; reflexivity]. Qed.
Lemma commit_ok f w w' u : commit f w = (w', Ok u) <->
  exists s, f (w_sys w) = Ok s /\ w' = mkWorld s (w_fs w) ((w_sys w, w_fs w) :: w_past w) (w_log w).
Proof.
  unfold commit. destruct (f (w_sys w)) as [s|e]; split.
  - intros [= <-]. eauto.
  - intros (s' & [= <-] & ->). now destruct u.
  - discriminate.
  - intros (s' & [=] & _).
Qed.

(** Whatever happens, the world before and after is related. *)
Definition keeps {A} (R : world -> world -> Prop) (m : M A) : Prop := forall w, R w (m w).1.
Section keeps.
  Context (R : world -> world -> Prop) `{!PreOrder R}.
  Lemma keeps_bind {A B} (m : M A) (k : A -> M B) : keeps R m -> (forall a, keeps R (k a)) -> keeps R (bindM m k).
  Proof.
    intros Hm Hk w. unfold bindM. specialize (Hm w). destruct (m w) as [w1 [a|e]]; [|exact Hm].
    etransitivity; [exact Hm|apply Hk].
  Qed.
  Lemma keeps_ret {A} (a : A) : keeps R (ret a). Proof. intros w. reflexivity. Qed.
  Lemma keeps_throw {A} e : keeps R (throw (A := A) e). Proof. intros w. reflexivity. Qed.
  Lemma keeps_lift {A} (r : res A) : keeps R (lift r). Proof. intros w. reflexivity. Qed.
  Lemma keeps_look {A} (f : sys -> res A) : keeps R (look f). Proof. intros w. reflexivity. Qed.
  Lemma keeps_look_fs {A} (f : fs -> A) : keeps R (look_fs f). Proof. intros w. reflexivity. Qed.
  Lemma keeps_each {A} (f : A -> M unit) l : (forall x, In x l -> keeps R (f x)) -> keeps R (eachM f l).
  Proof.
    induction l as [|x l IH]; intros H; [apply keeps_ret|]. cbn [eachM]. apply keeps_bind; [apply H; now left|]. intros _. apply IH. intros y Hy. apply H. now right.
  Qed.
  Lemma keeps_map {A B} (f : A -> M B) l : (forall x, In x l -> keeps R (f x)) -> keeps R (mapMM f l).
  Proof.
    induction l as [|x l IH]; intros H; [apply keeps_ret|]. cbn [mapMM]. apply keeps_bind; [apply H; now left|]. intros y. apply keeps_bind; [|intros ys; apply keeps_ret].
    apply IH. intros z Hz. apply H. now right.
  Qed.
End keeps.
Ltac kp := repeat first
  [ apply keeps_ret | apply keeps_throw | apply keeps_lift | apply keeps_look | apply keeps_look_fs
  | assumption
  | progress cbn zeta
  | match goal with
    | |- keeps _ (bindM _ _) => apply keeps_bind; [typeclasses eauto| |intros ?]
    | |- keeps _ (eachM _ _) => apply keeps_each; [typeclasses eauto|intros ? _]
    | |- keeps _ (mapMM _ _) => apply keeps_map; [typeclasses eauto|intros ? _]
    | |- keeps _ (if ?b then _ else _) => destruct b eqn:?
    | |- keeps _ (match ?b with _ => _ end) => destruct b eqn:?
    | |- keeps _ (let _ := _ in _) => cbn zeta
    | |- PreOrder _ => typeclasses eauto
    end ].

(** ** C21: dry runs *)
Global Instance untouched_pre : PreOrder untouched.
Proof.
  split.
  - intros w. repeat split.
  - intros a b c (A1 & A2 & A3) (B1 & B2 & B3). repeat split; congruence.
Qed.
Section dry.
  Context (h : host) (o : opts) (D : o_dry_run o = true).
  Lemma dry_confirm q : keeps untouched (confirm h q).
  Proof. intros w. repeat split. Qed.
  Lemma dry_remove A i : keeps untouched (remove h o A i).
  Proof. unfold remove. rewrite D. kp; try apply dry_confirm. Qed.
  Lemma dry_check_conflicts get order : keeps untouched (check_conflicts h o get order).
  Proof. unfold check_conflicts. kp; try apply dry_confirm. apply dry_remove. Qed.
  Lemma dry_plan_install A : keeps untouched (plan_install_pkg_names h o A).
  Proof. unfold plan_install_pkg_names. kp. apply dry_check_conflicts. Qed.
  Lemma dry_plan_upgrade A : keeps untouched (plan_upgrade_pkg_names h o A).
  Proof. unfold plan_upgrade_pkg_names. kp. apply dry_check_conflicts. Qed.
  Lemma dry_upgrade_base A : keeps untouched (upgrade_base h o A).
  Proof. unfold upgrade_base. kp; try apply dry_plan_install; try apply dry_plan_upgrade. Qed.
  Lemma dry_install_names A r : keeps untouched (install_pkg_names h o A r).
  Proof. unfold install_pkg_names. rewrite D. kp; try apply dry_upgrade_base; try apply dry_plan_install. Qed.
  Lemma dry_upgrade A : keeps untouched (upgrade_pkg_names h o A).
  Proof. unfold upgrade_pkg_names. rewrite D. kp; try apply dry_upgrade_base; try apply dry_plan_upgrade. Qed.
  Lemma dry_install_files A : o_ignore_dependency o = false -> keeps untouched (install_pkg_files h o A).
  Proof. intros I. unfold install_pkg_files. rewrite D, I. kp; try apply dry_confirm; try apply dry_install_names; try apply dry_check_conflicts. Qed.
  Lemma dry_install A r : o_ignore_dependency o = false \/ (forall x l, A = x :: l -> py_endswith x package_suffix = false) ->
    keeps untouched (install h o A r).
  Proof.
    intros I. unfold install. destruct A as [|x l]; [kp|]. destruct (py_endswith x package_suffix) eqn:E.
    - apply dry_install_files. destruct I as [I|I]; [exact I|]. now rewrite (I x l eq_refl) in E.
    - kp. apply dry_install_names.
  Qed.
End dry.

(** ** Removing one package *)
Definition same_sys (w w' : world) : Prop := w_sys w' = w_sys w.
Global Instance same_sys_pre : PreOrder same_sys.
Proof. split; [intros w; reflexivity|intros a b c; unfold same_sys; congruence]. Qed.
Definition same_sys_log (w w' : world) : Prop := w_sys w' = w_sys w /\ w_log w' = w_log w.
Global Instance same_sys_log_pre : PreOrder same_sys_log.
Proof. split; [intros w; split; reflexivity|intros a b c [? ?] [? ?]; split; congruence]. Qed.
Lemma keeps_touch f : keeps same_sys_log (touch f).
Proof. intros w. unfold touch. destruct (f (w_fs w)); split; reflexivity. Qed.

Lemma each_touch {A} (g : sys -> A -> fs -> res fs) l : forall w,
  let r := eachM (fun x => let! s := look (fun s => Ok s) in touch (g s x)) l w in
  same_sys_log w r.1 /\
  match r.2, foldM (fun f x => g (w_sys w) x f) l (w_fs w) with
  | Ok _, Ok f => w_fs r.1 = f
  | Err e, Err e' => e = e'
  | _, _ => False
  end.
Proof.
  induction l as [|x l IH]; intros w r.
  - subst r. simpl. split; [apply same_sys_log_pre|reflexivity].
  - assert (E : r = match touch (g (w_sys w) x) w with
                    | (w1, Ok _) => eachM (fun x => let! s := look (fun s => Ok s) in touch (g s x)) l w1
                    | (w1, Err e) => (w1, Err e) end) by reflexivity.
    rewrite E. clear r E. cbn [foldM]. unfold touch at 1 3 5. destruct (g (w_sys w) x (w_fs w)) as [f|e]; cbn [fst snd bind].
    + specialize (IH (mkWorld (w_sys w) f ((w_sys w, w_fs w) :: w_past w) (w_log w))). cbn zeta in IH. cbn [w_sys w_fs w_log] in IH.
      destruct IH as [[I1 I2] I3]. split; [split; [exact I1|exact I2]|exact I3].
    + split; [split; reflexivity|reflexivity].
Qed.

Section remove_one.
  Context (h : host) (o : opts).

  (** the files of the package, in the order of its list *)
  Definition remove_all_files (owners : filesdb) (n : string) (files : list finfo) (f : fs) : res fs :=
    foldM (fun f fi => remove_file (h_sha1 h) (o_dest o) owners n fi f) files f.

  Lemma run_preremove_same n : keeps same_sys (run_preremove h o n).
  Proof. intros w. unfold run_preremove, hook. destruct (o_comar o); [|reflexivity]. destruct (h_hook h (w_log w) n); reflexivity. Qed.
  Lemma run_preremove_ok n w w' u : run_preremove h o n w = (w', Ok u) -> w_sys w' = w_sys w /\ w_fs w' = w_fs w.
  Proof.
    unfold run_preremove, hook. destruct (o_comar o); [|intros [= <-]; auto]. destruct (h_hook h (w_log w) n); [discriminate|]. intros [= <-]. auto.
  Qed.

  Lemma remove_single_ok n w w' u : remove_single h o n w = (w', Ok u) ->
    record_remove (w_sys w) n = Ok (w_sys w') /\ (exists l, w_log w' = EvRemoved n :: l) /\
    exists files, list_of (w_sys w) n = Ok files /\ remove_all_files (y_files (w_sys w)) n files (w_fs w) = Ok (w_fs w').
  Proof.
    unfold remove_single. intros H. apply bindM_ok in H as (w1 & p & E1 & H). apply look_ok in E1 as [-> E1].
    apply bindM_ok in H as (w2 & files & E2 & H). apply look_ok in E2 as [-> E2].
    apply bindM_ok in H as (w3 & inst & E3 & H). apply look_ok in E3 as [-> [= E3]]. subst inst.
    destruct (is_installed (y_inst (w_sys w)) n) eqn:I; [|discriminate]. cbn [negb] in H.
    apply bindM_ok in H as (w4 & u4 & E4 & H). apply run_preremove_ok in E4 as [S4 F4].
    apply bindM_ok in H as (w5 & u5 & E5 & H).
    pose proof (each_touch (fun s fi => remove_file (h_sha1 h) (o_dest o) (y_files s) n fi) files w4) as T. cbv beta zeta in T.
    assert (X : eachM (fun fi => let! owners := look (fun s => Ok (y_files s)) in touch (remove_file (h_sha1 h) (o_dest o) owners n fi)) files w4
                = eachM (fun x => let! s := look (fun s => Ok s) in touch (remove_file (h_sha1 h) (o_dest o) (y_files s) n x)) files w4) by reflexivity.
    rewrite X in E5. rewrite E5 in T. cbn [fst snd] in T. destruct T as [[S5 L5] F5].
    apply bindM_ok in H as (w6 & u6 & E6 & H). apply commit_ok in E6 as (s6 & R6 & ->).
    apply bindM_ok in H as (w7 & u7 & E7 & H). apply commit_ok in E7 as (s7 & [= <-] & ->). cbn [w_sys w_fs w_log] in H.
    injection H as <- <-. cbn [w_sys w_fs w_log]. rewrite S5, S4 in R6. split; [|split; [eauto|]].
    - unfold record_remove. rewrite E1. cbn [bind]. rewrite E2. cbn [bind]. rewrite I. rewrite R6. reflexivity.
    - exists files. split; [exact E2|]. unfold remove_all_files. rewrite S4, F4 in F5.
      destruct (foldM _ files (w_fs w)) as [f|e]; [now rewrite F5|contradiction].
  Qed.
  Lemma remove_single_err n w w' e : remove_single h o n w = (w', Err e) -> w_sys w' = w_sys w.
  Proof.
    unfold remove_single. intros H. apply bindM_err in H as [[= <- _]|(w1 & p & E1 & H)]; [reflexivity|]. apply look_ok in E1 as [-> E1].
    apply bindM_err in H as [[= <- _]|(w2 & files & E2 & H)]; [reflexivity|]. apply look_ok in E2 as [-> E2].
    apply bindM_err in H as [[= <- _]|(w3 & inst & E3 & H)]. apply look_ok in E3 as [-> [= E3]]. subst inst.
    destruct (is_installed (y_inst (w_sys w)) n) eqn:I; [|now injection H as <-]. cbn [negb] in H.
    apply bindM_err in H as [H|(w4 & u4 & E4 & H)].
    { pose proof (run_preremove_same n w) as K. rewrite H in K. exact K. }
    apply run_preremove_ok in E4 as [S4 F4].
    apply bindM_err in H as [H|(w5 & u5 & E5 & H)].
    - assert (K : keeps same_sys_log (eachM (fun fi => let! owners := look (fun s => Ok (y_files s)) in touch (remove_file (h_sha1 h) (o_dest o) owners n fi)) files)) by (kp; apply keeps_touch).
      specialize (K w4). rewrite H in K. destruct K as [K _]. simpl in K. congruence.
    - assert (K : keeps same_sys_log (eachM (fun fi => let! owners := look (fun s => Ok (y_files s)) in touch (remove_file (h_sha1 h) (o_dest o) owners n fi)) files)) by (kp; apply keeps_touch).
      specialize (K w4). rewrite E5 in K. destruct K as [K _]. simpl in K.
      apply bindM_err in H as [H|(w6 & u6 & E6 & H)].
      + unfold commit in H. destruct (remove_db (w_sys w5) n files); [discriminate|]. injection H as <- _. congruence.
      + apply bindM_err in H as [H|(w7 & u7 & E7 & H)]; [discriminate H|discriminate H].
  Qed.
End remove_one.

(** Packages [L], or some of them, are removed from the databases, one after the other. *)
Definition drops (L : list string) : sys -> sys -> Prop :=
  rtc (fun s s' => exists x, In x L /\ record_remove s x = Ok s').

Lemma drops_yinv L s s' : drops L s s' -> yinv s -> yinv s'.
Proof. induction 1 as [|s1 s2 s3 (x & _ & E) _ IH]; [auto|]. intros Y. apply IH. now apply record_remove_facts in E. Qed.
Lemma drops_system L s s' : drops L s s' -> system s -> system s'.
Proof.
  induction 1 as [|s1 s2 s3 (x & _ & E) _ IH]; [auto|]. intros Y. apply IH. eapply lived_step with (o := YRemove x); [exact Y|discriminate|exact I|exact E].
Qed.
Lemma record_remove_present s n s' : yinv s -> record_remove s n = Ok s' ->
  forall y p, present s' y p <-> present s y p /\ y <> n.
Proof.
  intros Y H y p. destruct (record_remove_facts _ _ _ Y H) as (Y' & N & Fr & _).
  assert (D : exists d', remove_tracking_package (y_db s) n = Ok d' /\ y_db s' = d').
  { unfold record_remove in H. apply bind_ok in H as (q & _ & H). apply bind_ok in H as (fl & _ & H). destruct (is_installed (y_inst s) n); [|discriminate].
    apply bind_ok in H as (s1 & R & [= <-]). unfold remove_db in R. inv_ok R. injection R as <-. simpl. eauto. }
  destruct D as (d' & D & E). pose proof (forget_entries _ _ _ D) as FE. unfold present.
  destruct (decide (y = n)) as [->|Ne].
  - rewrite N. split; [intros [[=] _]|intros [_ []]; reflexivity].
  - rewrite (is_installed_eq _ (y_inst s') y (proj1 (Fr y Ne))). rewrite E.
    rewrite !get_package_place by apply place_inst. rewrite FE by apply place_inst. rewrite bool_decide_false by tauto. tauto.
Qed.
Lemma drops_present L s s' : drops L s s' -> yinv s -> forall y p, present s' y p -> present s y p.
Proof.
  induction 1 as [|s1 s2 s3 (x & _ & E) _ IH]; [auto|]. intros Y y p K. apply IH in K; [|now apply record_remove_facts in E].
  now apply (record_remove_present _ _ _ Y E) in K.
Qed.
Lemma drops_keep L s s' : drops L s s' -> yinv s -> forall y p, ~ In y L -> present s y p -> present s' y p.
Proof.
  induction 1 as [|s1 s2 s3 (x & Hx & E) _ IH]; [auto|]. intros Y y p N K. apply IH; [now apply record_remove_facts in E|exact N|].
  apply (record_remove_present _ _ _ Y E). split; [exact K|]. congruence.
Qed.

Section remove_many.
  Context (h : host) (o : opts).
  Definition remove_loop (order : list string) : M unit :=
    eachM (fun x => let! inst := look (fun s => Ok (is_inst s x)) in if inst : bool then remove_single h o x else ret tt) order.
  Lemma remove_loop_drops order L : (forall x, In x order -> In x L) -> forall w, drops L (w_sys w) (w_sys (remove_loop order w).1).
  Proof.
    induction order as [|x order IH]; intros HL w; [apply rtc_refl|].
    cbn [remove_loop eachM]. fold (remove_loop order). unfold bindM at 1, bindM at 1. cbn [look].
    assert (IH' := IH (fun y Hy => HL y (or_intror Hy))). destruct (is_inst (w_sys w) x); [|apply IH'].
    destruct (remove_single h o x w) as [w1 [u|e]] eqn:E.
    - eapply rtc_l; [|apply IH']. exists x. split; [apply HL; now left|]. now apply remove_single_ok in E.
    - apply remove_single_err in E. cbn [fst]. rewrite E. apply rtc_refl.
  Qed.
  Lemma remove_loop_gone order : forall w w' u, yinv (w_sys w) -> remove_loop order w = (w', Ok u) -> forall x, In x order -> forall p, ~ present (w_sys w') x p.
  Proof.
    induction order as [|x order IH]; intros w w' u Y H; [intros x []|].
    cbn [remove_loop eachM] in H. fold (remove_loop order) in H. apply bindM_ok in H as (w1 & u1 & E & H). apply bindM_ok in E as (w2 & b & E0 & E). apply look_ok in E0 as [-> [= <-]].
    assert (G : yinv (w_sys w1) /\ forall p, ~ present (w_sys w1) x p).
    { destruct (is_inst (w_sys w) x) eqn:I.
      - apply remove_single_ok in E as [E _]. split; [now apply record_remove_facts in E|]. intros p K. apply (record_remove_present _ _ _ Y E) in K as [_ K]. now apply K.
      - injection E as <- _. split; [exact Y|]. intros p [K _]. unfold is_inst in I. congruence. }
    destruct G as [Y1 G]. intros y [<-|Hy] p; [|eapply IH; eauto]. intros K. apply (G p). eapply drops_present; [|exact Y1|exact K].
    pose proof (remove_loop_drops order order (fun x Hx => Hx) w1) as D. rewrite H in D. exact D.
  Qed.
End remove_many.

(** ** Removing *)
Lemma system_base_spec s : reachable (y_db s) ->
  match system_base s with
  | Ok (Some B) => forall x, x ∈ B <-> in_base s x
  | Ok None => forall x, ~ in_base s x
  | Err _ => False
  end.
Proof.
  intros R. unfold system_base. destruct (has_component (db_comp (y_db s)) "system.base" RRepos) as [[|]|e] eqn:E; cbn [bind].
  - destruct (get_union_comp_ok _ _ R E) as [c C]. rewrite C. cbn [bind]. intros x. rewrite elem_of_list_to_set, elem_of_list_In.
    unfold in_base. rewrite (proj1 (get_union_comp_spec _ _ _ C) x). tauto.
  - intros x [K _]. congruence.
  - destruct (system_agree (y_db s) "system.base" RRepos R) as (_ & _ & _ & [A1 A2] & _). rewrite E in *.
    unfold has_component, has_key in E. destruct (db_comp (y_db s) !! "system.base") as [m|]; simpl in E; discriminate.
Qed.

Lemma expand_requested s A : reachable (y_db s) -> exists R, expand s A = Ok R /\ forall p, p ∈ R <-> requested s A p.
Proof. intros R. exact (expand_spec (y_db s) A R). Qed.

Lemma remove_request_spec o s A : reachable (y_db s) -> exists A0 A1, remove_request o s A = Ok (A0, A1) /\
  (forall x, x ∈ A0 <-> requested s A x) /\
  (forall x, x ∈ A1 <-> requested s A x /\ is_installed (y_inst s) x = true /\ (o_bypass_safety o = false -> ~ in_base s x)).
Proof.
  intros R. unfold remove_request. destruct (expand_requested s A R) as (A0 & -> & HA). cbn [bind]. destruct (o_bypass_safety o).
  - cbn [bind]. eexists _, _. split; [reflexivity|]. split; [exact HA|]. intros x. rewrite elem_of_filter. unfold is_inst. rewrite HA. intuition discriminate.
  - pose proof (system_base_spec s R) as B. destruct (system_base s) as [[B0|]|e]; [| |contradiction]; cbn [bind]; eexists _, _; (split; [reflexivity|]); (split; [exact HA|]);
      intros x; rewrite elem_of_filter; unfold is_inst.
    + rewrite elem_of_difference, HA, B. tauto.
    + rewrite HA. specialize (B x). tauto.
Qed.

Section removing.
  Context (h : host) (o : opts).

  Definition remove_order_of (s : sys) (ig : bool) (A1 : gset string) (order : list string) : Prop :=
    (o_ignore_dependency o || ig = true /\ order = h_list h A1) \/
    (o_ignore_dependency o || ig = false /\ exists g, plan_remove s (h_it h) (h_list h A1) = Ok (g, order)).

  Lemma remove_cases A ig w w' r : remove h o A ig w = (w', r) ->
    (untouched w w' /\ (r = Ok true -> o_dry_run o = true)) \/
    (exists A0 A1 order w1 r1, o_dry_run o = false /\ remove_request o (w_sys w) A = Ok (A0, A1) /\ A1 <> ∅ /\
       remove_order_of (w_sys w) ig A1 order /\ untouched w w1 /\
       (((size A0 < length order)%nat /\ h_answer h (w_log w) QRemoveExtra = true /\ w_log w1 = EvAsked QRemoveExtra true :: w_log w) \/
        ((length order <= size A0)%nat /\ w_log w1 = w_log w)) /\
       remove_loop h o order w1 = (w', r1) /\ r = match r1 with Ok _ => Ok true | Err e => Err e end).
  Proof.
    unfold remove. unfold bindM at 1. cbn [look]. destruct (remove_request o (w_sys w) A) as [[A0 A1]|e] eqn:EQ.
    2: { intros [= <- <-]. left. split; [reflexivity|discriminate]. }
    cbn [fst snd]. case_bool_decide as Em.
    { intros [= <- <-]. left. split; [reflexivity|discriminate]. }
    intros H. unfold bindM in H at 1.
    destruct ((if o_ignore_dependency o || ig then ret (h_list h A1) else look (fun s => go <- plan_remove s (h_it h) (h_list h A1) ;; Ok go.2)) w) as [w0 [order|e]] eqn:EO.
    2: { injection H as <- <-. left. split; [|discriminate]. destruct (o_ignore_dependency o || ig); [discriminate|]. injection EO as <- _. reflexivity. }
    assert (HO : w0 = w /\ remove_order_of (w_sys w) ig A1 order).
    { unfold remove_order_of. destruct (o_ignore_dependency o || ig).
      - injection EO as <- <-. split; [reflexivity|]. now left.
      - apply look_ok in EO as [-> EO]. split; [reflexivity|]. right. split; [reflexivity|]. apply bind_ok in EO as ([g l] & E1 & [= <-]). eauto. }
    destruct HO as [-> HO]. clear EO. unfold bindM in H at 1.
    destruct ((if bool_decide (size A0 < length order)%nat then confirm h QRemoveExtra else ret true) w) as [w1 rg] eqn:EC.
    assert (HC : exists go, rg = Ok go /\ untouched w w1 /\ (go = true -> ((size A0 < length order)%nat /\ h_answer h (w_log w) QRemoveExtra = true /\ w_log w1 = EvAsked QRemoveExtra true :: w_log w) \/ ((length order <= size A0)%nat /\ w_log w1 = w_log w))).
    { case_bool_decide as L.
      - injection EC as <- <-. eexists. split; [reflexivity|]. split; [repeat split|]. intros K. left. cbn [w_log]. rewrite K. auto.
      - injection EC as <- <-. eexists. split; [reflexivity|]. split; [reflexivity|]. intros _. right. split; [lia|reflexivity]. }
    destruct HC as (go & -> & U & HC). destruct go; cbn [negb] in H.
    2: { injection H as <- <-. left. split; [exact U|discriminate]. }
    specialize (HC eq_refl). destruct (o_dry_run o) eqn:ED.
    { injection H as <- <-. left. auto. }
    unfold bindM in H at 1. fold (remove_loop h o order) in H.
    destruct (remove_loop h o order w1) as [w2 r1] eqn:EL. right. exists A0, A1, order, w1, r1. repeat (split; [first [reflexivity|assumption]|]).
    destruct r1; injection H as <- <-; (split; [exact EL|reflexivity]).
  Qed.

  Context (F : fair h).

  Lemma remove_order_in s ig A1 order : system s -> remove_order_of s ig A1 order ->
    NoDup order /\ (forall x, In x order -> x ∈ A1 \/ (o_ignore_dependency o || ig = false /\ falls_with s (h_list h A1) x)) /\ forall x, x ∈ A1 -> In x order.
  Proof.
    intros H [[_ ->]|[I [g E]]]; destruct F as [F1 F2]; destruct (F2 A1) as [N K].
    - split; [exact N|]. split; intros x; rewrite K; auto.
    - destruct (remove_ok _ _ _ _ _ H F1 N E) as (R1 & R2 & R3). split; [exact R1|]. split; [intros x Hx; right; split; [exact I|now apply R2]|].
      intros x Hx. apply R2. exists x. split; [now apply K|apply rtc_refl].
  Qed.

  (** *** C15 *)
  Lemma remove_safe A w w' r : o_ignore_dependency o = false -> system (w_sys w) -> deps_met (w_sys w) -> index_complete (w_sys w) ->
    remove h o A false w = (w', Ok r) -> deps_met (w_sys w').
  Proof.
    intros NI S D X H. destruct (remove_cases _ _ _ _ _ H) as [[(E & _) _]|(A0 & A1 & order & w1 & r1 & ED & EQ & Ne & HO & (U & _) & _ & EL & Er)].
    { now rewrite E. }
    destruct r1 as [u|e]; [|discriminate]. destruct HO as [[K _]|[_ [g E]]]; [rewrite NI in K; discriminate|].
    pose proof (lived_yinv _ _ S) as Y. pose proof (remove_loop_drops h o order order (fun x Hx => Hx) w1) as DR. rewrite EL in DR. cbn [fst] in DR. rewrite U in DR.
    assert (Y1 : yinv (w_sys w1)) by now rewrite U. pose proof (remove_loop_gone h o order w1 w' u Y1 EL) as G.
    intros n p d Hn Hd. pose proof (drops_present _ _ _ DR Y _ _ Hn) as Hn0. pose proof (D n p d Hn0 Hd) as M.
    assert (Nn : ~ In n order) by (intros K; now apply (G n K p)).
    destruct F as [F1 F2]. pose proof (remove_keeps _ _ _ _ _ S F1 (proj1 (F2 A1)) E X n p d Hn0 Nn Hd M) as K.
    destruct M as (q & Q1 & Q2). exists q. split; [|exact Q2]. eapply drops_keep; eauto.
  Qed.
  (** If it fails half-way, what was removed was in the plan. *)
  Lemma remove_only A ig w w' r : system (w_sys w) -> remove h o A ig w = (w', r) ->
    (forall n p, present (w_sys w') n p -> present (w_sys w) n p) /\
    exists A1 : gset string, (forall x, x ∈ A1 <-> requested (w_sys w) A x /\ is_installed (y_inst (w_sys w)) x = true /\ (o_bypass_safety o = false -> ~ in_base (w_sys w) x)) /\
    forall n p, present (w_sys w) n p -> present (w_sys w') n p \/ n ∈ A1 \/ (o_ignore_dependency o || ig = false /\ falls_with (w_sys w) (h_list h A1) n).
  Proof.
    intros S H. pose proof (lived_yinv _ _ S) as Y. destruct (remove_request_spec o (w_sys w) A (yi_reach _ Y)) as (A0 & A1 & EQ & _ & HA).
    destruct (remove_cases _ _ _ _ _ H) as [[(E & _) _]|(A0' & A1' & order & w1 & r1 & ED & EQ' & Ne & HO & (U & _) & _ & EL & Er)].
    { rewrite E. split; [auto|]. exists A1. auto. }
    rewrite EQ in EQ'. injection EQ' as <- <-.
    pose proof (remove_loop_drops h o order order (fun x Hx => Hx) w1) as DR. rewrite EL in DR. cbn [fst] in DR. rewrite U in DR.
    split; [intros n p; now apply (drops_present _ _ _ DR Y)|]. exists A1. split; [exact HA|]. intros n p K.
    destruct (in_dec string_dec n order) as [I|I]; [|left; eapply drops_keep; eauto]. right.
    now apply (remove_order_in _ _ _ _ S HO).
  Qed.
  Lemma remove_all_requested A ig w w' : system (w_sys w) -> o_dry_run o = false -> remove h o A ig w = (w', Ok true) ->
    forall n, requested (w_sys w) A n -> (o_bypass_safety o = false -> ~ in_base (w_sys w) n) -> forall p, ~ present (w_sys w') n p.
  Proof.
    intros S D H n Hn B p. pose proof (lived_yinv _ _ S) as Y. destruct (remove_request_spec o (w_sys w) A (yi_reach _ Y)) as (A0 & A1 & EQ & _ & HA).
    destruct (remove_cases _ _ _ _ _ H) as [[_ E]|(A0' & A1' & order & w1 & r1 & ED & EQ' & Ne & HO & (U & _) & _ & EL & Er)].
    { rewrite (E eq_refl) in D. discriminate. }
    rewrite EQ in EQ'. injection EQ' as <- <-. destruct r1 as [u|e]; [|discriminate].
    assert (Y1 : yinv (w_sys w1)) by now rewrite U.
    pose proof (remove_loop_drops h o order order (fun x Hx => Hx) w1) as DR. rewrite EL in DR. cbn [fst] in DR. rewrite U in DR.
    intros K. pose proof (drops_present _ _ _ DR Y _ _ K) as K0.
    refine (remove_loop_gone h o order w1 w' u Y1 EL n _ p K). apply (remove_order_in _ _ _ _ S HO). apply HA. split; [exact Hn|]. split; [apply K0|exact B].
  Qed.
  Lemma remove_system A ig w w' r : system (w_sys w) -> remove h o A ig w = (w', r) -> system (w_sys w').
  Proof.
    intros S H. destruct (remove_cases _ _ _ _ _ H) as [[(E & _) _]|(A0' & A1' & order & w1 & r1 & ED & EQ' & Ne & HO & (U & _) & _ & EL & Er)].
    { now rewrite E. }
    pose proof (remove_loop_drops h o order order (fun x Hx => Hx) w1) as DR. rewrite EL in DR. cbn [fst] in DR. rewrite U in DR. eapply drops_system; eauto.
  Qed.
End removing.

(** ** Installing one package *)
Lemma same_records_refl s : same_records s s.
Proof. split; [reflexivity|]. split; [reflexivity|]. intros n. split; reflexivity. Qed.
Lemma same_records_trans a b c : same_records a b -> same_records b c -> same_records a c.
Proof.
  intros (A1 & A2 & A3) (B1 & B2 & B3). split; [congruence|]. split; [congruence|]. intros n. destruct (A3 n), (B3 n). split; congruence.
Qed.
Lemma add_third_records s p d : add_package (y_db s) p RThird = Ok d -> same_records s (set_db s d).
Proof.
  intros H. split; [reflexivity|]. split; [reflexivity|]. intros n. cbn [y_db set_db]. split.
  - unfold get_package. rewrite !get_item_place by apply place_inst.
    rewrite (add_package_entries _ _ _ _ place_third H) by apply place_inst. rewrite bool_decide_false by (intros [_ [=]]). reflexivity.
  - rewrite !get_rev_deps_place by apply place_inst. f_equal. unfold add_package in H. apply bind_ok in H as (d0 & _ & H). apply bind_ok in H as (deps & _ & H).
    apply bind_ok in H as (dr & E & H). assert (R : db_rev d = dr) by (inv_ok H; injection H as <-; reflexivity). rewrite R. clear H R.
    revert E. generalize (db_rev (y_db s)) as r0. induction deps as [|dep deps IH]; intros r0 E; cbn [foldM] in E; [now injection E as ->|].
    apply bind_ok in E as (r1 & E1 & E). apply IH in E. rewrite E.
    destruct (add_revdep_entry (order_of (y_db s)) r0 (p_name p) RThird dep place_third) as (d1 & E1' & S). rewrite E1 in E1'. injection E1' as ->.
    rewrite S by apply place_inst. rewrite bool_decide_false by (intros [_ [=]]). reflexivity.
Qed.

(** Up to now nothing was recorded, at any moment. *)
Definition unrecorded_yet (w w' : world) : Prop :=
  same_records (w_sys w) (w_sys w') /\
  exists new, w_past w' = (new ++ w_past w)%list /\ forall c, In c new -> same_records (w_sys w) c.1.
Global Instance unrecorded_yet_pre : PreOrder unrecorded_yet.
Proof.
  split.
  - intros w. split; [apply same_records_refl|]. exists []. split; [reflexivity|intros c []].
  - intros a b c (A1 & n1 & A2 & A3) (B1 & n2 & B2 & B3). split; [eapply same_records_trans; eauto|]. exists (n2 ++ n1)%list. split; [rewrite B2, A2; apply app_assoc|].
    intros x Hx. apply in_app_or in Hx as [Hx|Hx]; [|auto]. eapply same_records_trans; eauto.
Qed.
Lemma commit_unrecorded f : (forall s s', f s = Ok s' -> same_records s s') -> keeps unrecorded_yet (commit f).
Proof.
  intros H w. unfold commit. destruct (f (w_sys w)) as [s|e] eqn:E; [|reflexivity]. split; [now apply H|].
  exists [(w_sys w, w_fs w)]. split; [reflexivity|]. intros c [<-|[]]. apply same_records_refl.
Qed.
Lemma touch_unrecorded f : keeps unrecorded_yet (touch f).
Proof.
  intros w. unfold touch. destruct (f (w_fs w)) as [s|e] eqn:E; [|reflexivity]. split; [apply same_records_refl|].
  exists [(w_sys w, w_fs w)]. split; [reflexivity|]. intros c [<-|[]]. apply same_records_refl.
Qed.

(** Only the file system and the log *)
Section install_one.
  Context (h : host) (o : opts).

  Lemma hook_sys e n w : w_sys (hook h e n w).1 = w_sys w /\ w_fs (hook h e n w).1 = w_fs w /\ w_past (hook h e n w).1 = w_past w.
  Proof. unfold hook. destruct (h_hook h (w_log w) n); repeat split. Qed.
  Lemma hook_untouched e n : keeps untouched (hook h e n).
  Proof. intros w. apply hook_sys. Qed.
  Lemma confirm_untouched q : keeps untouched (confirm h q).
  Proof. intros w. repeat split. Qed.
  Lemma untouched_unrecorded {A} (m : M A) : keeps untouched m -> keeps unrecorded_yet m.
  Proof. intros H w. destruct (H w) as (A1 & A2 & A3). split; [rewrite A1; apply same_records_refl|]. exists []. split; [exact A3|intros c []]. Qed.

  Lemma check_reinstall_untouched k ask : keeps untouched (check_reinstall h o k ask).
  Proof. unfold check_reinstall, run_preremove. kp; try apply confirm_untouched; apply hook_untouched. Qed.
  Lemma check_relations_unrecorded k i : keeps unrecorded_yet (check_relations h o k i).
  Proof.
    unfold check_relations. kp. apply commit_unrecorded. intros s s' E. apply bind_ok in E as (d & E & [= <-]). eapply add_third_records; exact E.
  Qed.
  Definition fs_only (w w' : world) : Prop := unrecorded_yet w w' /\ w_sys w' = w_sys w /\ w_log w' = w_log w.
  Global Instance fs_only_pre : PreOrder fs_only.
  Proof. split; [intros w; split; [reflexivity|split; reflexivity]|]. intros a b c (A1 & A2 & A3) (B1 & B2 & B3). split; [etransitivity; eauto|]. split; congruence. Qed.
  Lemma touch_fs_only f : keeps fs_only (touch f).
  Proof. intros w. split; [apply touch_unrecorded|]. apply keeps_touch. Qed.
  Lemma keep_config_fs c p x : keeps fs_only (keep_config h o c p x).
  Proof. unfold keep_config, put_aside. kp; apply touch_fs_only. Qed.
  Lemma extract_install_fs k old : keeps fs_only (extract_install h o k old).
  Proof.
    unfold extract_install. cbn zeta. apply keeps_bind; [typeclasses eauto| |].
    - destruct old as [old|].
      + generalize (@nil string). generalize (zip (List.filter (has_path old) (sort_by_path (k_files k))) (List.filter (has_path (k_files k)) (sort_by_path old))).
        intros l. induction l as [|[a b] l IH]; intros c; cbn [keep_configs]; [kp|]. destruct (f_path a =? f_path b)%string; [|kp]. apply keeps_bind; [typeclasses eauto| |intros c'; apply IH].
        kp. apply keep_config_fs.
      + generalize (@nil string). generalize (k_files k). intros l. induction l as [|a l IH]; intros c; cbn [keep_stray]; [kp|]. apply keeps_bind; [typeclasses eauto| |intros c'; apply IH].
        kp. apply keep_config_fs.
    - intros changed. unfold restore_config. kp; apply touch_fs_only.
  Qed.
  Lemma store_unrecorded k old : keeps unrecorded_yet (store_pisi_files k old).
  Proof. unfold store_pisi_files. kp; apply commit_unrecorded; intros s s' [= <-]; (split; [reflexivity|]); (split; [reflexivity|]); intros n; split; reflexivity. Qed.

  (** *** C35 *)
  Lemma install_crash k i ask w w' r : install_package h o k i ask w = (w', r) ->
    (forall c, crash_point w w' c -> same_records (w_sys w) c.1) /\
    (forall e, r = Err e -> same_records (w_sys w) (w_sys w')).
  Proof.
    unfold install_package. cbn zeta. intros H.
    assert (G : exists w1 r1, unrecorded_yet w w1 /\ ((w' = w1 /\ r = Err r1) \/
      (exists s, w' = mkWorld s (w_fs w1) ((w_sys w1, w_fs w1) :: w_past w1) (EvInstalled (p_name (k_pkg k)) :: w_log w1) /\ r = Ok tt))).
    { pose proof (check_relations_unrecorded k i w) as K1. unfold bindM in H at 1. destruct (check_relations h o k i w) as [w1 [u1|e1]]; [|injection H as <- <-; eauto 7].
      pose proof (untouched_unrecorded _ (check_reinstall_untouched k ask) w1) as K2. unfold bindM in H at 1. destruct (check_reinstall h o k ask w1) as [w2 [old|e1]]; cbn [fst] in *;
        (assert (K12 : unrecorded_yet w w2) by (etransitivity; eassumption)); [|injection H as <- <-; eauto 7].
      pose proof (proj1 (extract_install_fs k (option_map fst old) w2)) as K3. unfold bindM in H at 1. destruct (extract_install h o k (option_map fst old) w2) as [w3 [u3|e1]]; cbn [fst] in *;
        (assert (K13 : unrecorded_yet w w3) by (etransitivity; eassumption)); [|injection H as <- <-; eauto 7].
      pose proof (store_unrecorded k old w3) as K4. unfold bindM in H at 1. destruct (store_pisi_files k old w3) as [w4 [u4|e1]]; cbn [fst] in *;
        (assert (K14 : unrecorded_yet w w4) by (etransitivity; eassumption)); [|injection H as <- <-; eauto 7].
      assert (K5 : keeps unrecorded_yet (if o_comar o then hook h (EvPostInstall (p_name (k_pkg k))) (p_name (k_pkg k)) else ret tt)).
      { destruct (o_comar o); [apply untouched_unrecorded, hook_untouched|kp]. }
      specialize (K5 w4). unfold bindM in H at 1. destruct ((if o_comar o then hook h (EvPostInstall (p_name (k_pkg k))) (p_name (k_pkg k)) else ret tt) w4) as [w5 [u5|e1]]; cbn [fst] in *;
        (assert (K15 : unrecorded_yet w w5) by (etransitivity; eassumption)); [|injection H as <- <-; eauto 7].
      unfold bindM in H at 1. unfold commit in H at 1. destruct (update_databases (w_sys w5) (k_pkg k) (k_files k) (negb (o_comar o)) (option_map fst old)) as [s|e1]; [|injection H as <- <-; eauto 7].
      injection H as <- <-. exists w5, EFuel. split; [exact K15|]. right. exists s. split; reflexivity. }
    destruct G as (w1 & r1 & (K1 & new & K2 & K3) & [[-> ->]|(s & -> & ->)]).
    - split; [|intros e _; exact K1]. intros c (new' & E & I). rewrite K2 in E. apply app_inv_tail in E. subst new'. auto.
    - split; [|discriminate]. intros c (new' & E & I). cbn [w_past] in E. rewrite K2 in E. change ((w_sys w1, w_fs w1) :: new ++ w_past w)%list with (((w_sys w1, w_fs w1) :: new) ++ w_past w)%list in E.
      apply app_inv_tail in E. subst new'. destruct I as [<-|I]; [exact K1|auto].
  Qed.

  (** *** What a successful installation records *)
  Lemma check_relations_ok k i w w' u : check_relations h o k i w = (w', Ok u) ->
    noted (w_sys w) (k_pkg k) (w_sys w') /\ w_fs w' = w_fs w /\
    (o_ignore_dependency o = false -> pkg_installable (w_sys w) (k_pkg k) = Ok true) /\
    (i = false -> forall fi, In fi (k_files k) -> file_conflict o (w_sys w) (w_fs w) (k_pkg k) fi = false).
  Proof.
    unfold check_relations. cbn zeta. intros H. apply bindM_ok in H as (w1 & u1 & E1 & H). apply look_ok in E1 as [-> _].
    apply bindM_ok in H as (w2 & u2 & E2 & H).
    assert (G2 : w2 = w /\ (o_ignore_dependency o = false -> pkg_installable (w_sys w) (k_pkg k) = Ok true)).
    { destruct (o_ignore_dependency o); [injection E2 as <- _; split; [reflexivity|discriminate]|].
      apply bindM_ok in E2 as (w3 & b & E3 & E2). apply look_ok in E3 as [-> E3]. destruct b; [|discriminate]. injection E2 as <- _. auto. }
    destruct G2 as [-> G2]. apply bindM_ok in H as (w3 & known & E3 & H). apply look_ok in E3 as [-> E3].
    apply bindM_ok in H as (w4 & u4 & E4 & H).
    assert (G4 : noted (w_sys w) (k_pkg k) (w_sys w4) /\ w_fs w4 = w_fs w /\ y_files (w_sys w4) = y_files (w_sys w)).
    { destruct known.
      - injection E4 as <- _. split; [|auto]. left. auto.
      - apply commit_ok in E4 as (s & E4 & ->). apply bind_ok in E4 as (d & E4 & [= <-]). split; [|auto]. right. eauto. }
    destruct G4 as (G4 & G5 & G6). apply bindM_ok in H as (w5 & f & E5 & H). injection E5 as <- <-. rewrite G5 in H.
    apply bindM_ok in H as (w6 & clash & E6 & H). apply look_ok in E6 as [-> [= E6]].
    destruct (clash && negb i) eqn:EC; [discriminate|]. injection H as <- _. split; [exact G4|]. split; [exact G5|]. split; [exact G2|].
    intros -> fi Hf. rewrite andb_true_r in EC. subst clash. destruct (file_conflict o (w_sys w) (w_fs w) (k_pkg k) fi) eqn:K; [|reflexivity].
    assert (X : existsb (file_conflict o (w_sys w4) (w_fs w) (k_pkg k)) (k_files k) = true).
    { apply existsb_exists. exists fi. split; [exact Hf|]. unfold file_conflict in *. now rewrite G6. }
    rewrite X in EC. discriminate.
  Qed.
  Lemma check_reinstall_ok k ask w w' old : check_reinstall h o k ask w = (w', Ok old) ->
    w_sys w' = w_sys w /\ w_fs w' = w_fs w /\
    match old with
    | None => is_installed (y_inst (w_sys w)) (p_name (k_pkg k)) = false
    | Some (fl, info) => is_installed (y_inst (w_sys w)) (p_name (k_pkg k)) = true /\
        get_info (y_inst (w_sys w)) (p_name (k_pkg k)) = Ok info /\
        y_lists (w_sys w) !! (p_name (k_pkg k), i_version info, i_release info) = Some fl /\
        is_ok (get_package (y_db (w_sys w)) (p_name (k_pkg k)) RInst) = true
    end.
  Proof.
    intros H. pose proof (check_reinstall_untouched k ask w) as U. rewrite H in U. destruct U as (U1 & U2 & U3). cbn [fst] in *. split; [exact U1|]. split; [exact U2|].
    unfold check_reinstall in H. cbn zeta in H. apply bindM_ok in H as (w1 & inst & E1 & H). apply look_ok in E1 as [-> [= E1]]. unfold is_inst in E1. subst inst.
    destruct (is_installed (y_inst (w_sys w)) (p_name (k_pkg k))); [|injection H as _ <-; reflexivity].
    apply bindM_ok in H as (w2 & info & E2 & H). apply look_ok in E2 as [-> E2].
    apply bindM_ok in H as (w3 & v & E3 & H). injection E3 as <- E3.
    apply bindM_ok in H as (w4 & u4 & E4 & H).
    assert (S4 : w_sys w4 = w_sys w).
    { assert (K : keeps untouched (if negb ask then ret tt
           else match v with
                | VSame => let! yes := confirm h QReinstall in if yes : bool then ret tt else throw EError
                | VUpgrade | VDowngrade None => ret tt
                | VDowngrade (Some q) => let! yes := confirm h q in if yes : bool then ret tt else throw EError
                end)) by (kp; apply confirm_untouched).
      specialize (K w). rewrite E4 in K. apply K. }
    apply bindM_ok in H as (w5 & fl & E5 & H). apply look_ok in E5 as [-> E5]. rewrite S4 in E5.
    apply bindM_ok in H as (w6 & q & E6 & H). apply look_ok in E6 as [-> E6]. rewrite S4 in E6.
    apply bindM_ok in H as (w7 & u7 & E7 & H). injection H as _ <-. unfold stored_list in E5. rewrite E2 in E5. cbn [bind] in E5.
    destruct (y_lists (w_sys w) !! _) as [l|] eqn:EL; [|discriminate]. injection E5 as <-. split; [reflexivity|]. split; [exact E2|]. split; [reflexivity|]. now rewrite E6.
  Qed.
  Lemma install_package_ok k i ask w w' u : install_package h o k i ask w = (w', Ok u) ->
    exists s, noted (w_sys w) (k_pkg k) s /\ record_install s (k_pkg k) (k_files k) (negb (o_comar o)) = Ok (w_sys w') /\
    (o_ignore_dependency o = false -> pkg_installable (w_sys w) (k_pkg k) = Ok true) /\
    (i = false -> forall fi, In fi (k_files k) -> file_conflict o (w_sys w) (w_fs w) (k_pkg k) fi = false) /\
    (exists l, w_log w' = EvInstalled (p_name (k_pkg k)) :: l).
  Proof.
    unfold install_package. cbn zeta. intros H. apply bindM_ok in H as (w1 & u1 & E1 & H). apply check_relations_ok in E1 as (N & F1 & D & C).
    apply bindM_ok in H as (w2 & old & E2 & H). apply check_reinstall_ok in E2 as (S2 & F2 & O).
    apply bindM_ok in H as (w3 & u3 & E3 & H). pose proof (extract_install_fs k (option_map fst old) w2) as K3. rewrite E3 in K3. destruct K3 as (_ & S3 & _). cbn [fst] in S3.
    apply bindM_ok in H as (w4 & u4 & E4 & H). apply bindM_ok in H as (w5 & u5 & E5 & H).
    assert (S5 : w_sys w5 = w_sys w4).
    { destruct (o_comar o); [|now injection E5 as <- _]. pose proof (hook_sys (EvPostInstall (p_name (k_pkg k))) (p_name (k_pkg k)) w4) as K. rewrite E5 in K. apply K. }
    apply bindM_ok in H as (w6 & u6 & E6 & H). apply commit_ok in E6 as (s6 & E6 & ->). injection H as <- _. cbn [w_sys w_log].
    exists (w_sys w1). split; [exact N|]. split; [|split; [exact D|split; [exact C|eauto]]].
    rewrite S5 in E6. unfold store_pisi_files in E4. cbn zeta in E4. apply bindM_ok in E4 as (w4a & u4a & E4a & E4). apply commit_ok in E4 as (s4 & [= <-] & ->). cbn [w_sys] in E6.
    unfold record_install. destruct old as [[fl info]|].
    - destruct O as (O1 & O2 & O3 & O4). rewrite O1, O2. cbn [bind]. unfold list_of. rewrite O2. cbn [bind]. rewrite O3. cbn [default].
      destruct (get_package (y_db (w_sys w1)) (p_name (k_pkg k)) RInst) as [q|] eqn:EG; [|discriminate]. cbn [bind].
      apply commit_ok in E4a as (s4 & [= <-] & ->). cbn [w_sys set_lists y_lists] in E6. rewrite S3, S2 in E6. exact E6.
    - rewrite O. cbn zeta. injection E4a as <- _. rewrite S3, S2 in E6. exact E6.
  Qed.
  Lemma noted_system s p s' : system s -> noted s p s' -> system s'.
  Proof.
    intros S [[_ ->]|(_ & d & E & ->)]; [exact S|]. eapply lived_step with (o := YRepo (OThirdParty p)); [exact S| |exact I|].
    - intros d' [= <-]. exact I.
    - cbn [apply_yop apply_op]. rewrite E. reflexivity.
  Qed.
  Lemma install_system k i ask w w' u : system (w_sys w) -> install_package h o k i ask w = (w', Ok u) -> system (w_sys w').
  Proof.
    intros S H. apply install_package_ok in H as (s & N & R & _). eapply lived_step with (o := YInstall (k_pkg k) (k_files k) (negb (o_comar o))); [eapply noted_system; eauto|discriminate|exact I|exact R].
  Qed.
End install_one.
