(** * Asking before touching other packages *)
From Coq Require Import String List ZArith Lia.
From stdpp Require Import gmap strings relations.
From Verif Require Import Proof.GraphFacts.
From Verif Require Import Model.Py Model.ItemByRepo Model.Dependency Model.Package Model.ComponentDB Model.Databases
  Model.InstallDB Model.System Model.Graph Model.Plan Model.Path Model.Fs Model.Ops
  Spec.VersionSpec Spec.ItemByRepoSpec Spec.DependencySpec Spec.DatabaseSpec Spec.SystemSpec Spec.GraphSpec Spec.PlanSpec Spec.PathSpec Spec.FsSpec Spec.OpsSpec
  Proof.DatabaseFacts Proof.ComponentFacts Proof.InstallDBFacts Proof.SystemFacts Proof.PlanFacts Proof.UpgradeFacts Proof.PlanTop
  Proof.OpsFacts Proof.OpsTop Proof.OpsSteps Proof.Reinstall Proof.Shop Proof.Conflicts.
Open Scope string_scope.

Lemma bindM_any {A B} (m : M A) (k : A -> M B) w w' r : bindM m k w = (w', r) ->
  exists w1, (exists e, m w = (w1, Err e) /\ w' = w1 /\ r = Err e) \/ (exists a, m w = (w1, Ok a) /\ k a w1 = (w', r)).
Proof.
  unfold bindM. destruct (m w) as [w1 [a|e]]; intros H; exists w1; [right; eauto|left]. injection H as <- <-. eauto.
Qed.
Lemma happens_log P w w' e : logs P w w' -> happens w w' e -> P e.
Proof.
  intros (new & E & F) (new' & E' & I). rewrite E in E'. apply app_inv_tail in E'. subst. rewrite List.Forall_forall in F. now apply F.
Qed.
Definition never (act : event -> Prop) (e : event) : Prop := ~ act e.
Lemma agreed_split act q P w w1 w2 w' : logs (never act) w w1 -> w_log w2 = EvAsked q true :: w_log w1 -> logs P w2 w' -> agreed_first w w' q act.
Proof.
  intros (old & E & N) E2 (new & E' & _). exists new, old. split; [now rewrite E', E2, E|]. intros e He. rewrite List.Forall_forall in N. now apply N.
Qed.

(** ** A question that guards some events *)
Definition guarded (q : question) (act : event -> Prop) (w w' : world) : Prop :=
  logs (never act) w w' \/ agreed_first w w' q act.
Lemma guarded_grows q act w w' : guarded q act w w' -> exists new, w_log w' = (new ++ w_log w)%list.
Proof.
  intros [(new & E & _)|(new & old & E & _)]; [eauto|]. exists (new ++ EvAsked q true :: old)%list. rewrite E. now rewrite <- app_assoc.
Qed.
Global Instance guarded_pre q act : PreOrder (guarded q act).
Proof.
  split; [intros w; left; reflexivity|]. intros a b c [A|A] B.
  - destruct B as [B|(new & old & E & N)]; [left; etransitivity; eassumption|]. right. destruct A as (n & EA & FA). exists new, (old ++ n)%list.
    split; [now rewrite E, EA, <- !app_assoc|]. rewrite List.Forall_forall in FA. intros e He. apply in_app_or in He as [He|He]; [now apply N|now apply FA].
  - right. destruct (guarded_grows _ _ _ _ B) as [n En]. destruct A as (new & old & E & N). exists (n ++ new)%list, old. split; [now rewrite En, E, <- app_assoc|exact N].
Qed.
Lemma guarded_log q act w w' e : guarded q act w w' -> happens w w' e -> act e -> agreed_first w w' q act.
Proof. intros [L|A] H K; [|exact A]. destruct (happens_log _ _ _ _ L H K). Qed.

Section guarding.
  Context (h : host) (o : opts).
  Notation G := (guarded QConflicts a_removal).
  Lemma guard_commit f : keeps G (commit f). Proof. intros w. left. apply logs_commit. Qed.
  Lemma guard_touch f : keeps G (touch f). Proof. intros w. left. apply logs_touch. Qed.
  Lemma guard_one e w : ~ a_removal e -> G w (mkWorld (w_sys w) (w_fs w) (w_past w) (e :: w_log w)).
  Proof. intros H. left. exists [e]. split; [reflexivity|]. constructor; [exact H|constructor]. Qed.
  Lemma guard_hook e n : ~ a_removal e -> keeps G (hook h e n).
  Proof. intros N w. unfold hook. destruct (h_hook h (w_log w) n); cbn [fst]; now apply guard_one. Qed.
  Lemma guard_confirm q : keeps G (confirm h q).
  Proof. intros w. unfold confirm. cbn [fst]. apply guard_one. intros (x & [=]). Qed.
  Lemma guard_note n : keeps G (note (EvInstalled n)).
  Proof. intros w. unfold note. cbn [fst]. apply guard_one. intros (x & [=]). Qed.
  Lemma guard_check_conflicts get order : keeps G (check_conflicts h o get order).
  Proof.
    intros w. destruct (check_conflicts h o get order w) as [w' r] eqn:E. cbn [fst]. unfold check_conflicts in E.
    apply bindM_any in E as (w1 & [(e & E & -> & _)|([C D] & E & H)]); [left; injection E as <- _; reflexivity|]. apply look_ok in E as [-> _]. cbn [fst snd] in H.
    destruct (bool_decide (D = ∅)); cbn [negb] in H; [|injection H as <- _; left; reflexivity].
    destruct (bool_decide (C = ∅)); [injection H as <- _; left; reflexivity|].
    apply bindM_any in H as (w2 & [(e & E2 & _)|(b & E2 & H)]); [discriminate|]. injection E2 as <- E2. destruct b; cbn [negb] in H.
    - right. rewrite E2 in H. set (w2 := mkWorld _ _ _ _) in H. pose proof (remove_logs h o (fun _ => False) (h_list h C) true w2) as L.
      apply bindM_any in H as (w3 & [(e & E3 & -> & _)|(b & E3 & H)]); rewrite E3 in L; cbn [fst] in L.
      + exact (agreed_split _ _ _ w w w2 _ (reflexivity w) eq_refl L).
      + replace w' with w3 by (destruct b; injection H as <- _; reflexivity). exact (agreed_split _ _ _ w w w2 _ (reflexivity w) eq_refl L).
    - injection H as <- _. apply guard_one. intros (x & [=]).
  Qed.
  Lemma guard_plan_install A : keeps G (plan_install_pkg_names h o A).
  Proof. unfold plan_install_pkg_names. kp. apply guard_check_conflicts. Qed.
  Lemma guard_plan_upgrade A : keeps G (plan_upgrade_pkg_names h o A).
  Proof. unfold plan_upgrade_pkg_names. kp. apply guard_check_conflicts. Qed.
  Lemma guard_upgrade_base A : keeps G (upgrade_base h o A).
  Proof. unfold upgrade_base. kp; try apply guard_plan_install; apply guard_plan_upgrade. Qed.
  Lemma guard_extract k old : keeps G (extract_install h o k old).
  Proof. intros w. left. apply logs_same. apply extract_install_fs. Qed.
  Lemma guard_install_package k i ask : keeps G (install_package h o k i ask).
  Proof.
    unfold install_package, check_relations, check_reinstall, store_pisi_files, run_preremove.
    kp; try apply guard_extract; try apply guard_commit; try apply guard_confirm; try apply guard_note; (apply guard_hook; intros (x & [=])).
  Qed.
  Lemma guard_install_names A re : keeps G (install_pkg_names h o A re).
  Proof. unfold install_pkg_names, install_single_name, upgrade_pisi. kp; try apply guard_upgrade_base; try apply guard_plan_install; try apply guard_confirm; apply guard_install_package. Qed.
  Lemma guard_upgrade A : keeps G (upgrade_pkg_names h o A).
  Proof. unfold upgrade_pkg_names, upgrade_pisi. kp; try apply guard_upgrade_base; try apply guard_plan_upgrade; try apply guard_confirm; apply guard_install_package. Qed.
  Lemma guard_install_files A : keeps G (install_pkg_files h o A).
  Proof. unfold install_pkg_files, install_single_file. kp; try apply guard_install_names; try apply guard_check_conflicts; try apply guard_confirm; apply guard_install_package. Qed.
  Lemma guard_install A re : keeps G (install h o A re).
  Proof. unfold install. kp; [apply guard_install_files|apply guard_install_names]. Qed.
End guarding.

(** ** Removing *)
Lemma one_more (A0 : gset string) (order : list string) y : (forall x, x ∈ A0 -> In x order) -> In y order -> y ∉ A0 -> (size A0 < length order)%nat.
Proof.
  intros H Hy N. apply (Nat.lt_le_trans _ (size (A0 ∪ {[y]}))); [rewrite size_union, size_singleton; [lia|set_solver]|].
  transitivity (size (list_to_set order : gset string)).
  - apply subseteq_size. intros x Hx. apply elem_of_list_to_set, elem_of_list_In. apply elem_of_union in Hx as [Hx|Hx]; [now apply H|]. apply elem_of_singleton in Hx as ->. exact Hy.
  - clear. induction order as [|x l IH]; [reflexivity|]. cbn [list_to_set length]. rewrite size_union_alt, size_singleton. transitivity (1 + size (list_to_set l : gset string))%nat; [|lia]. apply le_n_S, subseteq_size. set_solver.
Qed.

Section remove.
  Context (h : host) (o : opts) (F : fair h).
  Lemma remove_consent A ig w w' r : system (w_sys w) ->
    (forall x, requested (w_sys w) A x -> is_installed (y_inst (w_sys w)) x = true /\ (o_bypass_safety o = false -> ~ in_base (w_sys w) x)) ->
    remove h o A ig w = (w', r) -> forall y p, present (w_sys w) y p -> ~ present (w_sys w') y p -> ~ requested (w_sys w) A y ->
    agreed_first w w' QRemoveExtra a_removal /\ h_answer h (w_log w) QRemoveExtra = true.
  Proof.
    intros S HR H y p P1 P2 NR. pose proof (lived_yinv _ _ S) as Y. destruct (remove_request_spec o (w_sys w) A (yi_reach _ Y)) as (A0 & A1 & EQ & HA0 & HA).
    destruct (remove_cases _ _ _ _ _ _ _ H) as [[(E & _) _]|(A0' & A1' & order & w1 & r1 & ED & EQ' & Ne & HO & (U & _) & Q & EL & Er)]; [rewrite E in P2; contradiction|].
    rewrite EQ in EQ'. injection EQ' as <- <-.
    pose proof (remove_loop_drops h o order order (fun x Hx => Hx) w1) as DR. rewrite EL in DR. cbn [fst] in DR. rewrite U in DR.
    destruct (in_dec string_dec y order) as [I|I]; [|destruct P2; eapply drops_keep; eauto].
    destruct (remove_order_in h o F _ _ _ _ S HO) as (_ & _ & K).
    assert (L : (size A0 < length order)%nat). { apply (one_more _ _ y); [|exact I|now rewrite HA0]. intros x Hx. apply K, HA. apply HA0 in Hx. split; [exact Hx|now apply HR]. }
    destruct Q as [(_ & Q1 & Q2)|[Q _]]; [|lia]. split; [|exact Q1]. apply (agreed_split _ _ (only_installs (fun _ => False)) w w w1); [reflexivity|exact Q2|].
    pose proof (keeps_each (logs (only_installs (fun _ => False))) (fun x => let! inst := look (fun s => Ok (is_inst s x)) in if inst : bool then remove_single h o x else ret tt) order) as KL.
    fold (remove_loop h o order) in KL. specialize (KL (fun x _ => ltac:(cbv beta; kp; apply remove_single_logs)) w1). rewrite EL in KL. exact KL.
  Qed.
End remove.

(** ** system.base *)
Section base.
  Context (h : host) (o : opts) (F : fair h).
  Lemma filter_res_in p l m x : filter_res p l = Ok m -> In x m -> In x l /\ p x = Ok true.
  Proof.
    unfold filter_res. assert (G : forall l acc m, foldM (fun acc x => b <- p x ;; Ok (if b : bool then acc ++ [x] else acc)%list) l acc = Ok m -> In x m -> In x acc \/ (In x l /\ p x = Ok true)).
    { clear. induction l as [|y l IH]; intros acc m H I; [injection H as <-; auto|]. cbn [foldM] in H. destruct (p y) as [b|e] eqn:E; [|discriminate]. cbn [bind] in H.
      destruct (IH _ _ H I) as [K|[K1 K2]]; [|right; split; [now right|exact K2]]. destruct b; [|now left]. apply in_app_or in K as [K|[<-|[]]]; [now left|right; split; [now left|exact E]]. }
    intros H I. destruct (G _ _ _ H I) as [[]|K]; exact K.
  Qed.
  Lemma nothing_planned w w1 order : system (w_sys w) -> plan_install_pkg_names h o [] w = (w1, Ok order) -> order = [] /\ untouched w w1.
  Proof.
    intros S H. unfold plan_install_pkg_names in H. apply bindM_ok in H as (w0 & [g l] & E & H). apply look_ok in E as [-> E]. cbn [snd] in H.
    destruct (install_ok _ _ _ _ _ S (proj1 F) (NoDup_nil_2) E) as (_ & K & _). assert (l = []) as ->.
    { destruct l as [|x l]; [reflexivity|]. destruct (proj1 (K x) (or_introl eq_refl)) as (a & [] & _). }
    apply bindM_ok in H as (w2 & u & E2 & H). injection H as <- <-. split; [reflexivity|]. destruct (o_ignore_file_conflicts o); injection E2 as <- _; reflexivity.
  Qed.
  Lemma base_nothing A w w1 base : system (w_sys w) -> base_current o (w_sys w) -> upgrade_base h o A w = (w1, Ok base) -> base = ∅ /\ untouched w w1.
  Proof.
    intros S B H. unfold upgrade_base in H. destruct (o_bypass_safety o) eqn:BY; [injection H as <- <-; split; reflexivity|].
    destruct B as [B|B]; [congruence|]. apply bindM_ok in H as (w0 & base0 & E & H). apply look_ok in E as [-> E].
    pose proof (system_base_spec (w_sys w) (yi_reach _ (lived_yinv _ _ S))) as HB. rewrite E in HB. destruct base0 as [B0|]; [|injection H as <- <-; split; reflexivity].
    apply bindM_ok in H as (w0 & extra & E1 & H). apply look_ok in E1 as [-> E1]. assert (extra = []) as ->.
    { injection E1 as <-. destruct (List.filter _ _) as [|x l] eqn:EF; [reflexivity|]. assert (I : In x (List.filter (fun x => negb (is_inst (w_sys w) x)) (h_list h (B0 ∖ A)))) by (rewrite EF; now left).
      apply filter_In in I as [I1 I2]. apply (proj2 F) in I1. apply elem_of_difference in I1 as [I1 _]. apply HB, B in I1 as [I1 _]. unfold is_inst in I2. rewrite I1 in I2. discriminate. }
    apply bindM_ok in H as (w2 & io & E2 & H). destruct (nothing_planned _ _ _ S E2) as [-> U]. apply bindM_ok in H as (w3 & ups & E3 & H). apply look_ok in E3 as [-> E3].
    assert (ups = []) as ->.
    { destruct ups as [|x l]; [reflexivity|]. destruct (filter_res_in _ _ _ x E3 (or_introl eq_refl)) as [I1 I2]. apply (proj2 F) in I1. apply elem_of_difference in I1 as [I1 _].
      apply HB, B in I1 as [_ I1]. destruct U as (U & _). rewrite U in I2. pose proof (is_upgradable_spec (w_sys w) x (o_ignore_build o) S) as K. rewrite I2 in K. destruct I1. now apply K. }
    apply bindM_ok in H as (w4 & uo & E4 & H). injection E4 as <- <-. injection H as <- <-. split; [reflexivity|exact U].
  Qed.
End base.

(** ** Installing by name *)
Definition none_installed := only_installs (fun _ => False).
Lemma none_never e : none_installed e -> ~ an_installation e.
Proof. intros N (n & ->). exact (N n eq_refl). Qed.
Lemma any_log P w w' : logs P w w' -> logs (fun _ => True) w w'.
Proof. apply logs_mono. auto. Qed.

Section install.
  Context (h : host) (o : opts) (F : fair h) (HN : honest h).
  Notation NI := (logs none_installed).

  Lemma names_loop_logs order : forall w, system (w_sys w) ->
    logs (only_installs (fun x => In x order)) w (eachM (fun x => install_single_name h o x true) order w).1.
  Proof.
    induction order as [|x order IH]; intros w S; [reflexivity|]. cbn [eachM]. destruct (bindM _ _ w) as [w' r] eqn:E. cbn [fst].
    assert (X : forall w1 r1, install_single_name h o x true w = (w1, r1) -> logs (only_installs (fun z => In z (x :: order))) w w1 /\ (forall u, r1 = Ok u -> system (w_sys w1))).
    { intros w1 r1 H. unfold install_single_name in H. apply bindM_any in H as (w0 & [(e & H & -> & ->)|(k & H & H1)]).
      - injection H as <- _. split; [reflexivity|discriminate].
      - apply look_ok in H as [-> H]. destruct (from_name_ok h HN _ _ _ S H) as [_ N]. split.
        + pose proof (install_package_logs h o (fun z => In z (x :: order)) k (o_ignore_file_conflicts o) (negb true)) as L. rewrite N in L. specialize (L (or_introl eq_refl) w). rewrite H1 in L. exact L.
        + intros u ->. exact (install_system _ _ _ _ _ _ _ _ S H1). }
    apply bindM_any in E as (w1 & [(e & E & -> & ->)|(u & E & H)]); [apply (X _ _ E)|]. destruct (X _ _ E) as [X1 X2]. specialize (X2 u eq_refl).
    etransitivity; [exact X1|]. specialize (IH w1 X2). rewrite H in IH. eapply logs_mono; [|exact IH]. intros e Q z Hz. right. now apply Q.
  Qed.

  Definition planned (A2 : gset string) (w1 w2 : world) (order : list string) : Prop :=
    (o_ignore_dependency o = true /\ order = h_list h A2 /\ w2 = w1) \/
    (o_ignore_dependency o = false /\ plan_install_pkg_names h o (h_list h A2) w1 = (w2, Ok order)).
  Definition counted (q : question) (n : nat) (order : list string) (w w1 : world) : Prop :=
    ((n < length order)%nat /\ h_answer h (w_log w) q = true /\ w1 = mkWorld (w_sys w) (w_fs w) (w_past w) (EvAsked q true :: w_log w)) \/
    ((length order <= n)%nat /\ w1 = w).
  Lemma counted_cases q n (order : list string) w w1 r : (if bool_decide (n < length order)%nat then confirm h q else ret true) w = (w1, r) ->
    (r = Ok true /\ counted q n order w w1) \/ (r = Ok false /\ (n < length order)%nat /\ h_answer h (w_log w) q = false /\ w1 = mkWorld (w_sys w) (w_fs w) (w_past w) (EvAsked q false :: w_log w)).
  Proof.
    case_bool_decide as L; intros H.
    - unfold confirm in H. injection H as <- <-. destruct (h_answer h (w_log w) q) eqn:E; [left; split; [reflexivity|left; auto]|right; auto].
    - injection H as <- <-. left. split; [reflexivity|]. right. split; [lia|reflexivity].
  Qed.

  Definition quiet (w w' : world) : Prop := NI w w' /\ (refuses h QConflicts -> untouched w w').
  Global Instance quiet_pre : PreOrder quiet.
  Proof.
    split; [intros w; split; [reflexivity|intros _; reflexivity]|]. intros a b c [A1 A2] [B1 B2]. split; [etransitivity; eassumption|]. intros R. etransitivity; eauto.
  Qed.
  Lemma quiet_confirm q : keeps quiet (confirm h q).
  Proof. intros w. split; [apply confirm_logs|intros _; apply confirm_untouched]. Qed.
  Lemma quiet_check get order : keeps quiet (check_conflicts h o get order).
  Proof. intros w. split; [apply check_conflicts_logs|]. intros R. now apply check_refused. Qed.
  Lemma quiet_plan_install A : keeps quiet (plan_install_pkg_names h o A).
  Proof. unfold plan_install_pkg_names. kp. apply quiet_check. Qed.
  Lemma quiet_plan_upgrade A : keeps quiet (plan_upgrade_pkg_names h o A).
  Proof. unfold plan_upgrade_pkg_names. kp. apply quiet_check. Qed.
  Lemma quiet_upgrade_base A : keeps quiet (upgrade_base h o A).
  Proof. unfold upgrade_base. kp; try apply quiet_plan_install; apply quiet_plan_upgrade. Qed.

  Lemma install_shape A re w w' r : system (w_sys w) -> install_pkg_names h o A re w = (w', r) ->
    quiet w w' \/
    exists A0 A1 base order w1 w2 w3, expand (w_sys w) A = Ok A0 /\ A1 = (if re then A0 else filter (fun x => is_inst (w_sys w) x = false) A0) /\
      upgrade_base h o A1 w = (w1, Ok base) /\ system (w_sys w1) /\ planned (A1 ∪ base) w1 w2 order /\ o_dry_run o = false /\
      counted QInstallExtra (size (if bool_decide (A1 <> A0) then A0 else A1 ∪ base)) order w2 w3 /\
      quiet w w2 /\ system (w_sys w2) /\ w' = (eachM (fun x => install_single_name h o x true) order w3).1.
  Proof.
    intros S H. unfold install_pkg_names in H.
    apply bindM_any in H as (w0 & [(e & E & -> & _)|(A0 & E0 & H)]); [injection E as <- _; left; reflexivity|]. apply look_ok in E0 as [-> E0].
    apply bindM_any in H as (w0 & [(e & E & -> & _)|(A1 & E1 & H)]); [injection E as <- _; left; reflexivity|]. apply look_ok in E1 as [-> E1]. cbn zeta in H. injection E1 as E1.
    destruct (bool_decide (A1 = ∅)); [injection H as <- _; left; reflexivity|].
    apply bindM_any in H as (w1 & [(e & E & -> & _)|(base & E2 & H)]); [left; pose proof (quiet_upgrade_base A1 w) as K; rewrite E in K; exact K|].
    pose proof (quiet_upgrade_base A1 w) as Q1. rewrite E2 in Q1. destruct (upgrade_base_tracks h o A1 w S) as [_ S1]. rewrite E2 in S1. cbn [fst snd] in *. specialize (S1 base eq_refl).
    apply bindM_any in H as (w2 & [(e & E & -> & _)|(order & E3 & H)]).
    { left. etransitivity; [exact Q1|]. destruct (o_ignore_dependency o); [discriminate|]. pose proof (quiet_plan_install (h_list h (A1 ∪ base)) w1) as K. rewrite E in K. exact K. }
    assert (P : planned (A1 ∪ base) w1 w2 order /\ quiet w w2 /\ system (w_sys w2)).
    { unfold planned. destruct (o_ignore_dependency o) eqn:ID.
      - injection E3 as <- <-. auto.
      - pose proof (quiet_plan_install (h_list h (A1 ∪ base)) w1) as K. destruct (plan_install_tracks h o (h_list h (A1 ∪ base)) w1 S1) as [_ S2]. rewrite E3 in K, S2. cbn [fst snd] in *. split; [auto|].
        split; [etransitivity; eassumption|]. exact (S2 _ eq_refl). }
    destruct P as (P & Q2 & S2).
    apply bindM_any in H as (w3' & [(e & E & -> & _)|(u3 & E4 & H)]); [injection E as <- _; left; exact Q2|]. apply look_ok in E4 as [-> _].
    destruct (o_dry_run o) eqn:DR; [injection H as <- _; left; exact Q2|].
    apply bindM_any in H as (w3 & [(e & E & -> & _)|(go & E5 & H)]).
    { apply counted_cases in E as [[[=] _]|[[=] _]]. }
    apply counted_cases in E5 as [[[= ->] C]|([= ->] & _ & _ & ->)]; cbn [negb] in H.
    2: { left. injection H as <- _. etransitivity; [exact Q2|]. split; [apply one_log; intros x [=]|intros _; repeat split]. }
    right. exists A0, A1, base, order, w1, w2, w3. repeat (split; [first [reflexivity|assumption|now symmetry]|]).
    apply bindM_any in H as (w4 & [(e & E & -> & _)|(hp & E6 & H)]); [discriminate|]. apply look_ok in E6 as [-> _].
    apply bindM_any in H as (w5 & [(e & E & -> & _)|(u & E7 & H)]); [now rewrite E|]. rewrite E7. cbn [fst].
    apply bindM_any in H as (w6 & [(e & E & -> & _)|(u6 & E8 & H)]); [|injection H as <- _]; destruct (str_in "pisi" order && hp); try discriminate; [now injection E as <- _|now injection E8 as <- _].
  Qed.

  Lemma planned_all A2 w1 w2 order : system (w_sys w1) -> planned A2 w1 w2 order -> forall x, x ∈ A2 -> In x order.
  Proof.
    intros S [(_ & -> & _)|[_ P]] x Hx; [now apply (proj2 F)|]. unfold plan_install_pkg_names in P. apply bindM_ok in P as (w0 & [g l] & E & P). apply look_ok in E as [-> E].
    apply bindM_ok in P as (w3 & u & _ & P). injection P as _ <-. cbn [snd].
    destruct (install_closed _ _ _ _ _ S (proj1 F) (proj1 (proj2 F A2)) E) as (_ & K & _). apply K. now apply (proj2 F).
  Qed.

  Lemma install_consent A re w w' r : system (w_sys w) -> base_current o (w_sys w) ->
    (re = false -> forall x, requested (w_sys w) A x -> is_installed (y_inst (w_sys w)) x = false) ->
    install_pkg_names h o A re w = (w', r) -> forall x, installed_now w w' x -> ~ requested (w_sys w) A x ->
    agreed_first w w' QInstallExtra an_installation.
  Proof.
    intros S B NI0 H x I NR. destruct (install_shape _ _ _ _ _ S H) as [[Q _]|(A0 & A1 & base & order & w1 & w2 & w3 & E0 & E1 & E2 & S1 & P & DR & C & Q & S2 & EW)].
    { destruct (logs_installed _ _ _ _ Q I). }
    destruct (base_nothing h o F _ _ _ _ S B E2) as [-> _]. destruct (expand_requested _ A (yi_reach _ (lived_yinv _ _ S))) as (R & ER & HR). rewrite E0 in ER. injection ER as <-.
    assert (A1 = A0) as ->.
    { destruct re; [exact E1|]. subst A1. apply set_eq. intros z. rewrite elem_of_filter. split; [tauto|]. intros Hz. split; [|exact Hz]. apply NI0; [reflexivity|now apply HR]. }
    rewrite bool_decide_eq_false_2 in C by (intros K; apply K; reflexivity). rewrite (right_id_L ∅ (∪)) in C, P.
    assert (S3 : system (w_sys w3)) by (destruct C as [(_ & _ & ->)|[_ ->]]; exact S2).
    pose proof (names_loop_logs order w3 S3) as L. rewrite <- EW in L.
    assert (Hx : In x order).
    { apply (logs_installed (fun z => In z order) w w'); [|exact I]. eapply later_log; [exact (proj1 Q)|]. etransitivity; [|exact L]. destruct C as [(_ & _ & ->)|[_ ->]]; [apply one_log; intros z [=]|reflexivity]. }
    assert (LT : (size A0 < length order)%nat) by (apply (one_more _ _ x); [exact (planned_all _ _ _ _ S1 P)|exact Hx|now rewrite HR]).
    destruct C as [(_ & _ & ->)|[C _]]; [|lia]. refine (agreed_split an_installation QInstallExtra _ w w2 _ w' _ _ L); [|reflexivity]. eapply logs_mono; [exact none_never|apply Q].
  Qed.

  Lemma install_keeps_names k i ask w w' r : system (w_sys w) -> install_package h o k i ask w = (w', r) -> forall y, has_pkg (w_sys w) y -> has_pkg (w_sys w') y.
  Proof.
    intros S H y [q K]. destruct r as [u|e].
    - destruct (decide (y = p_name (k_pkg k))) as [->|Ne]; [exists (k_pkg k)|exists q]; apply (install_present _ _ _ _ _ _ _ _ S H); auto.
    - exists q. apply (same_present _ _ _ _ (proj2 (install_crash _ _ _ _ _ _ _ _ H) e eq_refl)). exact K.
  Qed.
  Lemma names_loop_keeps order : forall w, system (w_sys w) -> forall y, has_pkg (w_sys w) y -> has_pkg (w_sys (eachM (fun x => install_single_name h o x true) order w).1) y.
  Proof.
    induction order as [|x order IH]; intros w S y K; [exact K|]. cbn [eachM]. destruct (bindM _ _ w) as [w' r] eqn:E. cbn [fst].
    assert (X : forall w1 r1, install_single_name h o x true w = (w1, r1) -> has_pkg (w_sys w1) y /\ (forall u, r1 = Ok u -> system (w_sys w1))).
    { intros w1 r1 H. unfold install_single_name in H. apply bindM_any in H as (w0 & [(e & H & -> & ->)|(k & H & H1)]).
      - injection H as <- _. split; [exact K|discriminate].
      - apply look_ok in H as [-> H]. split; [exact (install_keeps_names _ _ _ _ _ _ S H1 y K)|]. intros u ->. exact (install_system _ _ _ _ _ _ _ _ S H1). }
    apply bindM_any in E as (w1 & [(e & E & -> & ->)|(u & E & H)]); [apply (X _ _ E)|]. destruct (X _ _ E) as [X1 X2]. specialize (IH w1 (X2 u eq_refl) y X1). now rewrite H in IH.
  Qed.
  Lemma install_declined A re w w' r : refuses h QConflicts -> refuses h QInstallExtra -> system (w_sys w) -> base_current o (w_sys w) ->
    (re = false -> forall x, requested (w_sys w) A x -> is_installed (y_inst (w_sys w)) x = false) ->
    install_pkg_names h o A re w = (w', r) ->
    untouched w w' \/ ((forall y, has_pkg (w_sys w) y -> has_pkg (w_sys w') y) /\ forall x, installed_now w w' x -> requested (w_sys w) A x).
  Proof.
    intros R1 R2 S B NI0 H. destruct (install_shape _ _ _ _ _ S H) as [[_ Q]|(A0 & A1 & base & order & w1 & w2 & w3 & E0 & E1 & E2 & S1 & P & DR & C & Q & S2 & EW)]; [left; auto|].
    right. destruct (base_nothing h o F _ _ _ _ S B E2) as [-> _]. destruct (expand_requested _ A (yi_reach _ (lived_yinv _ _ S))) as (R & ER & HR). rewrite E0 in ER. injection ER as <-.
    assert (A1 = A0) as ->.
    { destruct re; [exact E1|]. subst A1. apply set_eq. intros z. rewrite elem_of_filter. split; [tauto|]. intros Hz. split; [|exact Hz]. apply NI0; [reflexivity|now apply HR]. }
    rewrite bool_decide_eq_false_2 in C by (intros K; apply K; reflexivity). rewrite (right_id_L ∅ (∪)) in C, P.
    destruct C as [(_ & C & _)|[LE ->]]; [now rewrite R2 in C|]. destruct Q as [Q1 Q2]. destruct (Q2 R1) as (Q2' & _). split.
    - intros y K. rewrite EW. apply names_loop_keeps; [exact S2|now rewrite Q2'].
    - intros x I. pose proof (names_loop_logs order w2 S2) as L. rewrite <- EW in L. assert (Hx : In x order) by (apply (logs_installed (fun z => In z order) w w'); [eapply later_log; eassumption|exact I]).
      destruct (decide (x ∈ A0)) as [K|K]; [now apply HR|]. pose proof (one_more _ _ x (planned_all _ _ _ _ S1 P) Hx K). lia.
  Qed.

  (** ** Upgrading *)
  Lemma due_upgradable s x b : system s -> due o s x = Ok b -> is_upgradable s x (o_ignore_build o) = Ok b.
  Proof.
    intros S. unfold due, is_upgradable, is_inst. destruct (is_installed (y_inst s) x); [|auto]. destruct (get_version (y_inst s) x) as [vrb|e]; [|discriminate]. cbn [bind].
    destruct (has_package (y_db s) x RRepos) as [c|e] eqn:HP; [|discriminate]. cbn [bind]. destruct c.
    - unfold get_repo. destruct (get_package (y_db s) x RRepos) as [p|e]; [|discriminate]. cbn [bind]. unfold Ops.given. destruct vrb.2 as [b1|], (p_build p) as [b2|]; cbn [negb default];
        rewrite ?orb_true_r; cbn [negb orb]; auto; destruct (o_ignore_build o); cbn [negb orb]; auto.
      destruct (Z.eqb b1 0); cbn [negb orb]; auto. destruct (Z.eqb b2 0); cbn [negb orb]; auto.
    - intros H. unfold get_repo. destruct (get_package (y_db s) x RRepos) as [p|e] eqn:G; [|exact H]. exfalso.
      pose proof (proj1 (system_agree (y_db s) x RRepos (yi_reach _ (lived_yinv _ _ S)))) as [K _]. rewrite HP, G in K. discriminate (proj2 K (ex_intro _ p eq_refl)).
  Qed.

  Definition planned_up (A2 : gset string) (w1 w2 : world) (order : list string) : Prop :=
    (o_ignore_dependency o = true /\ order = h_list h A2 /\ w2 = w1) \/
    (o_ignore_dependency o = false /\ plan_upgrade_pkg_names h o (h_list h A2) w1 = (w2, Ok order)).
  Lemma planned_up_all A2 w1 w2 order : system (w_sys w1) -> planned_up A2 w1 w2 order -> forall x, x ∈ A2 -> In x order.
  Proof.
    intros S [(_ & -> & _)|[_ P]] x Hx; [now apply (proj2 F)|]. unfold plan_upgrade_pkg_names in P. apply bindM_ok in P as (w0 & [g l] & E & P). apply look_ok in E as [-> E].
    apply bindM_ok in P as (w3 & u & _ & P). injection P as _ <-. cbn [snd].
    destruct (plan_upgrade_ok _ _ _ _ _ _ S (proj1 F) (proj1 (proj2 F A2)) E) as (_ & K & _). apply K. now apply (proj2 F).
  Qed.
  Definition wanted (s : sys) (A : list string) : list string := match A with [] => list_installed (y_inst s) | _ => A end.
  Lemma upgrade_shape A w w' r : system (w_sys w) -> upgrade_pkg_names h o A w = (w', r) ->
    quiet w w' \/
    exists A0 Ap base order w1 w2 w3 ks, expand (w_sys w) (wanted (w_sys w) A) = Ok A0 /\ filter_res (due o (w_sys w)) (h_list h A0) = Ok Ap /\
      upgrade_base h o (list_to_set Ap) w = (w1, Ok base) /\ system (w_sys w1) /\ planned_up (list_to_set Ap ∪ base) w1 w2 order /\ o_dry_run o = false /\
      counted QUpgradeExtra (size A0) order w2 w3 /\ quiet w w2 /\ system (w_sys w2) /\
      Forall2 (fun x k => from_name h (w_sys w3) x = Ok k) order ks /\ w' = (eachM (fun k => install_package h o k true true) ks w3).1.
  Proof.
    intros S H. unfold upgrade_pkg_names in H. fold (wanted (w_sys w) A) in H.
    apply bindM_any in H as (w0 & [(e & E & -> & _)|(A0 & E0 & H)]); [injection E as <- _; left; reflexivity|]. apply look_ok in E0 as [-> E0].
    apply bindM_any in H as (w0 & [(e & E & -> & _)|(Ap & E1 & H)]); [injection E as <- _; left; reflexivity|]. apply look_ok in E1 as [-> E1].
    destruct Ap as [|a Ap]; [injection H as <- _; left; reflexivity|]. set (As := list_to_set (a :: Ap) : gset string) in *. cbn zeta in H.
    apply bindM_any in H as (w1 & [(e & E & -> & _)|(base & E2 & H)]); [left; pose proof (quiet_upgrade_base As w) as K; rewrite E in K; exact K|].
    pose proof (quiet_upgrade_base As w) as Q1. rewrite E2 in Q1. destruct (upgrade_base_tracks h o As w S) as [_ S1]. rewrite E2 in S1. cbn [fst snd] in *. specialize (S1 base eq_refl).
    apply bindM_any in H as (w2 & [(e & E & -> & _)|(order & E3 & H)]).
    { left. etransitivity; [exact Q1|]. destruct (o_ignore_dependency o); [discriminate|]. pose proof (quiet_plan_upgrade (h_list h (As ∪ base)) w1) as K. rewrite E in K. exact K. }
    assert (P : planned_up (As ∪ base) w1 w2 order /\ quiet w w2 /\ system (w_sys w2)).
    { unfold planned_up. destruct (o_ignore_dependency o) eqn:ID.
      - injection E3 as <- <-. auto.
      - pose proof (quiet_plan_upgrade (h_list h (As ∪ base)) w1) as K. destruct (plan_upgrade_tracks h o (h_list h (As ∪ base)) w1 S1) as [_ S2]. rewrite E3 in K, S2. cbn [fst snd] in *. split; [auto|].
        split; [etransitivity; eassumption|]. exact (S2 _ eq_refl). }
    destruct P as (P & Q2 & S2).
    apply bindM_any in H as (w3' & [(e & E & -> & _)|(u3 & E4 & H)]); [injection E as <- _; left; exact Q2|]. apply look_ok in E4 as [-> _].
    destruct (o_dry_run o) eqn:DR; [injection H as <- _; left; exact Q2|].
    apply bindM_any in H as (w3 & [(e & E & -> & _)|(go & E5 & H)]).
    { apply counted_cases in E as [[[=] _]|[[=] _]]. }
    apply counted_cases in E5 as [[[= ->] C]|([= ->] & _ & _ & ->)]; cbn [negb] in H.
    2: { left. injection H as <- _. etransitivity; [exact Q2|]. split; [apply one_log; intros x [=]|intros _; repeat split]. }
    assert (Q3 : quiet w w3) by (etransitivity; [exact Q2|]; destruct C as [(_ & _ & ->)|[_ ->]]; [split; [apply one_log; intros x [=]|intros _; repeat split]|reflexivity]).
    apply bindM_any in H as (w4 & [(e & E & -> & _)|(ks & E6 & H)]).
    { left. assert (K : keeps quiet (mapMM (fun x => look (fun s => from_name h s x)) order)) by kp. specialize (K w3). rewrite E in K. etransitivity; eassumption. }
    apply (mapMM_look (from_name h)) in E6 as [-> E6].
    right. exists A0, (a :: Ap), base, order, w1, w2, w3, ks. repeat (split; [first [reflexivity|assumption|now symmetry]|]).
    apply bindM_any in H as (w5 & [(e & E & -> & _)|(u & E7 & H)]); [now rewrite E|]. rewrite E7. cbn [fst].
    apply bindM_any in H as (w6 & [(e & E & -> & _)|(u6 & E8 & H)]); [|injection H as <- _]; destruct (str_in "pisi" order); try discriminate; [now injection E as <- _|now injection E8 as <- _].
  Qed.
  Lemma upgrade_loop_logs order ks w : system (w_sys w) -> Forall2 (fun x k => from_name h (w_sys w) x = Ok k) order ks ->
    logs (only_installs (fun x => In x order)) w (eachM (fun k => install_package h o k true true) ks w).1.
  Proof.
    intros S E. apply (keeps_each (logs (only_installs (fun x => In x order)))). intros k Hk. apply install_package_logs.
    apply elem_of_list_In, elem_of_list_lookup in Hk as [i Hi]. destruct (Forall2_lookup_r _ _ _ _ _ E Hi) as (x & Hx & EX).
    destruct (from_name_ok h HN _ _ _ S EX) as [_ ->]. apply elem_of_list_In, elem_of_list_lookup. eauto.
  Qed.
  Lemma upgrade_loop_keeps ks : forall w, system (w_sys w) -> forall y, has_pkg (w_sys w) y -> has_pkg (w_sys (eachM (fun k => install_package h o k true true) ks w).1) y.
  Proof.
    induction ks as [|k ks IH]; intros w S y K; [exact K|]. cbn [eachM]. destruct (bindM _ _ w) as [w' r] eqn:E. cbn [fst].
    apply bindM_any in E as (w1 & [(e & E & -> & ->)|(u & E & H)]); pose proof (install_keeps_names _ _ _ _ _ _ S E y K) as K1; [exact K1|].
    specialize (IH w1 (install_system _ _ _ _ _ _ _ _ S E) y K1). now rewrite H in IH.
  Qed.
  Lemma all_due (A0 : gset string) Ap w : system (w_sys w) -> (forall x, x ∈ A0 -> upgrade_due (w_sys w) (o_ignore_build o) x) ->
    filter_res (due o (w_sys w)) (h_list h A0) = Ok Ap -> forall x, x ∈ A0 -> In x Ap.
  Proof.
    intros S U. assert (G : forall l acc m, (forall x, In x l -> x ∈ A0) -> foldM (fun acc x => b <- due o (w_sys w) x ;; Ok (if b : bool then acc ++ [x] else acc)%list) l acc = Ok m ->
      forall x, In x acc \/ In x l -> In x m).
    { clear -S U. induction l as [|y l IH]; intros acc m HL H x I; [injection H as <-; destruct I as [I|[]]; exact I|]. cbn [foldM] in H. destruct (due o (w_sys w) y) as [b|e] eqn:E; [|discriminate]. cbn [bind] in H.
      pose proof (is_upgradable_spec (w_sys w) y (o_ignore_build o) S) as K. rewrite (due_upgradable _ _ _ S E) in K. apply K in U; [|apply HL; now left]. subst b.
      apply (IH _ _ (fun z Hz => HL z (or_intror Hz)) H). rewrite in_app_iff. cbn [In]. destruct I as [I|[I|I]]; auto. }
    intros H x Hx. refine (G _ _ _ _ H x _); [intros z Hz; now apply (proj2 F)|]. right. now apply (proj2 F).
  Qed.
  Lemma upgrade_consent A w w' r : system (w_sys w) -> base_current o (w_sys w) -> (forall x, requested (w_sys w) (wanted (w_sys w) A) x -> upgrade_due (w_sys w) (o_ignore_build o) x) ->
    upgrade_pkg_names h o A w = (w', r) -> forall x, installed_now w w' x -> ~ requested (w_sys w) (wanted (w_sys w) A) x ->
    agreed_first w w' QUpgradeExtra an_installation.
  Proof.
    intros S B U H x I NR. destruct (upgrade_shape _ _ _ _ S H) as [[Q _]|(A0 & Ap & base & order & w1 & w2 & w3 & ks & E0 & E1 & E2 & S1 & P & DR & C & Q & S2 & EK & EW)].
    { destruct (logs_installed _ _ _ _ Q I). }
    destruct (base_nothing h o F _ _ _ _ S B E2) as [-> _]. destruct (expand_requested _ (wanted (w_sys w) A) (yi_reach _ (lived_yinv _ _ S))) as (R & ER & HR). rewrite E0 in ER. injection ER as <-.
    rewrite (right_id_L ∅ (∪)) in P.
    assert (S3 : system (w_sys w3)) by (destruct C as [(_ & _ & ->)|[_ ->]]; exact S2).
    pose proof (upgrade_loop_logs order ks w3 S3 EK) as L. rewrite <- EW in L.
    assert (Hx : In x order).
    { apply (logs_installed (fun z => In z order) w w'); [|exact I]. eapply later_log; [exact (proj1 Q)|]. etransitivity; [|exact L]. destruct C as [(_ & _ & ->)|[_ ->]]; [apply one_log; intros z [=]|reflexivity]. }
    assert (LT : (size A0 < length order)%nat).
    { apply (one_more _ _ x); [|exact Hx|now rewrite HR]. intros z Hz. apply (planned_up_all _ _ _ _ S1 P). apply elem_of_list_to_set, elem_of_list_In. refine (all_due _ _ _ S _ E1 z Hz). intros y Hy. apply U. now apply HR. }
    destruct C as [(_ & _ & ->)|[C _]]; [|lia]. refine (agreed_split an_installation QUpgradeExtra _ w w2 _ w' _ _ L); [|reflexivity]. eapply logs_mono; [exact none_never|apply Q].
  Qed.
  Lemma upgrade_declined A w w' r : refuses h QConflicts -> refuses h QUpgradeExtra -> system (w_sys w) -> base_current o (w_sys w) ->
    (forall x, requested (w_sys w) (wanted (w_sys w) A) x -> upgrade_due (w_sys w) (o_ignore_build o) x) ->
    upgrade_pkg_names h o A w = (w', r) ->
    untouched w w' \/ ((forall y, has_pkg (w_sys w) y -> has_pkg (w_sys w') y) /\ forall x, installed_now w w' x -> requested (w_sys w) (wanted (w_sys w) A) x).
  Proof.
    intros R1 R2 S B U H. destruct (upgrade_shape _ _ _ _ S H) as [[_ Q]|(A0 & Ap & base & order & w1 & w2 & w3 & ks & E0 & E1 & E2 & S1 & P & DR & C & Q & S2 & EK & EW)]; [left; auto|].
    right. destruct (base_nothing h o F _ _ _ _ S B E2) as [-> _]. destruct (expand_requested _ (wanted (w_sys w) A) (yi_reach _ (lived_yinv _ _ S))) as (R & ER & HR). rewrite E0 in ER. injection ER as <-.
    rewrite (right_id_L ∅ (∪)) in P. destruct C as [(_ & C & _)|[LE ->]]; [now rewrite R2 in C|]. destruct Q as [Q1 Q2]. destruct (Q2 R1) as (Q2' & _). split.
    - intros y K. rewrite EW. apply upgrade_loop_keeps; [exact S2|now rewrite Q2'].
    - intros x I. pose proof (upgrade_loop_logs order ks w2 S2 EK) as L. rewrite <- EW in L. assert (Hx : In x order) by (apply (logs_installed (fun z => In z order) w w'); [eapply later_log; eassumption|exact I]).
      destruct (decide (x ∈ A0)) as [K|K]; [now apply HR|]. enough (size A0 < length order)%nat by lia. apply (one_more _ _ x); [|exact Hx|exact K].
      intros z Hz. apply (planned_up_all _ _ _ _ S1 P). apply elem_of_list_to_set, elem_of_list_In. refine (all_due _ _ _ S _ E1 z Hz). intros y Hy. apply U. now apply HR.
  Qed.
End install.

(** ** Package files *)
Section files.
  Context (h : host) (o : opts) (uris : list string) (x : string) (NX : ~ named_by_file h uris x).
  Notation this := (fun e => e = EvInstalled x).
  Notation G := (guarded QFileExtra this).
  Lemma file_logs u b : In u uris -> keeps (logs (never this)) (install_single_file h o u b).
  Proof.
    intros Hu. unfold install_single_file. intros w. destruct (bindM _ _ w) as [w' r] eqn:E. cbn [fst]. apply bindM_any in E as (w1 & [(e & E & -> & _)|(k & E & H)]).
    - injection E as <- _. reflexivity.
    - injection E as <- E. pose proof (install_package_logs h o (fun z => z <> x) k (o_ignore_file_conflicts o) (negb b)) as L. specialize (L (fun N => NX (ex_intro _ u (ex_intro _ k (conj Hu (conj E N))))) w).
      rewrite H in L. eapply logs_mono; [|exact L]. intros e K ->. exact (K x eq_refl eq_refl).
  Qed.
  Lemma read_files_from l dd : read_files h l = Ok dd -> forall n u, dd.2 !! n = Some u -> In u l.
  Proof.
    unfold read_files. assert (Q : forall l (dd0 dd : gmap string pkgfile * gmap string string), foldM (fun dd x => k <- h_open h x ;; Ok (<[p_name (k_pkg k) := k]> dd.1, <[p_name (k_pkg k) := x]> dd.2)) l dd0 = Ok dd ->
      forall n u, dd.2 !! n = Some u -> dd0.2 !! n = Some u \/ In u l).
    { clear. induction l as [|y l IH]; intros dd0 dd H n u K; [injection H as <-; now left|]. cbn [foldM] in H. destruct (h_open h y) as [k|e]; [|discriminate]. cbn [bind] in H.
      destruct (IH _ _ H n u K) as [I|I]; [|right; now right]. cbn [snd] in I. destruct (decide (n = p_name (k_pkg k))) as [->|Ne].
      - rewrite lookup_insert in I. injection I as ->. right. now left.
      - rewrite lookup_insert_ne in I by auto. now left. }
    intros H n u K. destruct (Q _ _ _ H n u K) as [I|I]; [|exact I]. cbn [snd] in I. rewrite lookup_empty in I. discriminate.
  Qed.
  Lemma files_guarded : keeps G (install_pkg_files h o uris).
  Proof.
    unfold install_pkg_files. destruct (negb (forallb _ uris)); [kp|]. destruct (o_ignore_dependency o).
    { apply keeps_each; [typeclasses eauto|]. intros u Hu w. left. now apply file_logs. }
    intros w. destruct (bindM _ _ w) as [w' r] eqn:E. cbn [fst]. apply bindM_any in E as (w1 & [(e & E & -> & _)|(dd & E & H)]); [injection E as <- _; reflexivity|]. injection E as <- ED.
    revert H. match goal with |- ?m w = _ -> _ => assert (K : keeps G m); [|intros H; specialize (K w); now rewrite H in K] end.
    cbn zeta. apply keeps_bind; [typeclasses eauto|kp|]. intros extra. apply keeps_bind; [typeclasses eauto| |].
    - destruct extra as [|e0 extra]; [kp|]. clear w w' r ED. intros w. destruct (bindM _ _ w) as [w' r] eqn:E. cbn [fst]. apply bindM_any in E as (w1 & [(e & E & _)|(b & E & H)]); [discriminate|].
      injection E as <- E. destruct b; [|injection H as <- _; left; exists [EvAsked QFileExtra (h_answer h (w_log w) QFileExtra)]; split; [reflexivity|]; constructor; [intros [=]|constructor]].
      rewrite E in H. right. set (w2 := mkWorld _ _ _ _) in H. assert (K : keeps (logs (fun _ => True)) (do! install_pkg_names h o (e0 :: extra) false in ret tt)).
      { apply keeps_bind; [typeclasses eauto| |kp]. intros w3. destruct (guarded_grows _ _ _ _ (guard_install_names h o (e0 :: extra) false w3)) as [n En]. exists n. split; [exact En|]. apply List.Forall_forall. auto. }
      specialize (K w2). rewrite H in K. exact (agreed_split _ _ _ w w w2 w' (reflexivity w) eq_refl K).
    - intros _. destruct (map fst (map_to_list (file_dict dd.1))) as [|a l]; [kp|]. kp.
      + intros w0. left. eapply logs_mono; [|apply (check_conflicts_logs h o (fun _ => False))]. intros e N ->. exact (N x eq_refl).
      + match goal with H : dd.2 !! _ = Some ?u |- _ => intros w0; left; apply file_logs; exact (read_files_from _ _ ED _ _ H) end.
  Qed.
  Lemma files_consent w w' r : install_pkg_files h o uris w = (w', r) -> installed_now w w' x -> agreed_first w w' QFileExtra this.
  Proof. intros H I. pose proof (files_guarded w) as K. rewrite H in K. exact (guarded_log _ _ _ _ _ K I eq_refl). Qed.
End files.
