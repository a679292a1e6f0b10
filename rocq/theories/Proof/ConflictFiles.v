(** * C18: conflicts of package files *)
From Coq Require Import String List ZArith Lia.
From stdpp Require Import gmap strings relations.
From Verif Require Import Model.Py Model.ItemByRepo Model.Dependency Model.Package Model.ComponentDB Model.Databases
  Model.InstallDB Model.System Model.Graph
  Spec.VersionSpec Spec.DependencySpec Spec.ItemByRepoSpec Spec.DatabaseSpec Spec.SystemSpec Spec.GraphSpec
  Proof.PyFacts Proof.DependencyFacts Proof.ItemByRepoFacts Proof.ItemByRepoMain Proof.DatabaseFacts Proof.InstallDBFacts Proof.SystemFacts Proof.GraphFacts
  Model.Plan Spec.PlanSpec Proof.PlanFacts Proof.PlanTop
  Model.Path Model.Fs Model.Ops Spec.PathSpec Spec.FsSpec Spec.OpsSpec Spec.PkgFilesSpec Proof.OpsFacts Proof.OpsTop Proof.OpsSteps Proof.Reinstall Proof.Conflicts Proof.Shop Proof.Consent Proof.PkgFiles.
Open Scope string_scope.
Open Scope list_scope.

Section files.
  Context (h : host) (o : opts) (F : fair h).
  Lemma loop_shop order : forall w w' u, eachM (fun x => install_single_name h o x true) order w = (w', Ok u) -> keeps_shop w w'.
  Proof.
    induction order as [|x order IH]; intros w w' u H; [injection H as <- _; reflexivity|].
    cbn [eachM] in H. apply bindM_ok in H as (w1 & u1 & E & H). unfold install_single_name in E. apply bindM_ok in E as (w0 & k & E0 & E). apply look_ok in E0 as [-> E0].
    etransitivity; [exact (install_package_shop _ _ _ _ _ _ _ _ E)|]. eapply IH. exact H.
  Qed.
  Lemma names_shop A re w w' b : o_ignore_dependency o = false -> install_pkg_names h o A re w = (w', Ok b) -> keeps_shop w w'.
  Proof.
    intros ND H. unfold install_pkg_names in H.
    apply bindM_ok in H as (w0 & A0 & E & H). apply look_ok in E as [-> E]. apply bindM_ok in H as (w0 & A1 & E1 & H). apply look_ok in E1 as [-> E1]. cbn zeta in H.
    destruct (bool_decide (A1 = ∅)); [injection H as <- _; reflexivity|].
    apply bindM_ok in H as (w1 & base & EB & H). pose proof (upgrade_base_shop h o A1 w) as K1. rewrite EB in K1. cbn [fst] in K1.
    rewrite ND in H. apply bindM_ok in H as (w2 & order & EP & H). match type of EP with plan_install_pkg_names _ _ ?X _ = _ => pose proof (plan_install_shop h o X w1) as K2 end. rewrite EP in K2. cbn [fst] in K2.
    apply bindM_ok in H as (w3 & u3 & ES & H). apply look_ok in ES as [-> ES].
    etransitivity; [exact K1|]. etransitivity; [exact K2|].
    destruct (o_dry_run o) eqn:DR; [injection H as <- _; reflexivity|].
    apply bindM_ok in H as (w4 & go' & EA & H).
    assert (K4 : keeps_shop w2 w4).
    { destruct (bool_decide (size (if bool_decide (A1 <> A0) then A0 else A1 ∪ base) < length order)%nat).
      - pose proof (confirm_shop h QInstallExtra w2) as L. rewrite EA in L. exact L.
      - injection EA as <- _. reflexivity. }
    etransitivity; [exact K4|]. destruct go'; cbn [negb] in H; [|injection H as <- _; reflexivity].
    apply bindM_ok in H as (w5 & hp & EH & H). apply look_ok in EH as [-> EH]. apply bindM_ok in H as (w6 & u6 & EI & H).
    etransitivity; [eapply loop_shop; exact EI|].
    apply bindM_ok in H as (w7 & u7 & E7 & H). injection H as <- _. destruct (str_in "pisi" order && hp); [discriminate E7|injection E7 as <- _; reflexivity].
  Qed.
  Lemma extras_shop extra w w' u : o_ignore_dependency o = false -> extras h o extra w = (w', Ok u) -> keeps_shop w w'.
  Proof.
    intros ND H. unfold extras in H. destruct extra as [|x extra]; [injection H as <- _; reflexivity|].
    apply bindM_ok in H as (w0 & yes & E & H). pose proof (confirm_shop h QFileExtra w) as L. rewrite E in L. cbn [fst] in L. etransitivity; [exact L|].
    destruct yes; [|discriminate]. apply bindM_ok in H as (w1 & b & E1 & H). injection H as <- _. eapply names_shop; eassumption.
  Qed.
  Lemma named_or uris x : (exists k, holds h uris x k) \/ forall u k, In u uris -> h_open h u = Ok k -> p_name (k_pkg k) <> x.
  Proof.
    induction uris as [|u uris [[k (pre & v & post & -> & K)]|N]]; [right; intros ? ? []|left; exists k, (u :: pre), v, post; auto|].
    destruct (h_open h u) as [k|e] eqn:O; [|right; intros v k [<-|I] Q; [congruence|eauto]].
    destruct (decide (p_name (k_pkg k) = x)) as [E|E]; [left; exists k, [], u, uris; auto|right; intros v k' [<-|I] Q; [congruence|eauto]].
  Qed.
  Lemma named_one uris x : named_by_file h uris x -> exists k, holds h uris x k.
  Proof. intros (u & k & I & O & E). destruct (named_or uris x) as [K|K]; [exact K|destruct (K u k I O E)]. Qed.

  Lemma files_unconflicted uris w w' u : system (w_sys w) -> o_ignore_file_conflicts o = false -> o_ignore_dependency o = false -> o_dry_run o = false ->
    install_pkg_files h o uris w = (w', Ok u) -> forall x y, named_by_file h uris x -> declares (w_sys w') x y -> has_pkg (w_sys w') y ->
      has_component (db_comp (y_db (w_sys w))) y RRepos = Ok true \/ (o_bypass_safety o = false /\ in_base (w_sys w) y).
  Proof.
    intros S NF NI ND H x y Nx (p & Px & Hy) (q & Py). destruct (files_shape h o F _ _ _ _ NI ND H) as [(_ & e & X)|(a & b & extra & R & U & [(e & _ & X)|(w1 & [] & E & Z)])]; [discriminate|discriminate|].
    destruct Z as [(_ & e & X)|(order & get & (O1 & O2 & O3) & P & G & [(e & _ & _ & X)|(w2 & C & L)])]; [discriminate|discriminate|].
    destruct C as [[X _]|([] & _ & C)]; [congruence|].
    destruct (extras_tracks h o extra w S) as [_ S1]. rewrite E in S1. specialize (S1 tt eq_refl). cbn [fst] in S1.
    pose proof (extras_shop _ _ _ _ NI E) as K.
    destruct (check_conflicts_tracks h o get (rev order) w1 S1) as [_ S2]. rewrite C in S2. specialize (S2 tt eq_refl). cbn [fst] in S2.
    destruct (files_loop h o uris b order P (fun x Hx => proj1 (O2 x) Hx) O1 _ _ _ S2 L) as (done & rest & w3 & new & Ed & S3 & L3 & I3 & A3 & -> & ->).
    rewrite app_nil_r in Ed. subst done. destruct (check_conflicts_ok h o F _ _ _ _ _ S1 C) as (_ & M & B & D).
    destruct (named_one _ _ Nx) as [k Hk]. assert (Ix : In x order) by (apply O2; eauto).
    assert (Ep : p = k_pkg k). { apply A3 in Px as [(_ & k' & K1 & <-)|[K1 _]]; [f_equal; eapply holds_one; eassumption|contradiction]. } subst p.
    pose proof (G (w_sys w1) x k Hk) as Gx. assert (Ix' : In x (rev order)) by now apply -> in_rev.
    apply A3 in Py as [(Iy & _)|[Iy P2]]; [exfalso; refine (M x _ y Ix' Gx Hy _); now apply -> in_rev|].
    pose proof (yi_reach _ (lived_yinv _ _ S)) as R0. pose proof (yi_reach _ (lived_yinv _ _ S1)) as R1.
    destruct (has_component (db_comp (y_db (w_sys w))) y RRepos) as [[|]|e] eqn:HC; [now left| |].
    - right. destruct (o_bypass_safety o) eqn:BY.
      + exfalso. refine (D x _ y Ix' Gx Hy ND _ _ q P2); [now rewrite (shop_has_component _ _ K _ R0 R1)|discriminate].
      + split; [reflexivity|]. destruct (classic_base w y) as [X|X]; [exact S|exact X|]. exfalso. refine (D x _ y Ix' Gx Hy ND _ _ q P2).
        * rewrite (shop_has_component _ _ K _ R0 R1). exact HC.
        * intros _ X'. apply X. now apply (shop_base _ _ y K R0 R1).
    - unfold has_component, has_key in HC. discriminate HC.
  Qed.
End files.
