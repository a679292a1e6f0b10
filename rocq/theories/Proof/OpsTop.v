(** * Operations: the theorems *)
From Coq Require Import String Ascii ZArith List.
From stdpp Require Import gmap strings relations.
From Verif Require Import Proof.GraphFacts.
From Verif Require Import Model.Py Model.Version Model.ItemByRepo Model.Dependency Model.Package Model.ComponentDB Model.Databases
  Model.InstallDB Model.System Model.Graph Model.Plan Model.Path Model.Fs Model.Ops
  Spec.VersionSpec Spec.DependencySpec Spec.ItemByRepoSpec Spec.DatabaseSpec Spec.SystemSpec Spec.GraphSpec Spec.PlanSpec
  Spec.PathSpec Spec.FsSpec Spec.OpsSpec
  Proof.PyFacts Proof.ItemByRepoFacts Proof.DatabaseFacts Proof.RevDepFacts Proof.ComponentFacts Proof.InstallDBFacts Proof.SystemFacts
  Proof.PlanFacts Proof.UpgradeFacts Proof.PlanTop Proof.FsFacts Proof.OpsFacts.
Open Scope string_scope.

(** ** Who is present after installing *)
Lemma noted_same s p s' : noted s p s' -> same_records s s'.
Proof. intros [[_ ->]|(_ & d & E & ->)]; [apply same_records_refl|eapply add_third_records; exact E]. Qed.
Lemma same_present s s' n p : same_records s s' -> (present s' n p <-> present s n p).
Proof. intros (E1 & _ & E2). unfold present. now rewrite E1, (proj1 (E2 n)). Qed.
Lemma same_met s s' d : same_records s s' -> (met s' d <-> met s d).
Proof. intros E. unfold met. split; intros (p & K1 & K2); exists p; (split; [|exact K2]); now apply (same_present s s'). Qed.

Lemma record_install_present s p files later s' : yinv s -> record_install s p files later = Ok s' ->
  forall y q, present s' y q <-> (y = p_name p /\ q = p) \/ (y <> p_name p /\ present s y q).
Proof.
  intros Y H y q. destruct (record_install_facts _ _ _ _ _ Y H) as (Y' & Fr & IN & _).
  assert (D : exists d1, (d1 = y_db s \/ remove_tracking_package (y_db s) (p_name p) = Ok d1) /\ add_package d1 p RInst = Ok (y_db s')).
  { unfold record_install in H. destruct (is_installed (y_inst s) (p_name p)).
    - apply bind_ok in H as (info & _ & H). apply bind_ok in H as (old & _ & H). apply bind_ok in H as (pk & _ & H). cbn zeta in H.
      apply update_databases_split in H as (s1 & R & U). unfold remove_db in R. inv_ok R. injection R as <-. unfold update_databases in U. cbn [bind] in U.
      apply bind_ok in U as (i & _ & U). apply bind_ok in U as (d & A & [= <-]). cbn [y_db] in *. exists v0. split; [right; assumption|exact A].
    - cbn zeta in H. unfold update_databases in H. cbn [bind] in H. apply bind_ok in H as (i & _ & U). apply bind_ok in U as (d & A & [= <-]). cbn [y_db set_lists] in *. exists (y_db s). split; [now left|exact A]. }
  destruct D as (d1 & D1 & D2). unfold present. rewrite !get_package_place by apply place_inst.
  rewrite (add_package_entries _ _ _ _ place_inst D2) by apply place_inst.
  destruct (decide (y = p_name p)) as [->|N].
  - rewrite IN, bool_decide_true by auto. split; [intros [_ [= <-]]; auto|intros [[_ ->]|[[] _]]; auto].
  - rewrite bool_decide_false by (intros [K _]; congruence). rewrite (is_installed_eq _ _ _ (proj1 (Fr y N))).
    assert (E : entry (db_pkg d1) y RInst = entry (db_pkg (y_db s)) y RInst).
    { destruct D1 as [->|D1]; [reflexivity|]. rewrite (forget_entries _ _ _ D1) by apply place_inst. now rewrite bool_decide_false by tauto. }
    rewrite E. tauto.
Qed.

Section one.
  Context (h : host) (o : opts).

  Lemma install_present k i ask w w' u : system (w_sys w) -> install_package h o k i ask w = (w', Ok u) ->
    forall y q, present (w_sys w') y q <-> (y = p_name (k_pkg k) /\ q = k_pkg k) \/ (y <> p_name (k_pkg k) /\ present (w_sys w) y q).
  Proof.
    intros S H y q. destruct (install_package_ok _ _ _ _ _ _ _ _ H) as (s & N & R & _).
    rewrite (record_install_present _ _ _ _ _ (lived_yinv _ _ (noted_system _ _ _ S N)) R). rewrite (same_present _ _ _ _ (noted_same _ _ _ N)). reflexivity.
  Qed.

  (** *** C53 *)
  Lemma install_deps k i ask w w' u : system (w_sys w) -> o_ignore_dependency o = false -> install_package h o k i ask w = (w', Ok u) ->
    forall d, In d (p_deps (k_pkg k)) -> met (w_sys w) d /\ (dep_package d <> p_name (k_pkg k) -> met (w_sys w') d).
  Proof.
    intros S NI H d Hd. destruct (install_package_ok _ _ _ _ _ _ _ _ H) as (s & N & R & D & _). specialize (D NI).
    assert (M : met (w_sys w) d).
    { unfold pkg_installable, runtimeDependencies in D. destruct (p_compdeps (k_pkg k)); [|discriminate]. cbn [bind] in D.
      pose proof (proj1 (proj1 (satisfies_dependencies_spec _ _)) D) as D2. apply (sat_true _ _ S). now apply D2. }
    split; [exact M|]. intros Ne. destruct M as (q & Q1 & Q2). exists q. split; [|exact Q2]. apply (install_present _ _ _ _ _ _ S H). auto.
  Qed.
  (** at every moment up to the recording *)
  Lemma install_deps_moments k i ask w w' u : system (w_sys w) -> o_ignore_dependency o = false -> install_package h o k i ask w = (w', Ok u) ->
    forall d c, In d (p_deps (k_pkg k)) -> crash_point w w' c -> met c.1 d.
  Proof.
    intros S NI H d c Hd Hc. apply (same_met (w_sys w)); [|exact (proj1 (install_deps _ _ _ _ _ _ S NI H d Hd))]. eapply install_crash; eauto.
  Qed.

  (** *** C54 *)
  Lemma clash_iff k s f : clashes (o_dest o) s f k <-> existsb (file_conflict o s f (k_pkg k)) (k_files k) = true.
  Proof.
    rewrite existsb_exists. unfold clashes, file_conflict, get_file. split.
    - intros (fi & n & fi' & I & E & N & D). exists fi. split; [exact I|]. rewrite E. rewrite (proj2 (String.eqb_neq _ _) N). cbn [negb andb].
      unfold isdir. destruct (stat f (join_path (o_dest o) [f_path fi])) as [[| | |]|]; try reflexivity. congruence.
    - intros (fi & I & E). destruct (y_files s !! f_path fi) as [[n fi']|] eqn:L; [|discriminate]. exists fi, n, fi'. split; [exact I|]. split; [exact L|].
      apply andb_true_iff in E as [E1 E2]. split; [apply negb_true_iff, String.eqb_neq in E1; exact E1|].
      intros D. unfold isdir in E2. rewrite D in E2. discriminate.
  Qed.
  Lemma install_clash k ask w w' r : clashes (o_dest o) (w_sys w) (w_fs w) k -> install_package h o k false ask w = (w', r) ->
    (exists e, r = Err e) /\ w_fs w' = w_fs w /\ w_log w' = w_log w /\ (w_sys w' = w_sys w \/ noted (w_sys w) (k_pkg k) (w_sys w')).
  Proof.
    intros C H. unfold install_package in H. cbn zeta in H. unfold bindM in H at 1.
    assert (G : match check_relations h o k false w with
                | (_, Ok _) => False
                | (w1, Err e) => w_fs w1 = w_fs w /\ w_log w1 = w_log w /\ (w_sys w1 = w_sys w \/ noted (w_sys w) (k_pkg k) (w_sys w1)) end).
    { destruct (check_relations h o k false w) as [w1 [u|e]] eqn:E.
      - apply check_relations_ok in E as (_ & _ & _ & K). specialize (K eq_refl). apply clash_iff in C. apply existsb_exists in C as (fi & I & F). rewrite K in F by exact I. discriminate.
      - unfold check_relations in E. cbn zeta in E. apply bindM_err in E as [[= <- _]|(w2 & u2 & E2 & E)]; [auto|]. apply look_ok in E2 as [-> _].
        apply bindM_err in E as [E|(w3 & u3 & E3 & E)].
        { destruct (o_ignore_dependency o); [discriminate|]. apply bindM_err in E as [[= <- _]|(w3 & b & E3 & E)]; [auto|]. apply look_ok in E3 as [-> _]. destruct b; [discriminate|]. injection E as <- _. auto. }
        assert (w3 = w) as ->.
        { destruct (o_ignore_dependency o); [now injection E3 as <- _|]. apply bindM_ok in E3 as (w4 & b & E4 & E3). apply look_ok in E4 as [-> _]. destruct b; [now injection E3 as <- _|discriminate]. }
        apply bindM_err in E as [E|(w4 & known & E4 & E)]; [injection E as <- _; auto|]. apply look_ok in E4 as [-> E4].
        apply bindM_err in E as [E|(w5 & u5 & E5 & E)].
        { destruct known; [discriminate|]. unfold commit in E. destruct (d <- add_package _ _ _ ;; _); [discriminate|]. injection E as <- _. auto. }
        assert (G : w_fs w5 = w_fs w /\ w_log w5 = w_log w /\ (w_sys w5 = w_sys w \/ noted (w_sys w) (k_pkg k) (w_sys w5))).
        { destruct known; [injection E5 as <- _; auto|]. apply commit_ok in E5 as (s & E5 & ->). apply bind_ok in E5 as (d & E5 & [= <-]). split; [reflexivity|]. split; [reflexivity|]. right. right. eauto. }
        apply bindM_err in E as [[= <- _]|(w6 & f & E6 & E)]. injection E6 as <- <-.
        apply bindM_err in E as [[= <- _]|(w7 & cl & E7 & E)]. apply look_ok in E7 as [-> _].
        destruct (cl && negb false); [injection E as <- _; exact G|discriminate]. }
    destruct (check_relations h o k false w) as [w1 [u|e]]; [contradiction|]. injection H as <- <-. split; [eauto|exact G].
  Qed.
  Lemma install_clash_all k ask w w' r : clashes (o_dest o) (w_sys w) (w_fs w) k -> install_package h o k false ask w = (w', r) ->
    (exists e, r = Err e) /\ w_fs w' = w_fs w /\ w_log w' = w_log w /\ (w_sys w' = w_sys w \/ noted (w_sys w) (k_pkg k) (w_sys w')) /\ same_records (w_sys w) (w_sys w').
  Proof.
    intros C H. destruct (install_clash _ _ _ _ _ C H) as (A1 & A2 & A3 & A4). split; [exact A1|]. split; [exact A2|]. split; [exact A3|]. split; [exact A4|].
    destruct A4 as [->|N]; [apply same_records_refl|eapply noted_same; exact N].
  Qed.
End one.

(** ** C19 *)
Section safety.
  Context (h : host) (o : opts) (F : fair h).
  Lemma remove_base A ig w w' r n p : system (w_sys w) -> o_bypass_safety o = false -> remove h o A ig w = (w', r) ->
    in_base (w_sys w) n -> present (w_sys w) n p -> ~ present (w_sys w') n p ->
    o_ignore_dependency o || ig = false /\ exists a, requested (w_sys w) A a /\ ~ in_base (w_sys w) a /\ tc (relies_on (w_sys w)) a n.
  Proof.
    intros S B H Hn Hp N. destruct (remove_only h o F A ig w w' r S H) as (_ & A1 & HA & K). destruct (K n p Hp) as [?|[K1|[K1 (a & Ha & K2)]]]; [contradiction| |].
    - apply HA in K1 as (_ & _ & K1). destruct (K1 B Hn).
    - split; [exact K1|]. exists a. apply (proj2 (proj2 F A1)) in Ha. apply HA in Ha as (R1 & _ & R2). specialize (R2 B). split; [exact R1|]. split; [exact R2|].
      apply rtc_tc in K2 as [->|K2]; [contradiction|exact K2].
  Qed.
  (** if nothing in system.base relies on something outside, the switch holds *)
  Lemma remove_base_closed A ig w w' r : system (w_sys w) -> o_bypass_safety o = false -> remove h o A ig w = (w', r) ->
    (forall x y, relies_on (w_sys w) x y -> in_base (w_sys w) y -> in_base (w_sys w) x) ->
    forall n p, in_base (w_sys w) n -> present (w_sys w) n p -> present (w_sys w') n p.
  Proof.
    intros S B H C n p Hn Hp. destruct (remove_only h o F A ig w w' r S H) as (_ & A1 & HA & K). destruct (K n p Hp) as [K1|[K1|[K1 (a & Ha & K2)]]]; [exact K1| |].
    - apply HA in K1 as (_ & _ & K1). destruct (K1 B Hn).
    - exfalso. apply (proj2 (proj2 F A1)) in Ha. apply HA in Ha as (_ & _ & R2). apply (R2 B). clear R2 K Hp.
      revert Hn. induction K2 as [|x y z K2 _ IH]; [auto|]. intros Hz. eapply C; eauto.
  Qed.
End safety.
