(** * Lemmas about planning an emerge *)
From Coq Require Import String List Lia ZArith.
From stdpp Require Import gmap strings relations.
From Verif Require Import Proof.GraphFacts.
From Verif Require Import Model.Py Model.ItemByRepo Model.Dependency Model.Package Model.Databases
  Model.InstallDB Model.System Model.Graph Model.Plan Model.Emerge
  Spec.DependencySpec Spec.ItemByRepoSpec Spec.DatabaseSpec Spec.SystemSpec Spec.GraphSpec Spec.PlanSpec Spec.EmergeSpec
  Proof.ItemByRepoFacts Proof.ItemByRepoMain Proof.DatabaseFacts Proof.RevDepFacts Proof.SystemFacts Proof.PlanFacts Proof.UpgradeFacts Proof.PlanTop.
Open Scope string_scope.
Open Scope list_scope.

(** ** Sources are kept under their own names *)
Definition sourced (s : dbs) : Prop := forall n q sp, place q -> entry (db_src s) n q = Some sp -> sp_name sp = n.
Lemma sourced_ext s s' : db_src s' = db_src s -> sourced s -> sourced s'.
Proof. intros E H. unfold sourced. now rewrite E. Qed.
Lemma add_spec_sourced s p q s' : place q -> sourced s -> add_spec s p q = Ok s' -> sourced s'.
Proof.
  intros Hp I H n q' sp Hq'. unfold add_spec in H. inv_ok H. injection H as <-. simpl.
  destruct (add_item_entry (db_src s) (sp_name p) p q Hp) as (d2 & Ed & S). rewrite Ed in E. injection E as <-.
  rewrite S by exact Hq'. destruct (bool_decide _) eqn:B; [|apply I, Hq']. intros [= <-]. now apply bool_decide_eq_true in B as [B _].
Qed.
Lemma sourced_same_but s s' q : same_but q (db_src s) (db_src s') -> sourced s -> sourced s'.
Proof. intros S I n q' sp Hq'. rewrite S by exact Hq'. destruct (bool_decide _); [discriminate|]. apply I, Hq'. Qed.
Lemma add_package_src s p q s' : add_package s p q = Ok s' -> db_src s' = db_src s.
Proof. unfold add_package. intros H. inv_ok H. now injection H as <-. Qed.
Lemma remove_package_src s n q s' : remove_package s n q = Ok s' -> db_src s' = db_src s.
Proof. unfold remove_package. intros H. inv_ok H. now injection H as <-. Qed.
Lemma apply_op_sourced s o s' : inv s -> sourced s -> apply_op s o = Ok s' -> sourced s'.
Proof.
  intros HI I. destruct o as [n u p|n|n ix|p|p|n]; simpl.
  - unfold op_add_repo. destruct (has_repo _ n); [discriminate|]. unfold add_repo. intros H. inv_ok H. injection H as <-. eapply sourced_ext; [|exact I]; reflexivity.
  - unfold op_remove_repo. destruct (has_repo _ n) eqn:E; [|intros [= <-]; exact I].
    intros H. destruct HI as [Hr Hs]. apply has_repo_spec in E. apply (proj2 Hr) in E. destruct (repo_remove_ok _ n Hr E) as (rd & E' & _).
    destruct (remove_repo_ok _ s n rd Hs E') as (s1 & K & _ & _ & _ & _ & S1 & _). rewrite K in H. injection H as <-. eapply sourced_same_but; [exact S1|exact I].
  - unfold op_update_repo. destruct (has_repo _ n) eqn:E; [|discriminate]. intros H.
    destruct HI as [Hr Hs]. apply has_repo_spec in E. apply (proj2 Hr) in E. pose proof (place_name n) as Hp. unfold update_db in H. inv_ok H.
    assert (B0 : db_src v = db_src s) by (unfold comp_remove_repo in E0; inv_ok E0; now injection E0 as <-).
    assert (B1 : db_src v0 = db_src s).
    { rewrite <- B0. eapply (foldM_same db_src); [|exact E1]. intros t c t' K. simpl in K. inv_ok K. now injection K as <-. }
    assert (B2 : db_src v1 = db_src s) by (unfold pkg_remove_repo in E2; inv_ok E2; injection E2 as <-; exact B1).
    assert (B3 : db_src v2 = db_src s).
    { rewrite <- B2. eapply (foldM_same db_src); [|exact E3]. intros t c t' K. now apply add_package_src in K. }
    assert (G : good (order_of s) (db_src v2)) by (rewrite B3; apply Hs).
    assert (B4 : sourced v3).
    { unfold src_remove_repo in E4. inv_ok E4. injection E4 as <-. destruct (good_remove_repo _ _ (RName n) G Hp) as (d1 & X1 & _ & _ & X2). rewrite X1 in E5. injection E5 as <-.
      eapply (sourced_same_but v2 _ (RName n)); [exact X2|]. eapply sourced_ext; [exact B3|exact I]. }
    eapply (foldM_inv sourced); [|exact B4|exact H]. intros t c t' _ Pt K. exact (add_spec_sourced _ _ _ _ Hp Pt K).
  - intros H. eapply sourced_ext; [eapply add_package_src; exact H|exact I].
  - intros H. eapply sourced_ext; [eapply add_package_src; exact H|exact I].
  - unfold remove_tracking_package. intros H. inv_ok H. eapply sourced_ext; [|exact I].
    assert (db_src v0 = db_src s) by (destruct v; [eapply remove_package_src; exact E0|now injection E0 as <-]).
    destruct v1; [|injection H as <-; assumption]. apply remove_package_src in H. congruence.
Qed.
Lemma reachable_sourced s : reachable s -> sourced s.
Proof.
  induction 1 as [|s o s' H IH C E]; [intros n q pk _ K; discriminate K|]. eapply apply_op_sourced; eauto. eapply reachable_inv; eauto.
Qed.

Lemma source_name s n sp : system s -> source_of_name s n sp -> sp_name sp = n.
Proof.
  intros H G. apply lived_yinv in H as [R _ _ _ _]. apply reachable_sourced in R. unfold source_of_name, get_item in G.
  destruct (get_item_repo (order_of (y_db s)) (db_src (y_db s)) n RRepos) as [[x q]|] eqn:E; [|discriminate]. simpl in G. injection G as <-.
  pose proof E as E'. apply lookup_from_listed in E' as (r & -> & _). apply first_repository in E as (pre & r' & post & E1 & [= <-] & E2 & _).
  eapply R; [apply (place_name r)|]. apply (entry_get (order_of (y_db s))); [apply place_name|]. exact E2.
Qed.
Lemma emerge_spec_spec s n : system s ->
  match emerge_spec s n with
  | Ok sp => source_of_name s n sp
  | Err e => e = EError /\ forall sp, ~ source_of_name s n sp
  end.
Proof.
  intros H. apply lived_yinv in H as [R _ _ _ _]. destruct (system_agree _ n RRepos R) as (_ & [A1 A2] & _). unfold emerge_spec, source_of_name.
  destruct (has_key (db_src (y_db s)) n RRepos) as [[|]|e] eqn:E; cbn [bind].
  - destruct (proj1 A1 eq_refl) as [sp ->]. reflexivity.
  - destruct (proj1 A2 eq_refl) as [e ->]. split; [reflexivity|]. intros sp K. discriminate K.
  - cbn [has_key] in E. discriminate E.
Qed.

(** ** One dependency *)
Definition src_want (s : sys) (d : dependency) (y : string) : Prop := ~ met s d /\ ~ repo_meets s d /\ built_from s (dep_package d) y.
Definition pkg_want (s : sys) (d : dependency) : Prop := ~ met s d /\ repo_meets s d.
Definition has_source (s : sys) (x : string) : Prop := exists sp, source_of_name s x sp.
Definition repo_answerable (s : sys) (d : dependency) : Prop := forall p, offered s (dep_package d) p -> window_readable d (p_version p) (p_release p).
(** what can go wrong with one dependency *)
Definition bad_dep (s : sys) (d : dependency) (e : exn) : Prop :=
  (e = EValue /\ ~ answerable s d) \/
  (e = EValue /\ ~ met s d /\ ~ repo_answerable s d) \/
  (e = EError /\ ~ met s d /\ ~ repo_meets s d /\ forall y, ~ built_from s (dep_package d) y) \/
  (e = EError /\ exists y, src_want s d y /\ ~ has_source s y).
Definition good_dep (s : sys) (d : dependency) : Prop :=
  answerable s d /\ (met s d \/ (repo_answerable s d /\ (repo_meets s d \/ exists y, src_want s d y /\ has_source s y))).

Record grown (s : sys) (x : string) (want : string -> Prop) (pkg : string -> Prop) (st st' : estate) : Prop := {
  gr_built : built (e_graph st');
  gr_v : forall y, y ∈ g_v (e_graph st') <-> y ∈ g_v (e_graph st) \/ want y;
  gr_e : forall u v, edge (e_graph st') u v <-> edge (e_graph st) u v \/ (u = x /\ want v /\ v <> x);
  gr_n : forall y, y ∈ e_next st' <-> y ∈ e_next st \/ (want y /\ y ∉ g_v (e_graph st));
  gr_i : forall p, p ∈ e_install st' <-> p ∈ e_install st \/ pkg p
}.

Lemma grown_none s x want pkg st : built (e_graph st) -> (forall y, ~ want y) -> (forall p, ~ pkg p) -> grown s x want pkg st st.
Proof. intros B W P. split; [exact B| | | |].
  - intros y. specialize (W y). tauto.
  - intros a b. specialize (W b). tauto.
  - intros y. specialize (W y). tauto.
  - intros p. specialize (P p). tauto.
Qed.

Lemma process_dep_spec s x st d : system s -> built (e_graph st) -> x ∈ g_v (e_graph st) ->
  (forall y, y ∈ g_v (e_graph st) -> has_source s y) ->
  match process_dep s x st d with
  | Ok st' => grown s x (src_want s d) (fun p => pkg_want s d /\ p = dep_package d) st st' /\ good_dep s d
  | Err e => bad_dep s d e
  end.
Proof.
  intros H B Hx U. unfold process_dep. pose proof (sat_spec s d H) as S. destruct (installed_satisfies_dep s d) as [[|]|e]; cbn [bind].
  - split; [|split; [|now left]].
    + apply grown_none; [exact B|intros y (K & _); contradiction|intros p [[K _] _]; contradiction].
    + intros p Hp. destruct S as (q & Q1 & Q2 & _). replace p with q; [exact Q2|]. destruct Q1, Hp. congruence.
  - destruct S as [S An]. pose proof (repo_sat_spec s d H) as R. destruct (repo_satisfies_dep s d) as [b|e] eqn:Er; cbn [bind].
    2:{ destruct R as (-> & R1 & p & R2 & R3). right. left. split; [reflexivity|]. split; [exact S|]. intros K. exact (R3 (K p R2)). }
    assert (Ra : repo_answerable s d).
    { intros p Hp. destruct (repo_sat s d H) as (R1 & R2 & R3). destruct b.
      - apply R1 in Er as (q & Q1 & Q2 & _). unfold offered in Hp. rewrite Q1 in Hp. injection Hp as <-. exact Q2.
      - apply R2 in Er as [[e Q]|(q & Q1 & Q2 & _)]; unfold offered in Hp; [rewrite Q in Hp; discriminate|]. rewrite Q1 in Hp. injection Hp as <-. exact Q2. }
    destruct b.
    + apply proj1 in R. specialize (R eq_refl). split; [|split; [exact An|right; split; [exact Ra|now left]]]. split; simpl; [exact B| | | |].
      * intros y. split; [auto|]. intros [K|(_ & K & _)]; [exact K|contradiction].
      * intros u v. split; [auto|]. intros [K|(_ & (_ & K & _) & _)]; [exact K|contradiction].
      * intros y. split; [auto|]. intros [K|((_ & K & _) & _)]; [exact K|contradiction].
      * intros p. rewrite elem_of_union, elem_of_singleton. unfold pkg_want. tauto.
    + assert (R' : ~ repo_meets s d) by (intros K; apply R in K; discriminate K). clear R. unfold pkgtosrc.
      destruct (get_item (order_of (y_db s)) (db_p2s (y_db s)) (dep_package d) RRepos) as [srcdep|e] eqn:P; cbn [bind].
      2:{ right. right. left. split; [eapply get_item_error; [|exact P]; discriminate|]. split; [exact S|]. split; [exact R'|]. intros y K. unfold built_from in K. congruence. }
      assert (W : forall y, src_want s d y <-> y = srcdep).
      { intros y. unfold src_want, built_from. rewrite P. split; [intros (_ & _ & [= <-]); reflexivity|intros ->; auto]. }
      assert (NP : forall p, ~ (pkg_want s d /\ p = dep_package d)) by (intros p [[_ K] _]; contradiction).
      assert (F : match (if bool_decide (srcdep ∈ g_v (e_graph st)) then Ok st
                else sp <- emerge_spec s srcdep ;; g <- add_src (e_graph st) sp ;; Ok (mkE g ({[srcdep]} ∪ e_next st) (e_install st))) with
              | Ok st1 => built (e_graph st1) /\ (forall y, y ∈ g_v (e_graph st1) <-> y ∈ g_v (e_graph st) \/ y = srcdep) /\
                  (forall u v, edge (e_graph st1) u v <-> edge (e_graph st) u v) /\
                  (forall y, y ∈ e_next st1 <-> y ∈ e_next st \/ (y = srcdep /\ y ∉ g_v (e_graph st))) /\ e_install st1 = e_install st /\ has_source s srcdep
              | Err e => e = EError /\ ~ has_source s srcdep end).
      { case_bool_decide as V.
        - split; [exact B|]. split; [intros y; split; [auto|intros [K| ->]; assumption]|]. split; [tauto|]. split; [intros y; split; [auto|intros [K|[-> K]]; [exact K|contradiction]]|]. split; [reflexivity|]. now apply U.
        - pose proof (emerge_spec_spec s srcdep H) as Q. destruct (emerge_spec s srcdep) as [sp|e]; cbn [bind]; [|destruct Q as [-> Q]; split; [reflexivity|intros [sp K]; exact (Q sp K)]].
          unfold add_src. rewrite (source_name s srcdep sp H Q). rewrite (bool_decide_false _ V).
          destruct (add_vertex (e_graph st) srcdep (Some (sp_version sp, sp_release sp))) as [g|e] eqn:G; cbn [bind].
          2:{ unfold add_vertex in G. rewrite (bool_decide_false _ V) in G. discriminate G. }
          destruct (add_vertex_gwf _ _ _ _ (built_gwf _ B) G) as (_ & _ & G1 & G2). simpl. split; [eapply built_vertex; eauto|]. split; [intros y; rewrite G1, elem_of_union, elem_of_singleton; tauto|]. split; [exact G2|].
          split; [intros y; rewrite elem_of_union, elem_of_singleton; split; [intros [->|K]; auto|tauto]|]. split; [reflexivity|]. now exists sp. }
      destruct (if bool_decide (srcdep ∈ g_v (e_graph st)) then Ok st else _) as [st1|e]; cbn [bind].
      2:{ destruct F as [-> F]. right. right. right. split; [reflexivity|]. exists srcdep. split; [now apply W|exact F]. }
      destruct F as (F1 & F2 & F3 & F4 & F5 & F6).
      assert (Gd : good_dep s d) by (split; [exact An|right; split; [exact Ra|right; exists srcdep; split; [now apply W|exact F6]]]).
      destruct (String.eqb_spec x srcdep) as [->|Nx].
      * split; [|exact Gd]. split; [exact F1| | | |].
        -- intros y. rewrite F2, W. reflexivity.
        -- intros u v. rewrite F3, W. split; [auto|]. intros [K|(_ & -> & K)]; [exact K|congruence].
        -- intros y. rewrite F4, W. reflexivity.
        -- intros p. rewrite F5. split; [auto|]. intros [K|K]; [exact K|destruct (NP p K)].
      * destruct (add_edge (e_graph st1) x srcdep None None None) as [g|e] eqn:G; cbn [bind].
        -- destruct (add_edge_gwf _ _ _ _ _ _ _ (built_gwf _ F1) G) as (_ & G1 & G2). split; [|exact Gd]. split; simpl; [eapply built_edge; eauto| | | |].
           ++ intros y. rewrite G1, !elem_of_union, !elem_of_singleton, F2, W. split; [intros [[->| ->]|K]; tauto|tauto].
           ++ intros u v. rewrite G2, F3, W. split; [intros [K|[-> ->]]; auto|]. intros [K|(-> & -> & _)]; auto.
           ++ intros y. rewrite F4, W. reflexivity.
           ++ intros p. rewrite F5. split; [auto|]. intros [K|K]; [exact K|destruct (NP p K)].
        -- exfalso. unfold add_edge in G. assert (X : x ∈ g_v (e_graph st1)) by (apply F2; now left). assert (Y : srcdep ∈ g_v (e_graph st1)) by (apply F2; now right).
           rewrite (bool_decide_true _ X) in G. cbn [bind] in G. rewrite (bool_decide_true _ Y) in G. cbn [bind] in G.
           destruct (proj2 (gw_adj _ (built_gwf _ F1) x) X) as [vs Ev]. rewrite Ev in G. discriminate G.
  - left. destruct S as (-> & S & _). auto.
Qed.

(** ** All dependencies of a source *)
Lemma process_deps_spec s x deps : forall st, system s -> built (e_graph st) -> x ∈ g_v (e_graph st) ->
  (forall y, y ∈ g_v (e_graph st) -> has_source s y) ->
  match foldM (process_dep s x) deps st with
  | Ok st' => grown s x (fun y => exists d, In d deps /\ src_want s d y) (fun p => exists d, In d deps /\ pkg_want s d /\ p = dep_package d) st st' /\
      forall d, In d deps -> good_dep s d
  | Err e => exists d, In d deps /\ bad_dep s d e
  end.
Proof.
  induction deps as [|d deps IH]; intros st H B Hx U; cbn [foldM].
  - split; [|intros d []]. apply grown_none; [exact B| |]; [intros y (d & [] & _)|intros p (d & [] & _)].
  - pose proof (process_dep_spec s x st d H B Hx U) as P. destruct (process_dep s x st d) as [st1|e]; cbn [bind]; [|exists d; split; [now left|exact P]].
    destruct P as [[P1 P2 P3 P4 P5] Gd].
    assert (U1 : forall y, y ∈ g_v (e_graph st1) -> has_source s y).
    { intros y K. apply P2 in K as [K|K]; [now apply U|]. destruct Gd as [_ [Gd|[_ [Gd|(y' & Gd & Gs)]]]]; try (destruct K as (K1 & K2 & _); contradiction).
      replace y with y'; [exact Gs|]. destruct K as (_ & _ & K), Gd as (_ & _ & Gd). unfold built_from in *. congruence. }
    specialize (IH st1 H P1 ltac:(apply P2; now left) U1). destruct (foldM (process_dep s x) deps st1) as [st2|e].
    2:{ destruct IH as (d' & I1 & I2). exists d'. split; [now right|exact I2]. }
    destruct IH as [[Q1 Q2 Q3 Q4 Q5] Gds]. split; [|intros d' [<-|K]; auto]. split; [exact Q1| | | |].
    + intros y. rewrite Q2, P2. split.
      * intros [[K|K]|(d' & K1 & K2)]; [auto|right; exists d; split; [now left|exact K]|right; exists d'; split; [now right|exact K2]].
      * intros [K|(d' & [<-|K1] & K2)]; [auto|auto|]. right. eauto.
    + intros u v. rewrite Q3, P3. split.
      * intros [[K|(-> & K1 & K2)]|(-> & (d' & K1 & K2) & K3)]; [auto| |]; right; (split; [reflexivity|]); (split; [|assumption]); [exists d|exists d']; split; auto; [now left|now right].
      * intros [K|(-> & (d' & [<-|K1] & K2) & K3)]; [auto|left; right; auto|]. right. split; [reflexivity|]. split; [eauto|exact K3].
    + intros y. rewrite Q4, P4, P2. split.
      * intros [[K|[K1 K2]]|[(d' & K1 & K2) K3]]; [auto| |]; right; (split; [|tauto]); [exists d|exists d']; split; auto; [now left|now right].
      * intros [K|[(d' & [<-|K1] & K2) K3]]; [auto|left; right; auto|].
        destruct Gd as [_ [Gd|[_ [Gd|(y' & Gd & _)]]]].
        -- right. split; [eauto|]. intros [K|K]; [contradiction|]. now destruct K.
        -- right. split; [eauto|]. intros [K|K]; [contradiction|]. now destruct K as (_ & K & _).
        -- destruct (decide (y = y')) as [->|Ny]; [left; right; auto|]. right. split; [eauto|]. intros [K|K]; [contradiction|]. apply Ny. destruct K as (_ & _ & K), Gd as (_ & _ & Gd). unfold built_from in *. congruence.
    + intros p. rewrite Q5, P5. split.
      * intros [[K|[K1 K2]]|(d' & K1 & K2)]; [auto| |]; right; [exists d|exists d']; split; auto; [now left|now right].
      * intros [K|(d' & [<-|K1] & K2)]; [auto|auto|]. right. eauto.
Qed.

(** ** One source *)
Lemma all_deps_spec sp d : In d (all_deps sp) <-> source_dep sp d.
Proof.
  unfold all_deps, source_dep. rewrite in_app_iff, in_concat. split; (intros [K|K]; [now left|right]).
  - destruct K as (l & K1 & K2). apply in_map_iff in K1 as (p & <- & K1). eauto.
  - destruct K as (p & K1 & K2). exists (p_deps p). split; [now apply in_map|exact K2].
Qed.
Definition bad_source (s : sys) (x : string) (e : exn) : Prop :=
  (e = EError /\ ~ has_source s x) \/ exists sp d, source_of_name s x sp /\ source_dep sp d /\ bad_dep s d e.
Definition good_source (s : sys) (x : string) : Prop :=
  exists sp, source_of_name s x sp /\ forall d, source_dep sp d -> good_dep s d.

Lemma emerge_step_spec s st x : system s -> built (e_graph st) -> (forall y, y ∈ g_v (e_graph st) -> has_source s y) ->
  match emerge_step s st x with
  | Ok st' => built (e_graph st') /\
      (forall y, y ∈ g_v (e_graph st') <-> y ∈ g_v (e_graph st) \/ y = x \/ wants_source s x y) /\
      (forall u v, edge (e_graph st') u v <-> edge (e_graph st) u v \/ (u = x /\ wants_source s x v /\ v <> x)) /\
      (forall y, y ∈ e_next st' <-> y ∈ e_next st \/ (wants_source s x y /\ y ∉ g_v (e_graph st) /\ y <> x)) /\
      (forall p, p ∈ e_install st' <-> p ∈ e_install st \/ wants_package s x p) /\ good_source s x
  | Err e => bad_source s x e
  end.
Proof.
  intros H B U. unfold emerge_step. pose proof (emerge_spec_spec s x H) as Q. destruct (emerge_spec s x) as [sp|e]; cbn [bind].
  2:{ left. destruct Q as [-> Q]. split; [reflexivity|]. intros [sp K]. exact (Q sp K). }
  pose proof (source_name s x sp H Q) as N.
  assert (G : exists g, add_src (e_graph st) sp = Ok g /\ built g /\ (forall y, y ∈ g_v g <-> y ∈ g_v (e_graph st) \/ y = x) /\ forall u v, edge g u v <-> edge (e_graph st) u v).
  { unfold add_src. rewrite N. case_bool_decide as V.
    - exists (e_graph st). split; [reflexivity|]. split; [exact B|]. split; [intros y; split; [auto|intros [K| ->]; assumption]|tauto].
    - destruct (add_vertex (e_graph st) x (Some (sp_version sp, sp_release sp))) as [g|e] eqn:G.
      2:{ unfold add_vertex in G. rewrite (bool_decide_false _ V) in G. discriminate G. }
      destruct (add_vertex_gwf _ _ _ _ (built_gwf _ B) G) as (_ & _ & G1 & G2). exists g. split; [reflexivity|]. split; [eapply built_vertex; eauto|]. split; [|exact G2].
      intros y. rewrite G1, elem_of_union, elem_of_singleton. tauto. }
  destruct G as (g & -> & G1 & G2 & G3). cbn [bind]. rewrite N.
  pose proof (process_deps_spec s x (all_deps sp) (mkE g (e_next st) (e_install st)) H G1) as P. cbn [e_graph e_next e_install] in P.
  specialize (P ltac:(apply G2; now right)). assert (U1 : forall y, y ∈ g_v g -> has_source s y) by (intros y K; apply G2 in K as [K| ->]; [now apply U|now exists sp]).
  specialize (P U1). destruct (foldM (process_dep s x) (all_deps sp) (mkE g (e_next st) (e_install st))) as [st'|e].
  2:{ destruct P as (d & P1 & P2). right. exists sp, d. split; [exact Q|]. split; [now apply all_deps_spec|exact P2]. }
  destruct P as [[P1 P2 P3 P4 P5] Gd]. cbn [e_graph e_next e_install] in *.
  assert (W : forall y, (exists d, In d (all_deps sp) /\ src_want s d y) <-> wants_source s x y).
  { intros y. split.
    - intros (d & K1 & K2 & K3 & K4). exists sp, d. apply all_deps_spec in K1. auto.
    - intros (sp' & d & K1 & K2 & K3 & K4 & K5). unfold source_of_name in *. rewrite Q in K1. injection K1 as <-. exists d. split; [now apply all_deps_spec|split; auto]. }
  assert (W' : forall p, (exists d, In d (all_deps sp) /\ pkg_want s d /\ p = dep_package d) <-> wants_package s x p).
  { intros p. split.
    - intros (d & K1 & [K2 K3] & ->). exists sp, d. apply all_deps_spec in K1. auto.
    - intros (sp' & d & K1 & K2 & <- & K4 & K5). unfold source_of_name in *. rewrite Q in K1. injection K1 as <-. exists d. split; [now apply all_deps_spec|split; [split|]; auto]. }
  split; [exact P1|]. split; [|split; [|split; [|split]]].
  - intros y. rewrite P2, G2, W. tauto.
  - intros u v. rewrite P3, G3, W. reflexivity.
  - intros y. rewrite P4, G2, W. tauto.
  - intros p. rewrite P5, W'. reflexivity.
  - exists sp. split; [exact Q|]. intros d K. apply Gd. now apply all_deps_spec.
Qed.

(** ** The loop *)
(** [dn]: the sources handled so far *)
Record einvar (s : sys) (A : list string) (dn : gset string) (st : estate) : Prop := {
  ei_built : built (e_graph st);
  ei_v : forall y, y ∈ g_v (e_graph st) <-> y ∈ dn \/ exists x, x ∈ dn /\ wants_source s x y;
  ei_e : forall u v, edge (e_graph st) u v <-> u ∈ dn /\ wants_source s u v /\ v <> u;
  ei_i : forall p, p ∈ e_install st <-> exists x, x ∈ dn /\ wants_package s x p;
  ei_good : forall x, x ∈ dn -> good_source s x;
  ei_from : forall x, x ∈ dn -> to_build s A x
}.
Lemma good_has_source s x y : good_source s x -> wants_source s x y -> has_source s y.
Proof.
  intros (sp & Q & Gd) (sp' & d & K1 & K2 & K3 & K4 & K5). unfold source_of_name in *. rewrite Q in K1. injection K1 as <-.
  destruct (Gd d K2) as [_ [K|[_ [K|(y' & (_ & _ & K6) & K7)]]]]; try contradiction. replace y with y'; [exact K7|]. unfold built_from in *. congruence.
Qed.
Lemma einvar_sources s A dn st : einvar s A dn st -> forall y, y ∈ g_v (e_graph st) -> has_source s y.
Proof.
  intros [] y K. apply ei_v0 in K as [K|(x & K1 & K2)]; [|eapply good_has_source; eauto]. destruct (ei_good0 y K) as (sp & Q & _). now exists sp.
Qed.
Lemma to_build_step s A x y : to_build s A x -> wants_source s x y -> to_build s A y.
Proof. intros (a & Ha & K) W. exists a. split; [exact Ha|]. eapply rtc_r; eauto. Qed.

Lemma emerge_round s A B : system s -> forall dn st, einvar s A dn st -> (forall x, In x B -> to_build s A x) ->
  match foldM (emerge_step s) B st with
  | Ok st' => exists dn', einvar s A dn' st' /\ (forall x, x ∈ dn' <-> x ∈ dn \/ In x B) /\
      (forall y, y ∈ e_next st' -> y ∈ e_next st \/ (y ∈ g_v (e_graph st') /\ y ∉ g_v (e_graph st))) /\
      (forall y, y ∈ e_next st -> y ∈ e_next st') /\
      (forall y, y ∈ g_v (e_graph st') -> y ∈ g_v (e_graph st) \/ In y B \/ y ∈ e_next st')
  | Err e => exists x, to_build s A x /\ bad_source s x e
  end.
Proof.
  intros H. induction B as [|x B IH]; intros dn st I HB; cbn [foldM].
  - exists dn. split; [exact I|]. split; [intros x; simpl; tauto|]. auto 6.
  - pose proof (emerge_step_spec s st x H (ei_built _ _ _ _ I) (einvar_sources _ _ _ _ I)) as P. destruct (emerge_step s st x) as [st1|e]; cbn [bind].
    2:{ exists x. split; [apply HB; now left|exact P]. }
    destruct P as (P1 & P2 & P3 & P4 & P5 & P6).
    assert (I1 : einvar s A ({[x]} ∪ dn) st1).
    { destruct I as [I1 I2 I3 I4 I5 I6]. split; [exact P1| | | | |].
      - intros y. rewrite P2, I2. split.
        + intros [[K|(z & K1 & K2)]|[->|K]]; [left; set_solver|right; exists z; split; [set_solver|exact K2]|left; set_solver|right; exists x; split; [set_solver|exact K]].
        + intros [K|(z & K1 & K2)]; [apply elem_of_union in K as [K|K]; [apply elem_of_singleton in K; auto|auto]|].
          apply elem_of_union in K1 as [K1|K1]; [apply elem_of_singleton in K1 as ->; auto|]. left. right. eauto.
      - intros u v. rewrite P3, I3, elem_of_union, elem_of_singleton. split.
        + intros [(K1 & K2 & K3)|(-> & K2 & K3)]; auto.
        + intros ([->|K1] & K2 & K3); auto.
      - intros p. rewrite P5, I4. split.
        + intros [(z & K1 & K2)|K]; [exists z; split; [set_solver|exact K2]|exists x; split; [set_solver|exact K]].
        + intros (z & K1 & K2). apply elem_of_union in K1 as [K1|K1]; [apply elem_of_singleton in K1 as ->; auto|eauto].
      - intros z K. apply elem_of_union in K as [K|K]; [apply elem_of_singleton in K as ->; exact P6|auto].
      - intros z K. apply elem_of_union in K as [K|K]; [apply elem_of_singleton in K as ->; apply HB; now left|auto]. }
    specialize (IH _ _ I1 ltac:(intros z K; apply HB; now right)). destruct (foldM (emerge_step s) B st1) as [st2|e]; [|exact IH].
    destruct IH as (dn' & J1 & J2 & J3 & J4 & J5).
    assert (M : forall y, y ∈ g_v (e_graph st1) -> y ∈ g_v (e_graph st2)).
    { intros y K. apply (ei_v _ _ _ _ I1) in K. apply (ei_v _ _ _ _ J1). destruct K as [K|(z & K1 & K2)]; [left; apply J2; now left|right; exists z; split; [apply J2; now left|exact K2]]. }
    exists dn'. split; [exact J1|]. split; [intros z; rewrite J2, elem_of_union, elem_of_singleton; simpl; split; [intros [[->|K]|K]; auto|intros [K|[->|K]]; auto]|].
    split; [|split].
    + intros y K. apply J3 in K as [K|[K1 K2]].
      * apply P4 in K as [K|(K1 & K2 & K3)]; [auto|]. right. split; [apply M, P2; auto|exact K2].
      * right. split; [exact K1|]. intros K. apply K2, P2. auto.
    + intros y K. apply J4, P4. auto.
    + intros y K. apply J5 in K as [K|[K|K]]; [|simpl; auto|auto]. apply P2 in K as [K|[->|K]]; [auto|simpl; auto|].
      destruct (decide (y ∈ g_v (e_graph st))) as [V|V]; [auto|]. destruct (decide (y = x)) as [->|Nx]; [simpl; auto|]. right. right. apply J4, P4. auto.
Qed.

Definition domS (s : sys) : gset string := dom (db_src (y_db s)).
Lemma has_source_dom s x : has_source s x -> x ∈ domS s.
Proof. intros [sp K]. exact (get_item_dom _ _ _ _ _ K). Qed.

Lemma emerge_rounds_spec s it A : system s -> any_order it -> forall fuel n dn st B,
  einvar s A dn st -> size (domS s ∖ g_v (e_graph st)) < fuel ->
  (forall x, In x B -> to_build s A x) -> (forall y, y ∈ g_v (e_graph st) -> y ∈ dn \/ In y B) ->
  match emerge_rounds s it fuel n st B with
  | Ok st' => exists dn', einvar s A dn' st' /\ (forall x, x ∈ dn \/ In x B -> x ∈ dn') /\ forall y, y ∈ g_v (e_graph st') -> y ∈ dn'
  | Err e => exists x, to_build s A x /\ bad_source s x e
  end.
Proof.
  intros H [It _]. induction fuel as [|fuel IH]; intros n dn st B I F HB C; [lia|].
  destruct B as [|b B'].
  { cbn [emerge_rounds]. exists dn. split; [exact I|]. split; [intros x [K|[]]; exact K|]. intros y K. apply C in K as [K|[]]. exact K. }
  change (emerge_rounds s it (S fuel) n st (b :: B')) with (st1 <- foldM (emerge_step s) (b :: B') (mkE (e_graph st) ∅ (e_install st)) ;; emerge_rounds s it fuel (S n) st1 (it_set it n (e_next st1))).
  set (B := b :: B') in *. assert (I0 : einvar s A dn (mkE (e_graph st) ∅ (e_install st))) by (destruct I; split; assumption).
  pose proof (emerge_round s A B H dn _ I0 HB) as R. cbn [e_graph e_next e_install] in R.
  destruct (foldM (emerge_step s) B (mkE (e_graph st) ∅ (e_install st))) as [st1|e]; cbn [bind]; [|exact R].
  destruct R as (dn1 & R1 & R2 & R3 & R4 & R5).
  assert (N1 : forall y, y ∈ e_next st1 -> y ∈ g_v (e_graph st1) /\ y ∉ g_v (e_graph st)) by (intros y K; apply R3 in K as [K|K]; [set_solver|exact K]).
  assert (C1 : forall y, y ∈ g_v (e_graph st1) -> y ∈ dn1 \/ In y (it_set it n (e_next st1))).
  { intros y K. apply R5 in K as [K|[K|K]].
    - left. apply R2. apply C in K. exact K.
    - left. apply R2. auto.
    - right. apply It. exact K. }
  assert (T1 : forall y, y ∈ g_v (e_graph st1) -> to_build s A y).
  { intros y K. apply (ei_v _ _ _ _ R1) in K as [K|(x & K1 & K2)]; [now apply (ei_from _ _ _ _ R1)|]. eapply to_build_step; [|exact K2]. now apply (ei_from _ _ _ _ R1). }
  assert (HB1 : forall x, In x (it_set it n (e_next st1)) -> to_build s A x) by (intros x K; apply It in K; apply T1; now apply N1).
  assert (Up : forall x, x ∈ dn \/ In x B -> x ∈ dn1) by (intros x K; now apply R2).
  destruct (it_set it n (e_next st1)) as [|z zs] eqn:Z.
  - assert (X : emerge_rounds s it fuel (S n) st1 [] = Ok st1) by (destruct fuel; reflexivity). rewrite X. exists dn1. split; [exact R1|]. split; [exact Up|].
    intros y K. apply C1 in K as [K|[]]. exact K.
  - assert (Lt : size (domS s ∖ g_v (e_graph st1)) < size (domS s ∖ g_v (e_graph st))).
    { assert (Kz : z ∈ e_next st1) by (apply (It n); rewrite Z; now left). destruct (N1 z Kz) as [Z1 Z2].
      assert (Sz : z ∈ domS s) by (apply has_source_dom; eapply einvar_sources; [exact R1|exact Z1]).
      apply subset_size. split.
      - intros y K. apply elem_of_difference in K as [K1 K2]. apply elem_of_difference. split; [exact K1|]. intros K. apply K2. apply (ei_v _ _ _ _ R1).
        apply (ei_v _ _ _ _ I) in K as [K|(x & Kx & Kw)]; [left; apply Up; auto|right; exists x; split; [apply Up; auto|exact Kw]].
      - intros K. assert (Kd : z ∈ domS s ∖ g_v (e_graph st1)) by (apply K, elem_of_difference; auto). apply elem_of_difference in Kd as [_ Kd]. contradiction. }
    specialize (IH (S n) dn1 st1 (z :: zs) R1 ltac:(lia) HB1 C1). destruct (emerge_rounds s it fuel (S n) st1 (z :: zs)) as [st2|e]; [|exact IH].
    destruct IH as (dn2 & K1 & K2 & K3). exists dn2. split; [exact K1|]. split; [|exact K3]. intros x K. apply K2. left. auto.
Qed.

(** ** The plan *)
Lemma emerge_closed s A dn st : einvar s A dn st -> (forall x, In x A -> x ∈ dn) -> (forall y, y ∈ g_v (e_graph st) -> y ∈ dn) ->
  forall x, x ∈ dn <-> to_build s A x.
Proof.
  intros I HA C x. split; [apply (ei_from _ _ _ _ I)|]. intros (a & Ha & K). assert (Da : a ∈ dn) by auto. clear Ha.
  induction K as [|a b x W _ IH]; [exact Da|]. apply IH. apply C, (ei_v _ _ _ _ I). eauto.
Qed.
Definition source_cycle (s : sys) (A : list string) : Prop :=
  exists x y, to_build s A x /\ wants_source s x y /\ x <> y /\ rtc (fun u v => wants_source s u v /\ u <> v) y x.

Lemma emerge_body_spec s it A : system s -> any_order it ->
  match emerge_body s it A with
  | Ok (inst, build) => NoDup build /\ (forall x, In x build <-> to_build s A x) /\
      (forall x y, In x build -> wants_source s x y -> x <> y -> comes_before build y x) /\
      (forall x, to_build s A x -> good_source s x) /\
      exists wanted g, NoDup wanted /\ (forall p, In p wanted <-> to_install s A p) /\ plan_install s it wanted = Ok (g, inst)
  | Err e => (exists x, to_build s A x /\ bad_source s x e) \/
      (exists c, e = ECycle c /\ source_cycle s A) \/
      (exists wanted, NoDup wanted /\ (forall p, In p wanted <-> to_install s A p) /\ plan_install s it wanted = Err e)
  end.
Proof.
  intros H AO. unfold emerge_body. set (fuel := S (S (size (db_src (y_db s))))).
  assert (I0 : einvar s A ∅ (mkE empty_graph ∅ ∅)).
  { split; simpl.
    - constructor.
    - intros y. split; [intros K; now apply elem_of_empty in K|]. intros [K|(x & K & _)]; now apply elem_of_empty in K.
    - intros u v. split; [|intros (K & _); now apply elem_of_empty in K]. intros (vs & K & _). simpl in K. rewrite lookup_empty in K. discriminate K.
    - intros p. split; [intros K; now apply elem_of_empty in K|]. intros (x & K & _). now apply elem_of_empty in K.
    - intros x K. now apply elem_of_empty in K.
    - intros x K. now apply elem_of_empty in K. }
  pose proof (emerge_rounds_spec s it A H AO fuel 0 ∅ (mkE empty_graph ∅ ∅) A I0) as R.
  specialize (R ltac:(assert (L : size (domS s ∖ ∅) = size (db_src (y_db s))) by (rewrite difference_empty_L; unfold domS; apply size_dom); simpl; rewrite L; unfold fuel; lia)).
  specialize (R ltac:(intros x K; exists x; split; [exact K|apply rtc_refl])).
  specialize (R ltac:(intros y K; simpl in K; now apply elem_of_empty in K)).
  destruct (emerge_rounds s it fuel 0 (mkE empty_graph ∅ ∅) A) as [st|e]; cbn [bind]; [|left; exact R].
  destruct R as (dn & I & RA & RC). pose proof (emerge_closed s A dn st I ltac:(intros x K; apply RA; now right) RC) as D.
  assert (V : forall x, x ∈ g_v (e_graph st) <-> to_build s A x). { intros x. rewrite <- D. split; [apply RC|]. intros K. apply (ei_v _ _ _ _ I). now left. }
  destruct AO as [It Ig]. pose proof (Ig _ (ei_built _ _ _ _ I)) as Igg.
  destruct (topological_sort (it_vs it (e_graph st)) (it_adj it (e_graph st))) as [l|e] eqn:T; cbn [bind].
  - assert (W : NoDup (it_set it (S fuel) (e_install st)) /\ forall p, In p (it_set it (S fuel) (e_install st)) <-> to_install s A p).
    { split; [apply It|]. intros p. rewrite (proj2 (It _ _)), (ei_i _ _ _ _ I). unfold to_install. split; intros (x & K1 & K2); exists x; (split; [now apply D|exact K2]). }
    destruct W as [W1 W2]. destruct (plan_install s it (it_set it (S fuel) (e_install st))) as [[g inst]|e] eqn:P; cbn [bind].
    + destruct (sort_ok _ _ _ (built_gwf _ (ei_built _ _ _ _ I)) Igg l T) as (S1 & S2 & S3). split; [now apply nodup_rev|]. split; [intros x; rewrite <- in_rev, S2; apply V|]. split; [|split].
      * intros x y Kx Kw Kn. apply comes_before_rev, S3, (ei_e _ _ _ _ I). split; [|split; [exact Kw|congruence]]. apply D, V, S2. now apply in_rev.
      * intros x K. apply D in K. now apply (ei_good _ _ _ _ I).
      * eexists _, g. split; [exact W1|]. split; [exact W2|exact P].
    + right. right. eexists. split; [exact W1|]. split; [exact W2|exact P].
  - right. left. destruct (sort_cycle _ _ _ e (ei_built _ _ _ _ I) Igg T) as (c & -> & u & K). exists c. split; [reflexivity|].
    assert (L : forall a b, edge (e_graph st) a b -> to_build s A a /\ wants_source s a b /\ a <> b) by (intros a b Kab; apply (ei_e _ _ _ _ I) in Kab as (K1 & K2 & K3); split; [now apply D|]; split; [exact K2|congruence]).
    assert (L2 : forall a b, tc (edge (e_graph st)) a b -> rtc (fun u v => wants_source s u v /\ u <> v) a b).
    { intros a b Kab. induction Kab as [a b Kab|a b c' Kab _ IH]; [apply rtc_once; now apply L in Kab|]. eapply rtc_l; [|exact IH]. now apply L in Kab. }
    inversion K as [? ? K1|? v ? K1 K2]; subst.
    + apply L in K1 as (K1 & K2 & K3). congruence.
    + apply L in K1 as (K1 & K3 & K4). exists u, v. split; [exact K1|]. split; [exact K3|]. split; [exact K4|]. now apply L2.
Qed.

(** ** In the form the property is stated *)
Lemma emerge_sources s it A inst build : system s -> any_order it -> emerge_body s it A = Ok (inst, build) ->
  NoDup build /\ (forall x, In x A -> In x build) /\
  (forall x sp d, In x build -> source_of_name s x sp -> source_dep sp d -> ~ met s d -> ~ repo_meets s d ->
     exists y, built_from s (dep_package d) y /\ In y build /\ (y <> x -> comes_before build y x)).
Proof.
  intros H I E. pose proof (emerge_body_spec s it A H I) as P. rewrite E in P. destruct P as (P1 & P2 & P3 & P4 & _).
  split; [exact P1|]. split; [intros x K; apply P2; exists x; split; [exact K|apply rtc_refl]|].
  intros x sp d K1 K2 K3 K4 K5. pose proof (proj1 (P2 x) K1) as T. destruct (P4 x T) as (sp' & Q & Gd). unfold source_of_name in *. rewrite K2 in Q. injection Q as <-.
  destruct (Gd d K3) as [_ [K|[_ [K|(y & (_ & _ & K6) & _)]]]]; try contradiction. exists y. split; [exact K6|].
  assert (W : wants_source s x y) by (exists sp, d; auto). split; [apply P2; eapply to_build_step; eauto|]. intros N. apply P3; auto.
Qed.
Lemma emerge_exact s it A inst build : system s -> any_order it -> emerge_body s it A = Ok (inst, build) ->
  (forall x, In x build <-> to_build s A x) /\
  exists wanted, (forall p, In p wanted <-> to_install s A p) /\ forall p, In p inst <-> needed s wanted p.
Proof.
  intros H I E. pose proof (emerge_body_spec s it A H I) as P. rewrite E in P. destruct P as (_ & P2 & _ & _ & w & g & W1 & W2 & W3).
  split; [exact P2|]. exists w. split; [exact W2|]. now apply (install_ok s it w g inst H I W1 W3).
Qed.
Lemma emerge_packages s it A inst build : system s -> any_order it -> emerge_body s it A = Ok (inst, build) ->
  NoDup inst /\
  (forall x sp d, In x build -> source_of_name s x sp -> source_dep sp d -> ~ met s d -> repo_meets s d -> In (dep_package d) inst) /\
  (forall x p d, In x inst -> offered s x p -> In d (p_deps p) -> ~ met s d -> In (dep_package d) inst /\ comes_before inst (dep_package d) x).
Proof.
  intros H I E. pose proof (emerge_body_spec s it A H I) as P. rewrite E in P. destruct P as (_ & P2 & _ & _ & w & g & W1 & W2 & W3).
  destruct (install_closed s it w g inst H I W1 W3) as (C1 & C2 & C3). split; [exact C1|]. split; [|exact C3].
  intros x sp d K1 K2 K3 K4 K5. apply C2, W2. exists x. split; [now apply P2|]. exists sp, d. auto.
Qed.
Lemma emerge_fails s it A e : system s -> any_order it -> emerge_body s it A = Err e ->
  (e = EError /\ exists x, to_build s A x /\ forall sp, ~ source_of_name s x sp) \/
  (e = EError /\ exists x sp d, to_build s A x /\ source_of_name s x sp /\ source_dep sp d /\ ~ met s d /\ ~ repo_meets s d /\
     forall y, ~ built_from s (dep_package d) y) \/
  (e = EValue /\ exists x sp d, to_build s A x /\ source_of_name s x sp /\ source_dep sp d /\
     (~ answerable s d \/ ~ forall p, offered s (dep_package d) p -> window_readable d (p_version p) (p_release p))) \/
  ((exists c, e = ECycle c) /\ exists x y, to_build s A x /\ wants_source s x y /\ x <> y /\ rtc (fun u v => wants_source s u v /\ u <> v) y x) \/
  (exists wanted, NoDup wanted /\ (forall p, In p wanted <-> to_install s A p) /\ plan_install s it wanted = Err e).
Proof.
  intros H I E. pose proof (emerge_body_spec s it A H I) as P. rewrite E in P. destruct P as [(x & P1 & P2)|[(c & -> & P)|P]].
  - destruct P2 as [[-> P2]|(sp & d & P2 & P3 & P4)].
    + left. split; [reflexivity|]. exists x. split; [exact P1|]. intros sp K. apply P2. now exists sp.
    + destruct P4 as [[-> P4]|[(-> & P4 & P5)|[(-> & P4 & P5 & P6)|(-> & y & P4 & P5)]]].
      * right. right. left. split; [reflexivity|]. exists x, sp, d. auto.
      * right. right. left. split; [reflexivity|]. exists x, sp, d. auto.
      * right. left. split; [reflexivity|]. exists x, sp, d. auto 8.
      * left. split; [reflexivity|]. exists y. split; [eapply to_build_step; [exact P1|]; destruct P4 as (Q1 & Q2 & Q3); exists sp, d; auto|].
        intros sp' K. apply P5. now exists sp'.
  - right. right. right. left. split; [eauto|exact P].
  - right. right. right. right. exact P.
Qed.
