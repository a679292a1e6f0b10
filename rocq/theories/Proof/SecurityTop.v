(** * upgrade --security *)
From Coq Require Import String List ZArith Lia.
From stdpp Require Import gmap strings relations.
From Verif Require Import Proof.GraphFacts.
From Verif Require Import Model.Py Model.Version Model.ItemByRepo Model.Dependency Model.Package Model.ComponentDB Model.Databases
  Model.InstallDB Model.System Model.Graph Model.Plan Model.Path Model.Fs Model.Ops Model.Security
  Spec.VersionSpec Spec.ItemByRepoSpec Spec.DependencySpec Spec.DatabaseSpec Spec.SystemSpec Spec.GraphSpec Spec.PlanSpec Spec.PathSpec Spec.FsSpec Spec.OpsSpec Spec.SecuritySpec
  Proof.ItemByRepoFacts Proof.DatabaseFacts Proof.ComponentFacts Proof.InstallDBFacts Proof.SystemFacts Proof.PlanFacts Proof.UpgradeFacts Proof.PlanTop
  Proof.OpsFacts Proof.OpsTop Proof.OpsSteps Proof.Reinstall Proof.Shop Proof.Conflicts Proof.Consent.
Open Scope string_scope.

Section updates.
  Context (release : string).
  Lemma later_updates_spec l : match later_updates release l with
    | Ok m => forall u, In u m <-> In u l /\ text_before release (u_release u)
    | Err e => e = EValue /\ exists u, In u l /\ (~ readable release \/ ~ readable (u_release u))
    end.
  Proof.
    unfold later_updates. assert (G : forall l acc, match foldM (fun acc u => b <- later release u ;; Ok (if b : bool then acc ++ [u] else acc)%list) l acc with
      | Ok m => forall u, In u m <-> In u acc \/ (In u l /\ text_before release (u_release u))
      | Err e => e = EValue /\ exists u, In u l /\ (~ readable release \/ ~ readable (u_release u)) end).
    { clear l. induction l as [|a l IH]; intros acc; cbn [foldM].
      - intros u. cbn. tauto.
      - pose proof (release_lt release (u_release a)) as L. unfold later at 1. destruct (_ <- parse_version release ;; _) as [b|e]; cbn [bind].
        + specialize (IH (if b then acc ++ [a] else acc)%list). destruct (foldM _ l _) as [m|e].
          * intros u. rewrite IH. destruct b.
            -- rewrite in_app_iff. cbn. split; [intros [[K|[<-|[]]]|[K1 K2]]; auto; right; split; [now left|now apply L]|intros [K|[[<-|K1] K2]]; auto].
            -- cbn. split; [intros [K|[K1 K2]]; auto|intros [K|[[<-|K1] K2]]; auto]. apply L in K2. discriminate.
          * destruct IH as [-> (u & K1 & K2)]. split; [reflexivity|]. exists u. split; [now right|exact K2].
        + destruct L as (-> & _ & L). split; [reflexivity|]. exists a. split; [now left|exact L]. }
    specialize (G l []). destruct (foldM _ l []) as [m|e]; [|exact G]. intros u. rewrite G. cbn. tauto.
  Qed.
End updates.

Lemma security_iff u : is_security u = true <-> u_type u = Some "security".
Proof. unfold is_security. destruct (u_type u) as [t|]; [|split; discriminate]. rewrite String.eqb_eq. split; [now intros ->|now intros [= ->]]. Qed.

Lemma key_answer {A} (d : shelf A) n r : exists b, has_key d n r = Ok b.
Proof. destruct (place_cases r) as [P|[->| ->]]; [rewrite has_key_place by exact P; eauto|cbn; eauto|cbn; eauto]. Qed.

Section due.
  Context (o : opts) (history : package -> list update).
  Lemma due_spec s x : system s -> match due o s x with
    | Ok b => b = true <-> upgrade_due s (o_ignore_build o) x
    | Err e => e = EValue /\ exists v r b p, is_installed (y_inst s) x = true /\ get_version (y_inst s) x = Ok (v, r, b) /\ offered s x p /\
        (~ readable r \/ ~ readable (p_release p))
    end.
  Proof.
    intros S. pose proof (is_upgradable_spec s x (o_ignore_build o) S) as U. destruct (due o s x) as [b|e] eqn:E.
    - rewrite (due_upgradable o _ _ _ S E) in U. exact U.
    - assert (X : is_upgradable s x (o_ignore_build o) = Err e).
      { revert E. unfold due, is_upgradable, is_inst. destruct (is_installed (y_inst s) x); [|auto]. destruct (get_version (y_inst s) x) as [vrb|e1]; [|auto]. cbn [bind].
        pose proof (proj1 (system_agree (y_db s) x RRepos (yi_reach _ (lived_yinv _ _ S)))) as A. unfold get_repo.
        destruct (has_package (y_db s) x RRepos) as [c|e1] eqn:HP; cbn [bind].
        - destruct c; [|discriminate]. destruct (get_package (y_db s) x RRepos) as [p|e1] eqn:G; cbn [bind].
          + unfold Ops.given. destruct vrb.2 as [b1|], (p_build p) as [b2|]; cbn [negb default];
              rewrite ?orb_true_r; cbn [negb orb]; auto; destruct (o_ignore_build o); cbn [negb orb]; auto.
            destruct (Z.eqb b1 0); cbn [negb orb]; auto. destruct (Z.eqb b2 0); cbn [negb orb]; auto.
          + destruct A as [A _]. destruct (proj1 A eq_refl) as [p K]. discriminate K.
        - intros [= ->]. exfalso. destruct (key_answer (db_pkg (y_db s)) x RRepos) as [b K]. unfold has_package in HP. congruence. }
      rewrite X in U. destruct U as (-> & _ & U). auto.
  Qed.
  Lemma due_security_spec s x : system s -> match due_security o history s x with
    | Ok (Some t) => security_due s history (o_ignore_build o) x /\ exists a b, t = a ++ ", ver=" ++ b
    | Ok None => ~ security_due s history (o_ignore_build o) x
    | Err e => e = EValue /\ bad_release s history x
    end.
  Proof.
    intros S. unfold due_security, is_inst. destruct (is_installed (y_inst s) x) eqn:I; [|intros (? & ? & ? & ? & ? & K & _); congruence].
    assert (V : exists v r b, get_version (y_inst s) x = Ok (v, r, b)).
    { destruct (proj1 (proj1 (system_agrees s x S)) I) as [p Hp]. destruct (proj2 (system_agrees s x S) p Hp) as [_ K]. eauto. }
    destruct V as (v & r & b & V). rewrite V. cbn [bind fst snd].
    pose proof (proj1 (system_agree (y_db s) x RRepos (yi_reach _ (lived_yinv _ _ S)))) as [A _].
    destruct (key_answer (db_pkg (y_db s)) x RRepos) as [c HP]. unfold has_package in *. rewrite HP in *. cbn [bind]. destruct c.
    2:{ intros (? & ? & ? & p & ? & _ & _ & K & _). unfold offered in K. discriminate (proj2 A (ex_intro _ p K)). }
    destruct (proj1 A eq_refl) as [p G]. rewrite G. cbn [bind]. pose proof (later_updates_spec r (history p)) as L.
    destruct (later_updates r (history p)) as [us|e]; cbn [bind].
    2:{ destruct L as (-> & u & L1 & L2). split; [reflexivity|]. exists v, r, b, p. split; [exact I|]. split; [exact V|]. split; [exact G|]. destruct L2 as [L2|L2]; eauto. }
    destruct (existsb is_security us) eqn:X.
    2:{ intros (v' & r' & b' & p' & u & _ & V' & O & _ & Hu & Ht & Hl). unfold offered in O. rewrite V in V'. rewrite G in O. injection V' as <- <- <-. injection O as <-.
        assert (K : existsb is_security us = true) by (apply existsb_exists; exists u; split; [now apply L|now apply security_iff]). congruence. }
    apply existsb_exists in X as (u & Hu & Ht). apply security_iff in Ht. apply L in Hu as [Hu Hl].
    pose proof (due_spec s x S) as D. destruct (due o s x) as [d|e]; cbn [bind].
    2:{ destruct D as (-> & v' & r' & b' & p' & _ & V' & O & K). split; [reflexivity|]. exists v', r', b', p'. split; [exact I|]. split; [exact V'|]. split; [exact O|]. tauto. }
    destruct d.
    - split.
      + destruct (proj1 D eq_refl) as (v' & r' & b' & p' & _ & V' & O & K). unfold offered in O. rewrite V in V'. rewrite G in O. injection V' as <- <- <-. injection O as <-. exists v, r, b, p, u. auto 10.
      + destruct (List.last (map Some (history p)) None) as [z|] eqn:Z.
        * unfold update_str. eauto.
        * exfalso. destruct (history p) as [|y l]; [destruct Hu|]. clear -Z. revert y Z. induction l as [|a l IH]; intros y Z; [discriminate Z|]. apply (IH a). exact Z.
    - intros (v' & r' & b' & p' & u' & _ & V' & O & K & _). assert (upgrade_due s (o_ignore_build o) x) as K2 by (exists v', r', b', p'; auto). apply D in K2. discriminate.
  Qed.
End due.

Lemma mapM_cases {A B} (f : A -> res B) l : match Py.mapM f l with
  | Ok ys => Forall2 (fun x y => f x = Ok y) l ys
  | Err e => exists x, In x l /\ f x = Err e end.
Proof.
  induction l as [|a l IH]; [constructor|]. cbn [Py.mapM]. destruct (f a) as [y|e] eqn:E; cbn [bind]; [|exists a; split; [now left|exact E]].
  destruct (Py.mapM f l) as [ys|e]; cbn [bind]; [now constructor|]. destruct IH as (x & K1 & K2). exists x. split; [now right|exact K2].
Qed.

Section top.
  Context (h : host) (o : opts) (F : fair h) (history : package -> list update).
  Lemma security_run A w w' r : system (w_sys w) -> plain_names (w_sys w) -> upgrade_security h o history A w = (w', r) ->
    (forall x, ~ installed_now w w' x) /\ (refuses h QConflicts -> untouched w w') /\
    match r with
    | Ok b => b = true /\ w' = w /\ forall x, requested (w_sys w) (wanted (w_sys w) A) x -> ~ security_due (w_sys w) history (o_ignore_build o) x
    | Err e => (exists x, requested (w_sys w) (wanted (w_sys w) A) x /\ security_due (w_sys w) history (o_ignore_build o) x) \/
               (e = EValue /\ w' = w /\ exists x, requested (w_sys w) (wanted (w_sys w) A) x /\ bad_release (w_sys w) history x)
    end.
  Proof.
    intros S PN H. unfold upgrade_security in H. fold (wanted (w_sys w) A) in H.
    destruct (expand_requested _ (wanted (w_sys w) A) (yi_reach _ (lived_yinv _ _ S))) as (R & ER & HR).
    assert (Q0 : quiet h w w) by reflexivity.
    assert (QQ : forall v, quiet h w v -> (forall x, ~ installed_now w v x) /\ (refuses h QConflicts -> untouched w v)).
    { intros v [Q1 Q2]. split; [|exact Q2]. intros x I. exact (logs_installed _ _ _ _ Q1 I). }
    apply bindM_any in H as (w0 & [(e & E & -> & _)|(A0 & E0 & H)]).
    { injection E as _ E. unfold wanted in ER. rewrite ER in E. discriminate E. }
    apply look_ok in E0 as [-> E0]. unfold wanted in ER. rewrite ER in E0. injection E0 as <-.
    pose proof (mapM_cases (due_security o history (w_sys w)) (h_list h R)) as MC.
    apply bindM_any in H as (w0 & [(e & E & -> & ->)|(found & E1 & H)]).
    { injection E as <- E. rewrite E in MC. destruct MC as (x & K1 & K2). pose proof (due_security_spec o history _ x S) as D. rewrite K2 in D. destruct D as [-> D].
      destruct (QQ w Q0) as [Q1 Q2]. split; [exact Q1|]. split; [exact Q2|]. right. split; [reflexivity|]. split; [reflexivity|]. exists x. split; [apply HR; now apply (proj2 F)|exact D]. }
    apply look_ok in E1 as [-> E1]. rewrite E1 in MC.
    destruct (omap id found) as [|a Ap] eqn:OM.
    { injection H as <- <-. destruct (QQ w Q0) as [Q1 Q2]. split; [exact Q1|]. split; [exact Q2|]. split; [reflexivity|]. split; [reflexivity|].
      intros x Hx D. apply HR in Hx. apply (proj2 F) in Hx. apply elem_of_list_In, elem_of_list_lookup in Hx as [i Hi]. destruct (Forall2_lookup_l _ _ _ _ _ MC Hi) as (y & Hy & EY).
      pose proof (due_security_spec o history _ x S) as DS. rewrite EY in DS. destruct y as [t|]; [|exact (DS D)].
      assert (K : t ∈ omap id found) by (apply elem_of_list_omap; exists (Some t); split; [eapply elem_of_list_lookup_2; exact Hy|reflexivity]). rewrite OM in K. inversion K. }
    assert (DUE : (exists x, requested (w_sys w) (wanted (w_sys w) A) x /\ security_due (w_sys w) history (o_ignore_build o) x) /\ exists b c, a = b ++ ", ver=" ++ c).
    { assert (K : a ∈ omap id found) by (rewrite OM; now left). apply elem_of_list_omap in K as (y & Hy & EY). cbn in EY. subst y. apply elem_of_list_lookup in Hy as [i Hi].
      destruct (Forall2_lookup_r _ _ _ _ _ MC Hi) as (x & Hx & EX). pose proof (due_security_spec o history _ x S) as DS. rewrite EX in DS. destruct DS as [D1 D2]. split; [|exact D2].
      exists x. split; [|exact D1]. apply HR. apply (proj2 F). apply elem_of_list_In. eapply elem_of_list_lookup_2; exact Hx. }
    destruct DUE as [DUE TXT]. set (As := list_to_set (a :: Ap) : gset string) in *. cbn zeta in H.
    assert (FIN : forall v e, quiet h w v -> (v, Err e) = (w', r) -> (forall x, ~ installed_now w w' x) /\ (refuses h QConflicts -> untouched w w') /\
      match r with
      | Ok b => b = true /\ w' = w /\ forall x, requested (w_sys w) (wanted (w_sys w) A) x -> ~ security_due (w_sys w) history (o_ignore_build o) x
      | Err e => (exists x, requested (w_sys w) (wanted (w_sys w) A) x /\ security_due (w_sys w) history (o_ignore_build o) x) \/
               (e = EValue /\ w' = w /\ exists x, requested (w_sys w) (wanted (w_sys w) A) x /\ bad_release (w_sys w) history x) end).
    { intros v e Q [= <- <-]. destruct (QQ v Q) as [Q1 Q2]. split; [exact Q1|]. split; [exact Q2|]. now left. }
    pose proof (quiet_upgrade_base h o ∅ w) as Q1. pose proof (upgrade_base_tracks h o ∅ w S) as [_ S1]. pose proof (upgrade_base_shop h o ∅ w) as SH1.
    apply bindM_any in H as (w1 & [(e & E & -> & ->)|(base & E2 & H)]).
    { rewrite E in Q1. apply (FIN w1 e Q1 eq_refl). }
    rewrite E2 in Q1, S1, SH1. cbn [fst snd] in *. specialize (S1 base eq_refl).
    pose proof (quiet_plan_upgrade h o (h_list h (As ∪ base)) w1) as Q2. pose proof (plan_upgrade_tracks h o (h_list h (As ∪ base)) w1 S1) as [_ S2].
    pose proof (plan_upgrade_shop h o (h_list h (As ∪ base)) w1) as SH2.
    apply bindM_any in H as (w2 & [(e & E & -> & ->)|(order & E3 & H)]).
    { destruct (o_ignore_dependency o); [discriminate|]. rewrite E in Q2. apply (FIN w2 e); [|reflexivity]. etransitivity; eassumption. }
    assert (P : planned_up h o (As ∪ base) w1 w2 order /\ quiet h w w2 /\ keeps_shop w w2).
    { unfold planned_up. destruct (o_ignore_dependency o) eqn:ID.
      - injection E3 as <- <-. auto.
      - rewrite E3 in Q2, SH2. split; [auto|]. split; [etransitivity; eassumption|]. unfold keeps_shop in *. cbn [fst] in *. etransitivity; eassumption. }
    destruct P as (P & Q3 & SH3).
    assert (IN : In a order).
    { apply (planned_up_all h o F _ _ _ _ S1 P). apply elem_of_union. left. apply elem_of_list_to_set. now left. }
    apply bindM_any in H as (w3 & [(e & E & -> & ->)|(u & E4 & H)]).
    { injection E as <- _. apply (FIN w2 e Q3 eq_refl). }
    exfalso. apply look_ok in E4 as [_ E4]. unfold sizes in E4. pose proof (mapM_cases (fun x => get_package (y_db (w_sys w2)) x RRepos) order) as MC2.
    destruct (Py.mapM _ order) as [ps|e]; [|discriminate]. apply elem_of_list_In, elem_of_list_lookup in IN as [i Hi]. destruct (Forall2_lookup_l _ _ _ _ _ MC2 Hi) as (p & _ & EP).
    destruct TXT as (b & c & TXT). apply (PN a p); [|eauto]. unfold offered. unfold keeps_shop in SH3.
    now rewrite <- (shop_get _ _ SH3).
  Qed.
End top.

Section dry.
  Context (h : host) (o : opts) (D : o_dry_run o = true) (history : package -> list update).
  Lemma dry_security A : keeps untouched (upgrade_security h o history A).
  Proof. unfold upgrade_security. rewrite D. kp; try apply dry_upgrade_base; try apply dry_plan_upgrade; try exact D. Qed.
End dry.
