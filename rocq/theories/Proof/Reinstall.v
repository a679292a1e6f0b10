(** * Installing over an installed package *)
From Coq Require Import String Ascii ZArith List.
From stdpp Require Import gmap strings relations.
From Verif Require Import Proof.GraphFacts.
From Verif Require Import Model.Py Model.Version Model.ItemByRepo Model.Dependency Model.Package Model.ComponentDB Model.Databases
  Model.InstallDB Model.System Model.Graph Model.Plan Model.Path Model.Fs Model.Ops
  Spec.VersionSpec Spec.DependencySpec Spec.ItemByRepoSpec Spec.DatabaseSpec Spec.SystemSpec Spec.GraphSpec Spec.PlanSpec
  Spec.PathSpec Spec.FsSpec Spec.OpsSpec
  Proof.PyFacts Proof.VersionSyntax Proof.VersionFacts Proof.DependencyFacts Proof.ItemByRepoFacts Proof.DatabaseFacts Proof.RevDepFacts Proof.ComponentFacts Proof.InstallDBFacts Proof.SystemFacts
  Proof.PlanFacts Proof.UpgradeFacts Proof.PlanTop Proof.FsFacts Proof.OpsFacts Proof.OpsTop Proof.OpsSteps.
Open Scope string_scope.

Lemma text_before_parsed a b v w : parse_version a = Ok v -> parse_version b = Ok w -> (text_before a b <-> ver_before v w).
Proof.
  intros A B. split; [|intros K; exists v, w; split; [now apply parse_iff|split; [now apply parse_iff|exact K]]].
  intros (v' & w' & V & W & K). apply parse_iff in V, W. congruence.
Qed.
Lemma text_eq_parsed a b v w : parse_version a = Ok v -> parse_version b = Ok w -> (text_eq a b <-> ver_same v w).
Proof.
  intros A B. split; [|intros K; exists v, w; split; [now apply parse_iff|split; [now apply parse_iff|exact K]]].
  intros (v' & w' & V & W & K). apply parse_iff in V, W. congruence.
Qed.
Lemma given_spec b : Ops.given b = true <-> exists x, build_given b x.
Proof.
  unfold Ops.given, build_given. destruct b as [z|]; [|split; [discriminate|intros (x & [=] & _)]].
  rewrite negb_true_iff, Z.eqb_neq. split; [intros N; exists z; auto|intros (x & [= <-] & N); exact N].
Qed.

Section compare.
  Context (o : opts) (info : iinfo) (p : package).
  Let ign := o_ignore_build o.
  Lemma builds_decide_spec : negb (String.eqb (i_distribution info) (p_distribution p)) || negb (Ops.given (i_build info)) || negb (Ops.given (p_build p)) || o_ignore_build o = false
    <-> builds_decide ign info p.
  Proof.
    rewrite !orb_false_iff, !negb_false_iff, String.eqb_eq, !given_spec. unfold builds_decide, ign. tauto.
  Qed.
  Lemma newer_builds_spec : negb (o_ignore_build o) && Ops.given (i_build info) && Ops.given (p_build p) && (default 0 (i_build info) <? default 0 (p_build p))%Z = true
    <-> ign = false /\ exists x y, build_given (i_build info) x /\ build_given (p_build p) y /\ (x < y)%Z.
  Proof.
    rewrite !andb_true_iff, negb_true_iff, !given_spec, Z.ltb_lt. unfold ign, build_given. split.
    - intros [[[A (x & X1 & X2)] (y & Y1 & Y2)] L]. split; [exact A|]. exists x, y. rewrite X1, Y1 in *. cbn in L. auto.
    - intros [A (x & y & [X1 X2] & [Y1 Y2] & L)]. rewrite X1, Y1. cbn. split; [split; [split; [exact A|eauto]|eauto]|exact L].
  Qed.

  Lemma compare_verdict : all_readable info p ->
    exists v, compare_installed o info p = Ok v /\
    match v with
    | VSame => same_one ign info p
    | VUpgrade => ~ same_one ign info p /\ newer_one ign info p
    | VDowngrade None => ~ same_one ign info p /\ ~ newer_one ign info p /\ text_before (p_version p) (i_version info)
    | VDowngrade (Some q) => q <> QReinstall /\ question_for ign info p q
    end.
  Proof.
    intros ((iv & IV) & (ir & IR) & (v & V) & (r & R)). apply parse_iff in IV, IR, V, R.
    unfold compare_installed.
    pose proof (text_before_parsed _ _ _ _ IV V) as T1. pose proof (text_before_parsed _ _ _ _ IR R) as T2.
    pose proof (text_before_parsed _ _ _ _ V IV) as T3. pose proof (text_before_parsed _ _ _ _ R IR) as T4. pose proof (text_eq_parsed _ _ _ _ R IR) as T5.
    rewrite V, IV, R, IR. cbn [bind].
    assert (S : exists b, (if negb (String.eqb (i_distribution info) (p_distribution p)) || negb (Ops.given (i_build info)) || negb (Ops.given (p_build p)) || o_ignore_build o
             then Ok (v_eq r ir) else Ok (bool_decide (p_build p = i_build info))) = Ok b /\ (b = true <-> same_one ign info p)).
    { pose proof builds_decide_spec as B. destruct (_ || _).
      - exists (v_eq r ir). split; [reflexivity|]. destruct (v_ops r ir) as (_ & _ & E & _). rewrite E, <- T5. unfold same_one.
        assert (N : ~ builds_decide ign info p) by (intros K; apply B in K; discriminate). tauto.
      - exists (bool_decide (p_build p = i_build info)). split; [reflexivity|]. rewrite bool_decide_eq_true. assert (Y : builds_decide ign info p) by now apply B. unfold same_one. tauto. }
    destruct S as (b & -> & S). cbn [bind]. destruct b; [exists VSame; split; [reflexivity|now apply S]|].
    assert (NS : ~ same_one ign info p) by (intros K; apply S in K; discriminate).
    destruct (v_ops v iv) as (L1 & G1 & _). destruct (v_ops r ir) as (L2 & G2 & _). pose proof newer_builds_spec as NB.
    destruct (v_gt v iv); [exists VUpgrade; split; [reflexivity|split; [exact NS|left; apply T1, G1; reflexivity]]|].
    destruct (v_gt r ir); [exists VUpgrade; split; [reflexivity|split; [exact NS|right; left; apply T2, G2; reflexivity]]|].
    destruct (negb (o_ignore_build o) && _ && _ && _); [exists VUpgrade; split; [reflexivity|split; [exact NS|right; right; apply NB; reflexivity]]|].
    assert (NN : ~ newer_one ign info p).
    { intros [K|[K|K]]; [apply T1, G1 in K|apply T2, G2 in K|apply NB in K]; discriminate. }
    destruct (v_lt v iv); [eexists; split; [reflexivity|]; split; [exact NS|]; split; [exact NN|]; apply T3, L1; reflexivity|].
    assert (N1 : ~ text_before (p_version p) (i_version info)) by (intros K; apply T3, L1 in K; discriminate).
    destruct (v_lt r ir).
    - eexists. split; [reflexivity|]. split; [discriminate|]. right. split; [exact NS|]. split; [exact NN|]. split; [exact N1|]. left. split; [apply T4, L2; reflexivity|reflexivity].
    - eexists. split; [reflexivity|]. split; [discriminate|]. right. split; [exact NS|]. split; [exact NN|]. split; [exact N1|]. right. split; [|reflexivity]. intros K. apply T4, L2 in K. discriminate.
  Qed.
  (** Without it: an answer is still the right one. *)
  Lemma compare_err e : compare_installed o info p = Err e -> e = EValue /\ ~ all_readable info p.
  Proof.
    intros H. split; [|intros K; destruct (compare_verdict K) as (v & E & _); congruence].
    unfold compare_installed in H.
    assert (P : forall s x, parse_version s = Err x -> x = EValue) by (intros s x; apply parse_version_err).
    destruct (parse_version (p_release p)) as [r|] eqn:R, (parse_version (i_release info)) as [ir|] eqn:IR, (parse_version (p_version p)) as [v|] eqn:V, (parse_version (i_version info)) as [iv|] eqn:IV;
      cbn [bind] in H; repeat (match type of H with context [if ?b then _ else _] => destruct b; cbn [bind] in H end); try discriminate; try (injection H as <-; eauto).
  Qed.
End compare.

(** ** What is asked *)
Definition logs (P : event -> Prop) (w w' : world) : Prop := exists new, w_log w' = (new ++ w_log w)%list /\ Forall P new.
Global Instance logs_pre P : PreOrder (logs P).
Proof.
  split; [intros w; exists []; split; [reflexivity|constructor]|]. intros a b c (n1 & E1 & F1) (n2 & E2 & F2). exists (n2 ++ n1)%list.
  rewrite E2, E1. split; [apply app_assoc|]. now apply Forall_app.
Qed.
Lemma logs_same P w w' : w_log w' = w_log w -> logs P w w'.
Proof. intros E. exists []. split; [exact E|constructor]. Qed.
Lemma logs_commit P f : keeps (logs P) (commit f).
Proof. intros w. unfold commit. destruct (f (w_sys w)); [apply logs_same; reflexivity|reflexivity]. Qed.
Lemma logs_touch P f : keeps (logs P) (touch f).
Proof. intros w. unfold touch. destruct (f (w_fs w)); [apply logs_same; reflexivity|reflexivity]. Qed.
Lemma logs_mono (P Q : event -> Prop) w w' : (forall e, P e -> Q e) -> logs P w w' -> logs Q w w'.
Proof. intros H (new & E & F). exists new. split; [exact E|]. eapply Forall_impl; eauto. Qed.
Definition silent (e : event) : Prop := forall q b, e <> EvAsked q b.
Lemma silent_asked w w' q b : logs silent w w' -> ~ asked w w' q b.
Proof.
  intros (new & E & F) (new' & E' & I). rewrite E in E'. apply app_inv_tail in E'. subst. rewrite List.Forall_forall in F. now apply (F _ I q b).
Qed.
Lemma asked_trans w1 w2 w3 q b : (logs (fun _ => True) w1 w2) -> (logs (fun _ => True) w2 w3) -> (asked w1 w3 q b <-> asked w1 w2 q b \/ asked w2 w3 q b).
Proof.
  intros (n1 & E1 & _) (n2 & E2 & _). unfold asked. split.
  - intros (n & E & I). rewrite E2, E1, app_assoc in E. apply app_inv_tail in E. subst n. apply in_app_or in I as [I|I]; eauto.
  - intros [(n & E & I)|(n & E & I)].
    + rewrite E1 in E. apply app_inv_tail in E. subst n. exists (n2 ++ n1)%list. rewrite E2, E1, app_assoc. split; [reflexivity|]. apply in_or_app. now right.
    + rewrite E2 in E. apply app_inv_tail in E. subst n. exists (n2 ++ n1)%list. rewrite E2, E1, app_assoc. split; [reflexivity|]. apply in_or_app. now left.
Qed.

Section asking.
  Context (h : host) (o : opts).
  Lemma hook_silent e n : silent e -> keeps (logs silent) (hook h e n).
  Proof. intros S w. unfold hook. destruct (h_hook h (w_log w) n); exists [e]; (split; [reflexivity|repeat constructor; exact S]). Qed.
  Lemma check_relations_silent k i : keeps (logs silent) (check_relations h o k i).
  Proof. unfold check_relations. kp. apply logs_commit. Qed.
  Lemma extract_silent k old : keeps (logs silent) (extract_install h o k old).
  Proof. intros w. apply logs_same. apply extract_install_fs. Qed.
  Lemma store_silent k old : keeps (logs silent) (store_pisi_files k old).
  Proof. unfold store_pisi_files. kp; apply logs_commit. Qed.
  (** the part of install_package after the questions *)
  Definition after_questions (k : pkgfile) (old : option (list finfo * iinfo)) : M unit :=
    do! extract_install h o k (option_map fst old) in
    do! store_pisi_files k old in
    do! (if o_comar o then hook h (EvPostInstall (p_name (k_pkg k))) (p_name (k_pkg k)) else ret tt) in
    do! commit (fun s => update_databases s (k_pkg k) (k_files k) (negb (o_comar o)) (option_map fst old)) in
    note (EvInstalled (p_name (k_pkg k))).
  Lemma install_package_split k i ask : install_package h o k i ask =
    (do! check_relations h o k i in let! old := check_reinstall h o k ask in after_questions k old).
  Proof. reflexivity. Qed.
  Lemma after_silent k old : keeps (logs silent) (after_questions k old).
  Proof.
    unfold after_questions. kp; try apply extract_silent; try apply store_silent; try apply logs_commit.
    - apply hook_silent. intros q b. discriminate.
    - intros w. exists [EvInstalled (p_name (k_pkg k))]. split; [reflexivity|]. repeat constructor. intros q b. discriminate.
  Qed.
  Lemma silent_any w w' : logs silent w w' -> logs (fun _ => True) w w'.
  Proof. apply logs_mono. auto. Qed.

  (** the questions of check_reinstall *)
  Definition ask_about (ask : bool) (v : verdict) : M unit :=
    if negb ask then ret tt
    else match v with
         | VSame => let! yes := confirm h QReinstall in if yes : bool then ret tt else throw EError
         | VUpgrade | VDowngrade None => ret tt
         | VDowngrade (Some q) => let! yes := confirm h q in if yes : bool then ret tt else throw EError
         end.
  Definition question_of (v : verdict) : option question :=
    match v with VSame => Some QReinstall | VDowngrade (Some q) => Some q | _ => None end.
  Lemma ask_about_spec ask v w : ask_about ask v w =
    match ask, question_of v with
    | true, Some q => let b := h_answer h (w_log w) q in
        (mkWorld (w_sys w) (w_fs w) (w_past w) (EvAsked q b :: w_log w), if b then Ok tt else Err EError)
    | _, _ => (w, Ok tt)
    end.
  Proof.
    destruct ask; [|reflexivity]. unfold ask_about. cbn [negb]. destruct v as [| |[q|]]; try reflexivity; unfold bindM, confirm; cbn [question_of]; cbn zeta; destruct (h_answer h (w_log w) _); reflexivity.
  Qed.
  Lemma check_reinstall_form k ask w : check_reinstall h o k ask w =
    if is_installed (y_inst (w_sys w)) (p_name (k_pkg k)) then
      match get_info (y_inst (w_sys w)) (p_name (k_pkg k)) with
      | Err e => (w, Err e)
      | Ok info =>
          match compare_installed o info (k_pkg k) with
          | Err e => (w, Err e)
          | Ok v => (do! ask_about ask v in
                     let! old := look (fun s => stored_list s (p_name (k_pkg k))) in
                     do! look (fun s => get_package (y_db s) (p_name (k_pkg k)) RInst) in
                     do! run_preremove h o (p_name (k_pkg k)) in
                     ret (Some (old, info))) w
          end
      end
    else (w, Ok None).
  Proof.
    unfold check_reinstall. cbn zeta. unfold bindM at 1. cbn [look]. unfold is_inst. destruct (is_installed _ _); [|reflexivity].
    unfold bindM at 1. cbn [look]. destruct (get_info _ _) as [info|e]; [|reflexivity]. unfold bindM at 1. cbn [lift]. destruct (compare_installed o info (k_pkg k)); reflexivity.
  Qed.
  Lemma rest_silent k (info : iinfo) : keeps (logs silent) (let! old := look (fun s => stored_list s (p_name (k_pkg k))) in
                     do! look (fun s => get_package (y_db s) (p_name (k_pkg k)) RInst) in
                     do! run_preremove h o (p_name (k_pkg k)) in
                     ret (Some (old, info))).
  Proof. unfold run_preremove. kp. apply hook_silent. intros q b. discriminate. Qed.

  (** check_relations leaves alone what the questions look at *)
  Lemma check_relations_records k i w : same_records (w_sys w) (w_sys (check_relations h o k i w).1) /\ w_fs (check_relations h o k i w).1 = w_fs w /\ w_log (check_relations h o k i w).1 = w_log w.
  Proof.
    split; [apply check_relations_unrecorded|].
    assert (K : keeps (fun w w' => w_fs w' = w_fs w /\ w_log w' = w_log w) (check_relations h o k i)); [|apply K].
    assert (PR : PreOrder (fun w w' => w_fs w' = w_fs w /\ w_log w' = w_log w)) by (split; [intros x; auto|intros x y z [-> ->] [-> ->]; auto]).
    unfold check_relations. kp. intros x. unfold commit. destruct (d <- _ ;; _); auto.
  Qed.

  Lemma install_asks k i ask w w' r : install_package h o k i ask w = (w', r) ->
    (forall q b, asked w w' q b -> ask = true /\ exists info v, is_installed (y_inst (w_sys w)) (p_name (k_pkg k)) = true /\
       get_info (y_inst (w_sys w)) (p_name (k_pkg k)) = Ok info /\ compare_installed o info (k_pkg k) = Ok v /\ question_of v = Some q /\
       (b = false -> (exists e, r = Err e) /\ w_fs w' = w_fs w /\ same_records (w_sys w) (w_sys w'))) /\
    (forall info v q, r = Ok tt -> ask = true -> is_installed (y_inst (w_sys w)) (p_name (k_pkg k)) = true ->
       get_info (y_inst (w_sys w)) (p_name (k_pkg k)) = Ok info -> compare_installed o info (k_pkg k) = Ok v -> question_of v = Some q -> asked w w' q true).
  Proof.
    intros H. rewrite install_package_split in H. unfold bindM in H at 1.
    destruct (check_relations_records k i w) as (S1 & F1 & L1). destruct (check_relations h o k i w) as [w1 [u1|e1]]; cbn [fst] in *.
    2: { injection H as <- <-. split; [|discriminate]. intros q b K. exfalso. eapply silent_asked; [|exact K]. now apply logs_same. }
    unfold bindM in H at 1. rewrite check_reinstall_form in H. destruct S1 as (I1 & S1). rewrite I1 in H.
    assert (LS : forall w2 r2, logs silent w1 w2 -> (w2, r2) = (w', r) -> forall q b, ~ asked w w' q b).
    { intros w2 r2 K [= <- <-] q b. apply silent_asked. etransitivity; [apply logs_same; exact L1|exact K]. }
    destruct (is_installed (y_inst (w_sys w)) (p_name (k_pkg k))) eqn:II.
    2: { pose proof (after_silent k None w1) as K. rewrite H in K. cbn [fst] in K. split; [|discriminate]. intros q b A. exfalso. eapply LS; [exact K|reflexivity|exact A]. }
    destruct (get_info _ _) as [info|e] eqn:GI.
    2: { injection H as <- <-. split; [|discriminate]. intros q b A. exfalso. eapply LS; [reflexivity|reflexivity|exact A]. }
    destruct (compare_installed o info (k_pkg k)) as [v|e] eqn:CI.
    2: { injection H as <- <-. split; [|discriminate]. intros q b A. exfalso. eapply LS; [reflexivity|reflexivity|exact A]. }
    unfold bindM in H at 1. rewrite ask_about_spec in H.
    destruct ask; [destruct (question_of v) as [q0|] eqn:QV|].
    - cbn zeta in H. remember (h_answer h (w_log w1) q0) as b0 eqn:EB. set (w2 := mkWorld (w_sys w1) (w_fs w1) (w_past w1) (EvAsked q0 b0 :: w_log w1)) in *.
      assert (K12 : logs (fun _ => True) w w2) by (exists [EvAsked q0 b0]; split; [cbn; now rewrite L1|repeat constructor]).
      assert (A0 : forall q b, asked w w2 q b <-> q = q0 /\ b = b0).
      { intros q b. unfold asked. split; [|intros [-> ->]; exists [EvAsked q0 b0]; split; [cbn; now rewrite L1|now left]].
        intros (n & E & In0). cbn [w2 w_log] in E. rewrite L1 in E. change (EvAsked q0 b0 :: w_log w)%list with ([EvAsked q0 b0] ++ w_log w)%list in E. apply app_inv_tail in E. subst n.
        destruct In0 as [[= -> ->]|[]]. auto. }
      destruct b0.
      + pose proof (rest_silent k info w2) as K3. destruct ((let! old := _ in _) w2) as [w3 [old|e]] eqn:E3; cbn [fst] in K3.
        * pose proof (after_silent k old w3) as K4. rewrite H in K4. cbn [fst] in K4.
          assert (K24 : logs silent w2 w') by (etransitivity; eassumption).
          assert (AA : forall q b, asked w w' q b <-> q = q0 /\ b = true).
          { intros q b. rewrite (asked_trans w w2 w') by (auto using silent_any). rewrite A0. split; [intros [?|K]; [auto|]|auto]. exfalso. eapply silent_asked; eauto. }
          split; [intros q b K; apply AA in K as [-> ->]|intros info' v' q' _ _ _ [= <-] C' Q'; rewrite CI in C'; injection C' as <-; rewrite QV in Q'; injection Q' as <-; apply AA; auto].
          split; [reflexivity|]. exists info, v. split; [reflexivity|]. split; [reflexivity|]. split; [exact CI|]. split; [exact QV|discriminate].
        * injection H as <- <-.
          assert (AA : forall q b, asked w w3 q b <-> q = q0 /\ b = true).
          { intros q b. rewrite (asked_trans w w2 w3) by (auto using silent_any). rewrite A0. split; [intros [?|K]; [auto|]|auto]. exfalso. eapply silent_asked; eauto. }
          split; [|discriminate]. intros q b K. apply AA in K as [-> ->]. split; [reflexivity|]. exists info, v. split; [reflexivity|]. split; [reflexivity|]. split; [exact CI|]. split; [exact QV|discriminate].
      + injection H as <- <-. split; [|discriminate]. intros q b K. apply A0 in K as [-> ->]. split; [reflexivity|]. exists info, v. split; [reflexivity|]. split; [reflexivity|]. split; [exact CI|]. split; [exact QV|].
        intros _. split; [eauto|]. cbn [w2 w_fs w_sys]. split; [exact F1|]. split; [exact I1|exact S1].
    - assert (NA : forall q b, ~ asked w w' q b).
      { pose proof (rest_silent k info w1) as K3. destruct ((let! old := _ in _) w1) as [w3 [old|e]] eqn:E3; cbn [fst] in K3.
        - pose proof (after_silent k old w3) as K4. rewrite H in K4. cbn [fst] in K4. intros q b. apply (LS w' r); [etransitivity; eassumption|reflexivity].
        - injection H as <- <-. intros q b. eapply LS; [exact K3|reflexivity]. }
      split; [intros q b K; destruct (NA q b K)|]. intros info' v' q' _ _ _ [= <-] C' Q'. rewrite CI in C'. injection C' as <-. congruence.
    - assert (NA : forall q b, ~ asked w w' q b).
      { pose proof (rest_silent k info w1) as K3. destruct ((let! old := _ in _) w1) as [w3 [old|e]] eqn:E3; cbn [fst] in K3.
        - pose proof (after_silent k old w3) as K4. rewrite H in K4. cbn [fst] in K4. intros q b. apply (LS w' r); [etransitivity; eassumption|reflexivity].
        - injection H as <- <-. intros q b. eapply LS; [exact K3|reflexivity]. }
      split; [intros q b K; destruct (NA q b K)|]. intros info' v' q' _ [=].
  Qed.
End asking.

Lemma question_for_unique ign info p q q' : question_for ign info p q -> question_for ign info p q' -> q = q'.
Proof. unfold question_for. intros [[A ->]|(A & B & C & [[D ->]|[D ->]])] [[A' ->]|(A' & B' & C' & [[D' ->]|[D' ->]])]; tauto. Qed.
Lemma question_of_spec o info p v : all_readable info p -> compare_installed o info p = Ok v ->
  forall q, question_of v = Some q <-> question_for (o_ignore_build o) info p q.
Proof.
  intros R E q. destruct (compare_verdict o info p R) as (v' & E' & K). rewrite E in E'. injection E' as <-.
  destruct v as [| |[q'|]]; cbn [question_of].
  - split; [intros [= <-]; left; auto|]. intros [[_ ->]|(N & _)]; [reflexivity|contradiction].
  - split; [discriminate|]. intros [[N _]|(_ & N & _)]; tauto.
  - destruct K as [_ K]. split; [intros [= <-]; exact K|]. intros K'. now rewrite (question_for_unique _ _ _ _ _ K K').
  - split; [discriminate|]. intros [[N _]|(_ & _ & N & _)]; tauto.
Qed.
Lemma install_questions h o k i ask w w' r info : install_package h o k i ask w = (w', r) ->
  is_installed (y_inst (w_sys w)) (p_name (k_pkg k)) = true -> get_info (y_inst (w_sys w)) (p_name (k_pkg k)) = Ok info -> all_readable info (k_pkg k) ->
  (forall q b, asked w w' q b -> ask = true /\ question_for (o_ignore_build o) info (k_pkg k) q /\
     (b = false -> (exists e, r = Err e) /\ w_fs w' = w_fs w /\ same_records (w_sys w) (w_sys w'))) /\
  (forall q, r = Ok tt -> ask = true -> question_for (o_ignore_build o) info (k_pkg k) q -> asked w w' q true).
Proof.
  intros H I G R. destruct (install_asks _ _ _ _ _ _ _ _ H) as [A B]. split.
  - intros q b K. destruct (A q b K) as (K1 & info' & v & _ & K2 & K3 & K4 & K5). rewrite G in K2. injection K2 as <-. split; [exact K1|]. split; [|exact K5]. now apply (question_of_spec _ _ _ _ R K3).
  - intros q Hr Ha Hq. destruct (compare_verdict o info (k_pkg k) R) as (v & E & _). apply (B info v q Hr Ha I G E). now apply (question_of_spec _ _ _ _ R E).
Qed.
Lemma install_fresh_asks_nothing h o k i ask w w' r q b : install_package h o k i ask w = (w', r) ->
  is_installed (y_inst (w_sys w)) (p_name (k_pkg k)) = false -> ~ asked w w' q b.
Proof. intros H I K. destruct (install_asks _ _ _ _ _ _ _ _ H) as [A _]. destruct (A q b K) as (_ & info & v & E & _). congruence. Qed.
Lemma classification o info p : all_readable info p ->
  (compare_installed o info p = Ok VSame <-> same_one (o_ignore_build o) info p) /\
  (compare_installed o info p = Ok VUpgrade <-> ~ same_one (o_ignore_build o) info p /\ newer_one (o_ignore_build o) info p) /\
  ((exists q, compare_installed o info p = Ok (VDowngrade q)) <-> ~ same_one (o_ignore_build o) info p /\ ~ newer_one (o_ignore_build o) info p).
Proof.
  intros R. destruct (compare_verdict o info p R) as (v & E & K). rewrite E.
  assert (D : forall q, v = VDowngrade q -> ~ same_one (o_ignore_build o) info p /\ ~ newer_one (o_ignore_build o) info p).
  { intros q ->. destruct q as [q|]; [|tauto]. destruct K as [N [[_ ->]|K]]; [congruence|tauto]. }
  destruct v as [| |q].
  - split; [tauto|]. split; [split; [discriminate|tauto]|]. split; [intros (q & [=])|tauto].
  - split; [split; [discriminate|tauto]|]. split; [tauto|]. split; [intros (q & [=])|tauto].
  - destruct (D q eq_refl) as [D1 D2]. split; [split; [discriminate|tauto]|]. split; [split; [discriminate|tauto]|]. split; [auto|eauto].
Qed.

(** ** C34: files the new version does not ship *)
Lemma extract_leftover h o k old w w' r : extract_install h o k (Some old) w = (w', r) ->
  (exists x, In x old /\ forall y, In y (k_files k) -> f_path y <> f_path x) -> exists e, r = Err e.
Proof.
  intros H (x & Hx & N). unfold extract_install in H. cbn zeta in H.
  destruct r as [u|e]; [|eauto]. exfalso. apply bindM_ok in H as (w1 & c & _ & H). apply bindM_ok in H as (w2 & u2 & _ & H). apply bindM_ok in H as (w3 & u3 & _ & H).
  assert (X : existsb (fun x => negb (has_path (k_files k) x)) old = true).
  { apply existsb_exists. exists x. split; [exact Hx|]. apply negb_true_iff. unfold has_path. apply not_true_iff_false. intros K. apply existsb_exists in K as (y & Hy & K). apply String.eqb_eq in K. now apply (N y Hy). }
  rewrite X in H. discriminate.
Qed.
Lemma install_no_leftover h o k i ask w w' u files : install_package h o k i ask w = (w', Ok u) ->
  is_installed (y_inst (w_sys w)) (p_name (k_pkg k)) = true -> list_of (w_sys w) (p_name (k_pkg k)) = Ok files ->
  forall x, In x files -> exists y, In y (k_files k) /\ f_path y = f_path x.
Proof.
  intros H I L x Hx. rewrite install_package_split in H. apply bindM_ok in H as (w1 & u1 & E1 & H). apply bindM_ok in H as (w2 & old & E2 & H).
  assert (W1 : y_inst (w_sys w1) = y_inst (w_sys w) /\ y_lists (w_sys w1) = y_lists (w_sys w)).
  { apply check_relations_ok in E1 as (N & _). destruct N as [[_ ->]|(_ & d & _ & ->)]; split; reflexivity. }
  destruct W1 as [W1 W2]. apply check_reinstall_ok in E2 as (_ & _ & O). destruct old as [[fl info]|]; [|rewrite W1 in O; congruence].
  destruct O as (_ & O1 & O2 & _). rewrite W1 in O1. rewrite W2 in O2. unfold list_of in L. rewrite O1 in L. cbn [bind] in L. rewrite O2 in L. cbn [default] in L. injection L as <-.
  unfold after_questions in H. cbn [option_map fst] in H. apply bindM_ok in H as (w3 & u3 & E3 & _).
  destruct (existsb (fun y => String.eqb (f_path y) (f_path x)) (k_files k)) eqn:X.
  - apply existsb_exists in X as (y & Hy & X). apply String.eqb_eq in X. eauto.
  - exfalso. destruct (extract_leftover _ _ _ _ _ _ _ E3) as [e K]; [|discriminate K]. exists x. split; [exact Hx|]. intros y Hy K.
    apply not_true_iff_false in X. apply X. apply existsb_exists. exists y. split; [exact Hy|now apply String.eqb_eq].
Qed.
