(** * Conflicting packages *)
From Coq Require Import String Ascii ZArith List.
From stdpp Require Import gmap strings relations.
From Verif Require Import Proof.GraphFacts.
From Verif Require Import Model.Py Model.Version Model.ItemByRepo Model.Dependency Model.Package Model.ComponentDB Model.Databases
  Model.InstallDB Model.System Model.Graph Model.Plan Model.Path Model.Fs Model.Ops
  Spec.VersionSpec Spec.DependencySpec Spec.ItemByRepoSpec Spec.DatabaseSpec Spec.SystemSpec Spec.GraphSpec Spec.PlanSpec
  Spec.PathSpec Spec.FsSpec Spec.OpsSpec
  Proof.PyFacts Proof.PathFacts Proof.ItemByRepoFacts Proof.DatabaseFacts Proof.RevDepFacts Proof.ComponentFacts Proof.InstallDBFacts Proof.SystemFacts
  Proof.PlanFacts Proof.UpgradeFacts Proof.PlanTop Proof.FsFacts Proof.OpsFacts Proof.OpsTop Proof.OpsSteps Proof.Reinstall Proof.Shop.
Open Scope string_scope.

(** ** The repositories stay as they are *)
Definition keeps_shop (w w' : world) : Prop := same_shop (y_db (w_sys w)) (y_db (w_sys w')).
Global Instance keeps_shop_pre : PreOrder keeps_shop.
Proof. unfold keeps_shop. split; [intros w; reflexivity|]. intros a b c H K. etransitivity; eauto. Qed.
Lemma shop_commit f : (forall s s', f s = Ok s' -> same_shop (y_db s) (y_db s')) -> keeps keeps_shop (commit f).
Proof. intros H w. unfold commit. destruct (f (w_sys w)) as [s|e] eqn:E; [exact (H _ _ E)|reflexivity]. Qed.
Lemma shop_touch f : keeps keeps_shop (touch f).
Proof. intros w. unfold touch. destruct (f (w_fs w)); cbn [fst]; unfold keeps_shop; reflexivity. Qed.
Lemma shop_untouched {A} (m : M A) : keeps untouched m -> keeps keeps_shop m.
Proof. intros H w. destruct (H w) as (E & _). unfold keeps_shop. rewrite E. reflexivity. Qed.
Lemma shop_note e : keeps keeps_shop (note e).
Proof. intros w. unfold keeps_shop. reflexivity. Qed.

Section shop.
  Context (h : host) (o : opts).
  Lemma hook_shop e n : keeps keeps_shop (hook h e n). Proof. apply shop_untouched, hook_untouched. Qed.
  Lemma confirm_shop q : keeps keeps_shop (confirm h q). Proof. apply shop_untouched, confirm_untouched. Qed.
  Lemma remove_single_shop n : keeps keeps_shop (remove_single h o n).
  Proof.
    unfold remove_single, run_preremove. kp; try apply hook_shop; try apply shop_touch; try apply shop_note.
    - apply shop_commit. intros s s' H. unfold remove_db in H. inv_ok H. injection H as <-. simpl. eapply forget_shop; eauto.
    - apply shop_commit. intros s s' [= <-]. reflexivity.
  Qed.
  Lemma remove_shop A i : keeps keeps_shop (remove h o A i).
  Proof. unfold remove. kp; try apply confirm_shop; apply remove_single_shop. Qed.
  Lemma check_conflicts_shop get order : keeps keeps_shop (check_conflicts h o get order).
  Proof. unfold check_conflicts. kp; try apply confirm_shop; apply remove_shop. Qed.
  Lemma plan_install_shop A : keeps keeps_shop (plan_install_pkg_names h o A).
  Proof. unfold plan_install_pkg_names. kp. apply check_conflicts_shop. Qed.
  Lemma plan_upgrade_shop A : keeps keeps_shop (plan_upgrade_pkg_names h o A).
  Proof. unfold plan_upgrade_pkg_names. kp. apply check_conflicts_shop. Qed.
  Lemma upgrade_base_shop A : keeps keeps_shop (upgrade_base h o A).
  Proof. unfold upgrade_base. kp; try apply plan_install_shop; apply plan_upgrade_shop. Qed.
  Lemma install_package_shop k i ask w w' u : install_package h o k i ask w = (w', Ok u) -> keeps_shop w w'.
  Proof.
    intros H. destruct (install_package_ok _ _ _ _ _ _ _ _ H) as (s & N & R & _). unfold keeps_shop. etransitivity; [|eapply record_install_shop; exact R].
    destruct N as [[_ ->]|(_ & d & E & ->)]; [reflexivity|]. eapply add_package_shop; eauto.
  Qed.
End shop.

(** ** What is logged as installed *)
Definition only_installs (P : string -> Prop) (e : event) : Prop := forall x, e = EvInstalled x -> P x.
Lemma logs_untouched_sys P {A} (m : M A) : (forall w, w_log (m w).1 = w_log w) -> keeps (logs P) m.
Proof. intros H w. apply logs_same, H. Qed.
Section logging.
  Context (h : host) (o : opts) (P : string -> Prop).
  Notation L := (logs (only_installs P)).
  Lemma one_log e w : only_installs P e -> L w (mkWorld (w_sys w) (w_fs w) (w_past w) (e :: w_log w)).
  Proof. intros H. exists [e]. split; [reflexivity|]. constructor; [exact H|constructor]. Qed.
  Lemma hook_logs e n : only_installs P e -> keeps L (hook h e n).
  Proof. intros H w. unfold hook. destruct (h_hook h (w_log w) n); cbn [fst]; now apply one_log. Qed.
  Lemma confirm_logs q : keeps L (confirm h q).
  Proof. intros w. unfold confirm. cbn [fst]. apply one_log. intros x [=]. Qed.
  Lemma note_logs e : only_installs P e -> keeps L (note e).
  Proof. intros H w. unfold note. cbn [fst]. now apply one_log. Qed.
  Lemma remove_single_logs n : keeps L (remove_single h o n).
  Proof. unfold remove_single, run_preremove. kp; try apply logs_touch; try apply logs_commit; [apply hook_logs|apply note_logs]; intros x [=]. Qed.
  Lemma remove_logs A i : keeps L (remove h o A i).
  Proof. unfold remove. kp; try apply confirm_logs; apply remove_single_logs. Qed.
  Lemma check_conflicts_logs get order : keeps L (check_conflicts h o get order).
  Proof. unfold check_conflicts. kp; try apply confirm_logs; apply remove_logs. Qed.
  Lemma plan_install_logs A : keeps L (plan_install_pkg_names h o A).
  Proof. unfold plan_install_pkg_names. kp. apply check_conflicts_logs. Qed.
  Lemma plan_upgrade_logs A : keeps L (plan_upgrade_pkg_names h o A).
  Proof. unfold plan_upgrade_pkg_names. kp. apply check_conflicts_logs. Qed.
  Lemma upgrade_base_logs A : keeps L (upgrade_base h o A).
  Proof. unfold upgrade_base. kp; try apply plan_install_logs; apply plan_upgrade_logs. Qed.
  Lemma keep_config_logs c p x : keeps L (keep_config h o c p x).
  Proof. unfold keep_config, put_aside. kp; apply logs_touch. Qed.
  Lemma extract_install_logs k old : keeps L (extract_install h o k old).
  Proof.
    unfold extract_install. cbn zeta. apply keeps_bind; [typeclasses eauto| |].
    - destruct old as [old|].
      + generalize (@nil string). generalize (zip (List.filter (has_path old) (sort_by_path (k_files k))) (List.filter (has_path (k_files k)) (sort_by_path old))).
        intros l. induction l as [|[a b] l IH]; intros c; cbn [keep_configs]; [kp|]. destruct (f_path a =? f_path b)%string; [|kp]. apply keeps_bind; [typeclasses eauto| |intros c'; apply IH].
        kp. apply keep_config_logs.
      + generalize (@nil string). generalize (k_files k). intros l. induction l as [|a l IH]; intros c; cbn [keep_stray]; [kp|]. apply keeps_bind; [typeclasses eauto| |intros c'; apply IH].
        kp. apply keep_config_logs.
    - intros changed. unfold restore_config. kp; apply logs_touch.
  Qed.
  Lemma install_package_logs k i ask : P (p_name (k_pkg k)) -> keeps L (install_package h o k i ask).
  Proof.
    intros HP. unfold install_package, check_relations, check_reinstall, store_pisi_files, run_preremove.
    kp; try apply extract_install_logs; try apply logs_commit; try apply confirm_logs; try (apply hook_logs; intros x [=]).
    apply note_logs. intros x [= <-]. exact HP.
  Qed.
End logging.
Lemma logs_installed P w w' n : logs (only_installs P) w w' -> installed_now w w' n -> P n.
Proof.
  intros (new & E & F) (new' & E' & I). rewrite E in E'. apply app_inv_tail in E'. subst. rewrite List.Forall_forall in F. now apply (F _ I).
Qed.

(** ** The check *)
Lemma calculate_conflicts_spec s get order C D : calculate_conflicts s get order = Ok (C, D) ->
  (forall x, In x order -> exists p, get x = Ok p) /\
  (forall c, c ∈ C <-> exists x p, In x order /\ get x = Ok p /\ In c (p_conflicts p) /\ is_installed (y_inst s) c = true) /\
  (D = ∅ <-> forall x p c, In x order -> get x = Ok p -> In c (p_conflicts p) -> ~ In c order).
Proof.
  unfold calculate_conflicts.
  assert (G : forall l CD0 CD, foldM (fun CD x => p <- get x ;;
             let Bp : gset string := list_to_set (List.filter (is_inst s) (p_conflicts p)) in
             let Bi : gset string := list_to_set (List.filter (fun c => str_in c order) (p_conflicts p)) in
             Ok (CD.1 ∪ Bp, if bool_decide (Bi = ∅) then CD.2 else CD.2 ∪ Bi ∪ {[p_name p]})) l CD0 = Ok CD ->
    (forall x, In x l -> exists p, get x = Ok p) /\
    (forall c, c ∈ CD.1 <-> c ∈ CD0.1 \/ exists x p, In x l /\ get x = Ok p /\ In c (p_conflicts p) /\ is_installed (y_inst s) c = true) /\
    (CD.2 = ∅ <-> CD0.2 = ∅ /\ forall x p c, In x l -> get x = Ok p -> In c (p_conflicts p) -> ~ In c order)).
  { induction l as [|x l IH]; intros CD0 CD H.
    - injection H as <-. split; [intros x []|]. split; [intros c; split; [auto|intros [K|(x & p & [] & _)]; exact K]|]. split; [intros E; split; [exact E|intros x p c []]|tauto].
    - cbn [foldM] in H. destruct (get x) as [p|e] eqn:E; [|discriminate]. cbn [bind] in H. apply IH in H as (H1 & H2 & H3). cbn [fst snd] in *.
      split; [intros y [<-|Hy]; eauto|]. split.
      + intros c. rewrite H2, elem_of_union, elem_of_list_to_set, elem_of_list_In, filter_In. split.
        * intros [[K|[K1 K2]]|(y & q & Hy & R)]; [now left| |right; exists y, q; split; [now right|exact R]]. right. exists x, p. split; [now left|]. split; [exact E|]. split; [exact K1|exact K2].
        * intros [K|(y & q & [<-|Hy] & G & I & J)]; [tauto| |right; exists y, q; auto]. rewrite E in G. injection G as <-. left. right. split; [exact I|exact J].
      + rewrite H3. case_bool_decide as B.
        * split; [intros [K1 K2]; split; [exact K1|]|intros [K1 K2]; split; [exact K1|intros y q c Hy; apply K2; now right]].
          intros y q c [<-|Hy] G I J; [|eapply K2; eauto]. rewrite E in G. injection G as <-. assert (c ∈ (∅ : gset string)); [|set_solver].
          rewrite <- B, elem_of_list_to_set, elem_of_list_In, filter_In. split; [exact I|]. now apply str_in_iff.
        * split; [intros [K1 K2]; set_solver|]. intros [K1 K2]. exfalso. apply B. apply set_eq. intros c. split; [|set_solver].
          rewrite elem_of_list_to_set, elem_of_list_In, filter_In. intros [I J]. apply str_in_iff in J. exfalso. eapply (K2 x p c); eauto. now left. }
  intros H. apply G in H as (H1 & H2 & H3). cbn [fst snd] in *. split; [exact H1|]. split.
  - intros c. rewrite H2. split; [intros [K|K]; [set_solver|exact K]|auto].
  - rewrite H3. tauto.
Qed.

Section check.
  Context (h : host) (o : opts) (F : fair h).
  Lemma check_conflicts_ok get order w w' u : system (w_sys w) -> check_conflicts h o get order w = (w', Ok u) ->
    (forall x, In x order -> exists p, get (w_sys w) x = Ok p) /\
    (forall x p c, In x order -> get (w_sys w) x = Ok p -> In c (p_conflicts p) -> ~ In c order) /\
    (forall y q, present (w_sys w') y q -> present (w_sys w) y q) /\
    (forall x p c, In x order -> get (w_sys w) x = Ok p -> In c (p_conflicts p) -> o_dry_run o = false ->
       has_component (db_comp (y_db (w_sys w))) c RRepos = Ok false -> (o_bypass_safety o = false -> ~ in_base (w_sys w) c) -> forall q, ~ present (w_sys w') c q).
  Proof.
    intros S H. unfold check_conflicts in H. apply bindM_ok in H as (w0 & [C D] & E & H). apply look_ok in E as [-> E].
    destruct (calculate_conflicts_spec _ _ _ _ _ E) as (G & HC & HD). cbn [fst snd] in H. split; [exact G|].
    destruct (bool_decide (D = ∅)) eqn:BD; [|discriminate]. apply bool_decide_eq_true in BD. cbn [negb] in H. split; [now apply HD|].
    case_bool_decide as BC.
    { injection H as <- _. split; [auto|]. intros x p c Hx Hp Hc _ _ _ q [I _]. assert (c ∈ C) by (apply HC; eauto 6). set_solver. }
    apply bindM_ok in H as (w1 & yes & E1 & H). injection E1 as <- E1. destruct yes; [|discriminate]. cbn [negb] in H.
    apply bindM_ok in H as (w2 & done & E2 & H). destruct done; [|discriminate]. injection H as <- _.
    destruct F as [F1 F2]. split.
    - eapply remove_only in E2 as [E2 _]; [exact E2|split; assumption|exact S].
    - intros x p c Hx Hp Hc ND NC NB q K.
      assert (I : is_installed (y_inst (w_sys w)) c = true).
      { eapply remove_only in E2 as [E2 _]; [|split; eassumption|exact S]. now apply E2 in K as [K _]. }
      eapply remove_all_requested in E2; [|split; eassumption|exact S|exact ND| |exact NB]; [eapply E2; exact K|]. cbn [w_sys].
      exists c. split; [apply F2, HC; eauto 6|]. left. auto.
  Qed.
End check.

Lemma classic_base w x : system (w_sys w) -> in_base (w_sys w) x \/ ~ in_base (w_sys w) x.
Proof.
  intros S. pose proof (system_base_spec (w_sys w) (yi_reach _ (lived_yinv _ _ S))) as H.
  destruct (system_base (w_sys w)) as [[B|]|e]; [|right; apply H|contradiction].
  destruct (decide (x ∈ B)) as [K|K]; [left|right; intros X; apply K]; now apply H.
Qed.

Section accepted.
  Context (h : host) (o : opts) (F : fair h) (HN : honest h).
  Notation repo_pkg w x := (get_package (y_db (w_sys w)) x RRepos).

  Lemma from_name_ok s x k : system s -> from_name h s x = Ok k -> get_package (y_db s) x RRepos = Ok (k_pkg k) /\ p_name (k_pkg k) = x.
  Proof.
    intros S H. unfold from_name in H. apply bind_ok in H as (r & _ & H). apply bind_ok in H as (u & _ & H). apply bind_ok in H as (p & E & H).
    rewrite (HN _ _ H). split; [exact E|]. eapply found_plain; [exact (yi_reach _ (lived_yinv _ _ S))|left; reflexivity|exact E].
  Qed.
  Definition replaced (w w' : world) (order : list string) : Prop :=
    forall y q, present (w_sys w') y q -> (In y order /\ repo_pkg w y = Ok q) \/ (~ In y order /\ present (w_sys w) y q).

  Lemma install_names_loop order : forall w w' u, system (w_sys w) -> eachM (fun x => install_single_name h o x true) order w = (w', Ok u) ->
    replaced w w' order /\ logs (only_installs (fun x => In x order)) w w'.
  Proof.
    induction order as [|x order IH]; intros w w' u S H.
    { injection H as <- _. split; [intros y q K; right; split; [intros []|exact K]|reflexivity]. }
    cbn [eachM] in H. apply bindM_ok in H as (w1 & u1 & E & H). unfold install_single_name in E. apply bindM_ok in E as (w0 & k & E0 & E). apply look_ok in E0 as [-> E0].
    destruct (from_name_ok _ _ _ S E0) as [R N]. pose proof (install_system _ _ _ _ _ _ _ _ S E) as S1. destruct (IH _ _ _ S1 H) as [I1 I2].
    pose proof (install_package_shop _ _ _ _ _ _ _ _ E) as SH. split.
    - intros y q K. destruct (I1 y q K) as [[A B]|[A B]].
      + left. split; [now right|]. now rewrite <- (shop_get _ _ SH y).
      + apply (install_present _ _ _ _ _ _ _ _ S E) in B as [[-> ->]|[Ne B]]; [left; split; [left; now symmetry|now rewrite N]|].
        right. split; [|exact B]. rewrite N in Ne. intros [->|X]; auto.
    - etransitivity.
      + pose proof (install_package_logs h o (fun z => In z (x :: order)) k (o_ignore_file_conflicts o) (negb true)) as L. rewrite N in L. specialize (L (or_introl eq_refl) w). rewrite E in L. exact L.
      + eapply logs_mono; [|exact I2]. intros e Q z Hz. right. now apply Q.
  Qed.
  Lemma upgrade_loop ks : forall w w' u, system (w_sys w) -> eachM (fun k => install_package h o k true true) ks w = (w', Ok u) ->
    (forall y q, present (w_sys w') y q -> (exists k, In k ks /\ p_name (k_pkg k) = y /\ k_pkg k = q) \/
       ((forall k, In k ks -> p_name (k_pkg k) <> y) /\ present (w_sys w) y q)) /\
    logs (only_installs (fun x => exists k, In k ks /\ p_name (k_pkg k) = x)) w w'.
  Proof.
    induction ks as [|k ks IH]; intros w w' u S H.
    { injection H as <- _. split; [intros y q K; right; split; [intros k []|exact K]|reflexivity]. }
    cbn [eachM] in H. apply bindM_ok in H as (w1 & u1 & E & H). pose proof (install_system _ _ _ _ _ _ _ _ S E) as S1. destruct (IH _ _ _ S1 H) as [I1 I2]. split.
    - intros y q K. destruct (I1 y q K) as [(k' & A & B)|[A B]]; [left; exists k'; split; [now right|exact B]|].
      apply (install_present _ _ _ _ _ _ _ _ S E) in B as [[-> ->]|[Ne B]]; [left; exists k; split; [now left|auto]|].
      right. split; [|exact B]. intros k' [<-|X]; [congruence|auto].
    - etransitivity.
      + pose proof (install_package_logs h o (fun z => exists k', In k' (k :: ks) /\ p_name (k_pkg k') = z) k true true) as L. specialize (L (ex_intro _ k (conj (or_introl eq_refl) eq_refl)) w). rewrite E in L. exact L.
      + eapply logs_mono; [|exact I2]. intros e Q z Hz. destruct (Q z Hz) as (k' & A & B). exists k'. split; [now right|exact B].
  Qed.
  Lemma mapMM_look {A B} (f : sys -> A -> res B) l : forall w w' ys, mapMM (fun x => look (fun s => f s x)) l w = (w', Ok ys) ->
    w' = w /\ Forall2 (fun x y => f (w_sys w) x = Ok y) l ys.
  Proof.
    induction l as [|x l IH]; intros w w' ys H; [injection H as <- <-; auto|]. cbn [mapMM] in H. apply bindM_ok in H as (w1 & y & E & H). apply look_ok in E as [-> E].
    apply bindM_ok in H as (w2 & zs & E2 & H). apply IH in E2 as [-> E2]. injection H as <- <-. auto.
  Qed.

  (** What the check and the installation together say *)
  Lemma no_conflict w w1 w2 w3 order u : system (w_sys w) -> system (w_sys w1) -> keeps_shop w w1 -> o_dry_run o = false ->
    check_conflicts h o (fun s n => get_package (y_db s) n RRepos) order w1 = (w2, Ok u) -> replaced w2 w3 order ->
    forall x p y q, In x order -> present (w_sys w3) x p -> In y (p_conflicts p) -> present (w_sys w3) y q ->
      has_component (db_comp (y_db (w_sys w))) y RRepos = Ok true \/ (o_bypass_safety o = false /\ in_base (w_sys w) y).
  Proof.
    intros S S1 K ND C R x p y q Hx Px Hy Py. destruct (check_conflicts_ok h o F _ _ _ _ _ S1 C) as (G & M & B & D).
    pose proof (check_conflicts_shop h o (fun s n => get_package (y_db s) n RRepos) order w1) as SH. rewrite C in SH. cbn [fst] in SH.
    destruct (R x p Px) as [[_ E]|[N _]]; [|contradiction]. rewrite (shop_get _ _ SH x) in E.
    destruct (R y q Py) as [[I _]|[I P2]]; [exfalso; exact (M x p y Hx E Hy I)|].
    destruct (has_component (db_comp (y_db (w_sys w))) y RRepos) as [[|]|e] eqn:HC; [now left| |].
    - right. pose proof (yi_reach _ (lived_yinv _ _ S)) as R0. pose proof (yi_reach _ (lived_yinv _ _ S1)) as R1.
      destruct (o_bypass_safety o) eqn:BY.
      + exfalso. refine (D x p y Hx E Hy ND _ _ q P2); [now rewrite (shop_has_component _ _ K _ R0 R1)|discriminate].
      + split; [reflexivity|]. destruct (classic_base w y) as [X|X]; [exact S|exact X|]. exfalso. refine (D x p y Hx E Hy ND _ _ q P2).
        * rewrite (shop_has_component _ _ K _ R0 R1). exact HC.
        * intros _ X'. apply X. now apply (shop_base _ _ y K R0 R1).
    - unfold has_component, has_key in HC. discriminate HC.
  Qed.

  Definition unconflicted (w w' : world) : Prop :=
    forall x y, installed_now w w' x -> declares (w_sys w') x y -> has_pkg (w_sys w') y ->
      has_component (db_comp (y_db (w_sys w))) y RRepos = Ok true \/ (o_bypass_safety o = false /\ in_base (w_sys w) y).
  Lemma nothing_new w w' : logs (only_installs (fun _ => False)) w w' -> unconflicted w w'.
  Proof. intros L x y I. destruct (logs_installed _ _ _ _ L I). Qed.
  Lemma later_log P w w1 w' : logs (only_installs (fun _ => False)) w w1 -> logs (only_installs P) w1 w' -> logs (only_installs P) w w'.
  Proof. intros L1 L2. etransitivity; [|exact L2]. eapply logs_mono; [|exact L1]. intros e Q z Hz. destruct (Q z Hz). Qed.

  Lemma install_names_unconflicted A re w w' b : system (w_sys w) -> o_ignore_file_conflicts o = false -> o_ignore_dependency o = false ->
    install_pkg_names h o A re w = (w', Ok b) -> unconflicted w w'.
  Proof.
    intros S NF ND H. set (N := fun _ : string => False). unfold install_pkg_names in H.
    apply bindM_ok in H as (w0 & A0 & E & H). apply look_ok in E as [-> E]. apply bindM_ok in H as (w0 & A1 & E1 & H). apply look_ok in E1 as [-> E1]. cbn zeta in H.
    destruct (bool_decide (A1 = ∅)); [injection H as <- _; apply nothing_new; reflexivity|].
    apply bindM_ok in H as (w1 & base & EB & H). pose proof (upgrade_base_logs h o N A1 w) as L1. rewrite EB in L1. pose proof (upgrade_base_shop h o A1 w) as K1. rewrite EB in K1.
    destruct (upgrade_base_tracks h o A1 w S) as [_ S1]. rewrite EB in S1. cbn [fst snd] in *. specialize (S1 base eq_refl).
    rewrite ND in H. apply bindM_ok in H as (w2 & order & EP & H). unfold plan_install_pkg_names in EP. apply bindM_ok in EP as (w1' & go & EG & EP). apply look_ok in EG as [-> EG].
    rewrite NF in EP. apply bindM_ok in EP as (w2' & u2 & EC & EP). injection EP as <- EP. destruct (check_conflicts_tracks h o (fun s n => get_package (y_db s) n RRepos) go.2 w1 S1) as [_ S2].
    pose proof (check_conflicts_logs h o N (fun s n => get_package (y_db s) n RRepos) go.2 w1) as L2. rewrite EC in L2, S2. cbn [fst snd] in *. specialize (S2 u2 eq_refl). rewrite EP in EC.
    apply bindM_ok in H as (w3 & u3 & ES & H). apply look_ok in ES as [-> ES].
    destruct (o_dry_run o) eqn:DR; [injection H as <- _; apply nothing_new; etransitivity; eassumption|].
    apply bindM_ok in H as (w4 & go' & EA & H).
    assert (L4 : logs (only_installs N) w2' w4 /\ w_sys w4 = w_sys w2').
    { destruct (bool_decide (size (if bool_decide (A1 <> A0) then A0 else A1 ∪ base) < length order)%nat).
      - pose proof (confirm_logs h N QInstallExtra w2') as L. pose proof (confirm_untouched h QInstallExtra w2') as U. rewrite EA in L, U. split; [exact L|apply U].
      - injection EA as <- _. split; reflexivity. }
    destruct L4 as [L4 E4]. assert (LL : logs (only_installs N) w w4) by (etransitivity; [exact L1|]; etransitivity; eassumption).
    destruct go'; cbn [negb] in H; [|injection H as <- _; now apply nothing_new].
    apply bindM_ok in H as (w5 & hp & EH & H). apply look_ok in EH as [-> EH]. apply bindM_ok in H as (w6 & u6 & EI & H).
    assert (S4 : system (w_sys w4)) by now rewrite E4.
    destruct (install_names_loop _ _ _ _ S4 EI) as [R6 L6].
    assert (E7 : w' = w6).
    { apply bindM_ok in H as (w7 & u7 & E7 & H). injection H as <- _. destruct (str_in "pisi" order && hp); [discriminate E7|now injection E7 as <- _]. }
    subst w'. intros x y I (p & Px & Hy) (q & Py). assert (Hx : In x order) by exact (logs_installed _ _ _ _ (later_log _ _ _ _ LL L6) I).
    eapply (no_conflict w w1 w2' w6); eauto. intros y' q' K. unfold replaced in R6. rewrite E4 in R6. now apply R6.
  Qed.

  Lemma upgrade_unconflicted A w w' b : system (w_sys w) -> o_ignore_file_conflicts o = false -> o_ignore_dependency o = false ->
    upgrade_pkg_names h o A w = (w', Ok b) -> unconflicted w w'.
  Proof.
    intros S NF ND H. set (N := fun _ : string => False). unfold upgrade_pkg_names in H.
    apply bindM_ok in H as (w0 & A0 & E & H). apply look_ok in E as [-> E]. apply bindM_ok in H as (w0 & A1 & E1 & H). apply look_ok in E1 as [-> E1].
    destruct A1 as [|a A1]; [injection H as <- _; apply nothing_new; reflexivity|]. set (Ap := list_to_set (a :: A1) : gset string) in *. cbn zeta in H.
    apply bindM_ok in H as (w1 & base & EB & H). pose proof (upgrade_base_logs h o N Ap w) as L1. rewrite EB in L1. pose proof (upgrade_base_shop h o Ap w) as K1. rewrite EB in K1.
    destruct (upgrade_base_tracks h o Ap w S) as [_ S1]. rewrite EB in S1. cbn [fst snd] in *. specialize (S1 base eq_refl).
    rewrite ND in H. apply bindM_ok in H as (w2 & order & EP & H). unfold plan_upgrade_pkg_names in EP. apply bindM_ok in EP as (w1' & go & EG & EP). apply look_ok in EG as [-> EG].
    rewrite NF in EP. apply bindM_ok in EP as (w2' & u2 & EC & EP). injection EP as <- EP. destruct (check_conflicts_tracks h o (fun s n => get_package (y_db s) n RRepos) go.2 w1 S1) as [_ S2].
    pose proof (check_conflicts_logs h o N (fun s n => get_package (y_db s) n RRepos) go.2 w1) as L2. rewrite EC in L2, S2. cbn [fst snd] in *. specialize (S2 u2 eq_refl). rewrite EP in EC.
    apply bindM_ok in H as (w3 & u3 & ES & H). apply look_ok in ES as [-> ES].
    destruct (o_dry_run o) eqn:DR; [injection H as <- _; apply nothing_new; etransitivity; eassumption|].
    apply bindM_ok in H as (w4 & go' & EA & H).
    assert (L4 : logs (only_installs N) w2' w4 /\ w_sys w4 = w_sys w2').
    { destruct (bool_decide (size A0 < length order)%nat).
      - pose proof (confirm_logs h N QUpgradeExtra w2') as L. pose proof (confirm_untouched h QUpgradeExtra w2') as U. rewrite EA in L, U. split; [exact L|apply U].
      - injection EA as <- _. split; reflexivity. }
    destruct L4 as [L4 E4]. assert (LL : logs (only_installs N) w w4) by (etransitivity; [exact L1|]; etransitivity; eassumption).
    destruct go'; cbn [negb] in H; [|injection H as <- _; now apply nothing_new].
    apply bindM_ok in H as (w5 & ks & EK & H). apply (mapMM_look (from_name h)) in EK as [-> EK]. apply bindM_ok in H as (w6 & u6 & EI & H).
    assert (S4 : system (w_sys w4)) by now rewrite E4.
    destruct (upgrade_loop _ _ _ _ S4 EI) as [R6 L6].
    assert (KK : forall k, In k ks -> In (p_name (k_pkg k)) order /\ repo_pkg w4 (p_name (k_pkg k)) = Ok (k_pkg k)).
    { intros k Hk. apply elem_of_list_In, elem_of_list_lookup in Hk as [i Hi]. destruct (Forall2_lookup_r _ _ _ _ _ EK Hi) as (x & Hx & EX).
      destruct (from_name_ok _ _ _ S4 EX) as [G1 G2]. rewrite G2. split; [|exact G1]. apply elem_of_list_In, elem_of_list_lookup. eauto. }
    assert (KO : forall x, In x order -> exists k, In k ks /\ p_name (k_pkg k) = x).
    { intros x Hx. apply elem_of_list_In, elem_of_list_lookup in Hx as [i Hi]. destruct (Forall2_lookup_l _ _ _ _ _ EK Hi) as (k & Hk & EX).
      exists k. split; [apply elem_of_list_In, elem_of_list_lookup; eauto|]. now apply (from_name_ok _ _ _ S4 EX). }
    assert (E7 : w' = w6).
    { apply bindM_ok in H as (w7 & u7 & E7 & H). injection H as <- _. destruct (str_in "pisi" order); [discriminate E7|now injection E7 as <- _]. }
    subst w'. intros x y I (p & Px & Hy) (q & Py).
    assert (Hx : In x order). { destruct (logs_installed _ _ _ _ (later_log _ _ _ _ LL L6) I) as (k & Hk & <-). now apply KK. }
    eapply (no_conflict w w1 w2' w6); eauto. intros y' q' K. destruct (R6 y' q' K) as [(k & Hk & <- & <-)|[A2 B2]].
    - left. rewrite <- E4. now apply KK.
    - right. rewrite <- E4. split; [|exact B2]. intros X. destruct (KO _ X) as (k & Hk & <-). now apply (A2 k).
  Qed.
End accepted.

(** ** Planning alone *)
Section planned.
  Context (h : host) (o : opts) (F : fair h).
  Lemma plan_ok (planned : sys -> res (pgraph * list string)) w w' order : system (w_sys w) -> o_ignore_file_conflicts o = false ->
    (let! go := look planned in
     do! (if o_ignore_file_conflicts o then ret tt else check_conflicts h o (fun s n => get_package (y_db s) n RRepos) go.2) in ret go.2) w = (w', Ok order) ->
    forall x y, In x order -> offers (w_sys w) x y -> ~ In y order.
  Proof.
    intros S NF EP x y Hx (p & E & Hy) I. apply bindM_ok in EP as (w1 & go & EG & EP). apply look_ok in EG as [-> EG].
    rewrite NF in EP. apply bindM_ok in EP as (w2 & u2 & EC & EP). injection EP as <- EP. rewrite EP in EC.
    destruct (check_conflicts_ok h o F _ _ _ _ _ S EC) as (_ & M & _). exact (M x p y Hx E Hy I).
  Qed.
  Lemma check_refused get order w : (forall past, h_answer h past QConflicts = false) ->
    untouched w (check_conflicts h o get order w).1 /\
    forall u x p c, (check_conflicts h o get order w).2 = Ok u -> In x order -> get (w_sys w) x = Ok p -> In c (p_conflicts p) -> is_installed (y_inst (w_sys w)) c = false.
  Proof.
    clear F. intros NO. unfold check_conflicts, bindM, look. destruct (calculate_conflicts (w_sys w) (get (w_sys w)) order) as [[C D]|e] eqn:E; cbn [fst snd]; [|split; [repeat split; reflexivity|discriminate]].
    destruct (calculate_conflicts_spec _ _ _ _ _ E) as (G & HC & HD).
    destruct (decide (D = ∅)) as [BD|BD]; [rewrite (bool_decide_eq_true_2 _ BD)|rewrite (bool_decide_eq_false_2 _ BD)]; cbn [negb fst snd]; [|split; [repeat split; reflexivity|discriminate]].
    destruct (decide (C = ∅)) as [BC|BC]; [rewrite (bool_decide_eq_true_2 _ BC)|rewrite (bool_decide_eq_false_2 _ BC)]; cbn [fst snd ret].
    - split; [repeat split; reflexivity|]. intros u x p c _ Hx Hp Hc. destruct (is_installed (y_inst (w_sys w)) c) eqn:I; [|reflexivity]. assert (c ∈ C) by (apply HC; eauto 6). set_solver.
    - unfold confirm. cbn [fst snd]. rewrite NO. cbn [negb fst snd]. split; [repeat split; reflexivity|discriminate].
  Qed.
End planned.
