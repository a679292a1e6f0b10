(** * Configuring pending packages *)
From Coq Require Import String List ZArith Lia.
From stdpp Require Import gmap strings relations.
From Verif Require Import Model.Py Model.ItemByRepo Model.Dependency Model.Package Model.ComponentDB Model.Databases
  Model.InstallDB Model.System Model.Graph
  Spec.VersionSpec Spec.DependencySpec Spec.ItemByRepoSpec Spec.DatabaseSpec Spec.SystemSpec Spec.GraphSpec
  Proof.PyFacts Proof.DependencyFacts Proof.ItemByRepoFacts Proof.ItemByRepoMain Proof.DatabaseFacts Proof.InstallDBFacts Proof.SystemFacts Proof.GraphFacts
  Model.Plan Spec.PlanSpec Proof.PlanFacts Proof.PlanTop
  Model.Path Model.Fs Model.Ops Spec.PathSpec Spec.FsSpec Spec.OpsSpec Proof.OpsFacts Proof.Consent.
Open Scope string_scope.
Open Scope list_scope.

Section plan.
  Context (s : sys).
  Notation cstep := (fun x (g : pgraph) dep => if bool_decide (dep_package dep ∈ g_v g) then pg_add_dep (get_inst s) g x dep else Ok g).

  Lemma conf_fold x deps : forall g, einv g -> x ∈ g_v g ->
    exists g', foldM (cstep x) deps g = Ok g' /\ einv g' /\ (forall y, y ∈ g_v g' <-> y ∈ g_v g) /\
      forall u v, edge g' u v <-> edge g u v \/ (u = x /\ v ∈ g_v g /\ exists d, In d deps /\ dep_package d = v).
  Proof.
    induction deps as [|d deps IH]; intros g E Hx; cbn [foldM].
    - exists g. split; [reflexivity|]. split; [exact E|]. split; [tauto|]. intros u v. split; [auto|]. intros [H|(_ & _ & d & [] & _)]; exact H.
    - destruct (decide (dep_package d ∈ g_v g)) as [D|D].
      + rewrite (bool_decide_eq_true_2 _ D). pose proof (add_dep_spec (get_inst s) g x d E Hx) as P.
        destruct (pg_add_dep (get_inst s) g x d) as [g1|e] eqn:G1.
        * destruct P as (P1 & P2 & P3 & _). cbn [bind]. assert (V : forall y, y ∈ g_v g1 <-> y ∈ g_v g) by (intros y; rewrite P2; split; [intros [H| ->]; [exact H|exact D]|auto]).
          destruct (IH g1 P1) as (g' & F & E' & V' & Ed'); [now apply V|]. exists g'. split; [exact F|]. split; [exact E'|]. split; [intros y; rewrite V'; apply V|].
          intros u v. rewrite Ed', P3. split.
          -- intros [[H|[-> ->]]|(-> & H & d' & H1 & H2)]; [auto|right; split; [reflexivity|]; split; [exact D|exists d; simpl; auto]|].
             right. split; [reflexivity|]. split; [now apply V|exists d'; simpl; auto].
          -- intros [H|(-> & H & d' & [<-|H1] & H2)]; [auto|left; right; auto|]. right. split; [reflexivity|]. split; [now apply V|eauto].
        * exfalso. unfold pg_add_dep in G1. unfold data_unless_vertex in G1. rewrite (bool_decide_eq_true_2 _ Hx), (bool_decide_eq_true_2 _ D) in G1. cbn [bind] in G1.
          destruct (add_edge_spec g x (dep_package d) (Some d) None None E (or_introl Hx) (or_introl D)) as (g' & K & _). rewrite K in G1. discriminate.
      + rewrite (bool_decide_eq_false_2 _ D). cbn [bind]. destruct (IH g E Hx) as (g' & F & E' & V' & Ed'). exists g'. split; [exact F|]. split; [exact E'|]. split; [exact V'|].
        intros u v. rewrite Ed'. split.
        * intros [H|(-> & H & d' & H1 & H2)]; [auto|]. right. split; [reflexivity|]. split; [exact H|exists d'; simpl; auto].
        * intros [H|(-> & H & d' & [<-|H1] & H2)]; [auto|subst v; contradiction|]. right. split; [reflexivity|]. split; [exact H|eauto].
  Qed.

  Lemma conf_loop A : forall g, einv g -> (forall x, In x A -> x ∈ g_v g) ->
    match foldM (configure_step s) A g with
    | Ok g' => einv g' /\ (forall y, y ∈ g_v g' <-> y ∈ g_v g) /\
        (forall u v, edge g' u v <-> edge g u v \/ (In u A /\ v ∈ g_v g /\ exists p d, get_inst s u = Ok p /\ In d (p_deps p) /\ dep_package d = v)) /\
        (forall x, In x A -> exists p, get_inst s x = Ok p /\ p_compdeps p = [])
    | Err e => exists x, In x A /\ (get_inst s x = Err e \/ exists p, get_inst s x = Ok p /\ p_compdeps p <> [] /\ e = EType)
    end.
  Proof.
    induction A as [|a A IH]; intros g E Hd; cbn [foldM].
    - split; [exact E|]. split; [tauto|]. split; [|intros x []]. intros u v. split; [auto|intros [H|[[] _]]; exact H].
    - remember (configure_step s g a) as st eqn:CS. unfold configure_step in CS. destruct (get_inst s a) as [p|e] eqn:G; cbn [bind] in CS; [|subst st; cbn [bind]; exists a; simpl; auto].
      unfold runtimeDependencies in CS. destruct (p_compdeps p) as [|c cs] eqn:C; cbn [bind] in CS; subst st; cbn [bind].
      + destruct (conf_fold a (p_deps p) g E) as (g1 & F & E1 & V1 & Ed1); [apply Hd; simpl; auto|]. rewrite F. cbn [bind].
        specialize (IH g1 E1). destruct (foldM (configure_step s) A g1) as [g2|e].
        * destruct IH as (I1 & I2 & I3 & I4); [intros x Hx; apply V1, Hd; simpl; auto|]. split; [exact I1|]. split; [intros y; now rewrite I2, V1|]. split.
          -- intros u v. rewrite I3, Ed1. split.
             ++ intros [[H|(-> & H & d & H1 & H2)]|(H1 & H2 & H3)]; [auto|right; simpl; split; [auto|]; split; [exact H|exists p, d; auto]|].
                right. simpl. split; [auto|]. split; [now apply V1|exact H3].
             ++ intros [H|([<-|H1] & H2 & p' & d & H3 & H4 & H5)]; [auto| |right; split; [exact H1|]; split; [now apply V1|eauto 6]].
                left. right. split; [reflexivity|]. split; [exact H2|]. assert (p' = p) by congruence. subst p'. eauto.
          -- intros x [<-|Hx]; [eauto|auto].
        * destruct IH as (x & Hx & K); [intros x Hx; apply V1, Hd; simpl; auto|]. exists x. simpl. auto.
      + exists a. simpl. split; [auto|]. right. exists p. split; [exact G|]. split; [congruence|reflexivity].
  Qed.

  Lemma plan_configure_spec it A : system s -> any_order it -> NoDup A ->
    match plan_configure s it A with
    | Ok (g, order) => NoDup order /\ (forall x, In x order <-> In x A) /\
        (forall x y, waits_for s A x y -> comes_before order y x) /\ no_circle s A /\ (forall x, In x A -> exists p, present s x p /\ p_compdeps p = [])
    | Err e => (exists x, In x A /\ (~ has_pkg s x \/ exists p, present s x p /\ p_compdeps p <> [])) \/ ~ no_circle s A
    end.
  Proof.
    intros Hs [_ Ig] N. assert (Pr : forall x p, get_inst s x = Ok p <-> present s x p).
    { intros x p. split.
      - intros G. split; [|exact G]. apply (system_agrees s x Hs). eauto.
      - intros [_ G]. exact G. }
    unfold plan_configure. pose proof (add_packages_spec (get_inst s) A empty_graph einv_empty N) as P.
    destruct (add_packages (get_inst s) A empty_graph) as [g0|e]; cbn [bind].
    - destruct P as (P1 & P2 & P3 & P4); [intros x _ K; now apply elem_of_empty in K|].
      assert (V0 : forall y, y ∈ g_v g0 <-> In y A) by (intros y; rewrite P2; split; [intros [K|]; [now apply elem_of_empty in K|auto]|auto]).
      assert (Ne : forall u v, ~ edge g0 u v). { intros u v H. apply P3 in H as (vs & H & _). simpl in H. rewrite lookup_empty in H. discriminate. }
      pose proof (conf_loop A g0 P1 (fun x Hx => proj2 (V0 x) Hx)) as L. destruct (foldM (configure_step s) A g0) as [g|e]; cbn [bind].
      + destruct L as ([B _] & L2 & L3 & L4).
        assert (Ed : forall u v, edge g u v <-> waits_for s A u v).
        { intros u v. rewrite L3. unfold waits_for. rewrite V0. specialize (Ne u v). split.
          - intros [H|(H1 & H2 & p & d & H3 & H4 & H5)]; [contradiction|]. split; [exact H1|]. split; [exact H2|]. exists p, d. rewrite <- Pr. auto.
          - intros (H1 & H2 & p & d & H3 & H4 & H5). right. split; [exact H1|]. split; [exact H2|]. exists p, d. rewrite Pr. auto. }
        destruct (topological_sort (it_vs it g) (it_adj it g)) as [l|e] eqn:T; cbn [bind].
        * destruct (sort_ok g _ _ (built_gwf g B) (Ig g B) l T) as (S1 & S2 & S3). split; [now apply nodup_rev|].
          split; [intros x; rewrite <- in_rev, S2, L2; apply V0|]. split; [intros x y H; apply comes_before_rev, S3, Ed, H|]. split.
          -- intros x K. assert (Ac : ~ cyclic g) by (apply (sort_iff g _ _ (built_gwf g B) (Ig g B)); eauto). apply Ac. exists x.
             eapply (tc_mono_on (waits_for s A) (edge g) (fun _ => True)); [|exact I|exact K]. intros a b _ H. split; [now apply Ed|exact I].
          -- intros x Hx. destruct (L4 x Hx) as (p & G & C). exists p. rewrite <- Pr. auto.
        * right. destruct (sort_cycle g _ _ e B (Ig g B) T) as (c & -> & u & Hu). intros K. apply (K u).
          eapply (tc_mono_on (edge g) (waits_for s A) (fun _ => True)); [|exact I|exact Hu]. intros a b _ H. split; [now apply Ed|exact I].
      + left. destruct L as (x & Hx & [G|(p & G & C & _)]); exists x; (split; [exact Hx|]); [left; intros [p Hp]; apply Pr in Hp; congruence|right; exists p; rewrite <- Pr; auto].
    - destruct P as (x & P1 & P2); [intros x _ K; now apply elem_of_empty in K|]. left. exists x. split; [exact P1|]. left. intros [p Hp]. apply Pr in Hp. congruence.
  Qed.
End plan.

Lemma before_prefix (a z : list string) x y : NoDup (a ++ z) -> In x a -> comes_before (a ++ z) y x -> comes_before a y x.
Proof.
  intros N Hx (u & v & c & E). apply elem_of_list_In, elem_of_list_split in Hx as (a1 & a2 & ->).
  rewrite <- app_assoc in N, E. simpl in N, E. assert (E' : a1 ++ x :: (a2 ++ z) = (u ++ y :: v) ++ x :: c) by (rewrite E, <- app_assoc; reflexivity).
  destruct (nodup_cut _ _ _ _ _ N E') as [-> _]. exists u, v, a2. rewrite <- app_assoc. reflexivity.
Qed.

Lemma marks_refl s : same_but_marks s s.
Proof. repeat split. Qed.
Lemma marks_trans a b c : same_but_marks a b -> same_but_marks b c -> same_but_marks a c.
Proof.
  intros (A1 & A2 & A3 & A4) (B1 & B2 & B3 & B4). split; [congruence|]. split; [congruence|]. split; [congruence|].
  intros n. destruct (A4 n), (B4 n). split; congruence.
Qed.
Lemma clear_spec db x db' : clear_pending db x = Ok db' ->
  id_dp db' = delete x (id_dp db) /\ (forall n, n <> x -> id_d db' !! n = id_d db !! n) /\ is_Some (id_dp db !! x) /\
  (forall n, is_Some (id_d db' !! n) <-> is_Some (id_d db !! n)) /\
  (forall n, is_installed db' n = is_installed db n /\ get_version db' n = get_version db n) /\
  (is_installed db x = true -> exists i, id_d db !! x = Some i /\ i_state i = StIP).
Proof.
  unfold clear_pending. destruct (id_d db !! x) as [i|] eqn:D; [|discriminate].
  assert (Q : forall i', i_version i' = i_version i -> i_release i' = i_release i -> i_build i' = i_build i -> counts_installed i' = counts_installed i ->
    (if id_dp db !! x then Ok (mkInst (<[x:=i']> (id_d db)) (delete x (id_dp db))) else Err EDB) = Ok db' ->
    id_dp db' = delete x (id_dp db) /\ (forall n, n <> x -> id_d db' !! n = id_d db !! n) /\ is_Some (id_dp db !! x) /\
    (forall n, is_Some (id_d db' !! n) <-> is_Some (id_d db !! n)) /\
    (forall n, is_installed db' n = is_installed db n /\ get_version db' n = get_version db n)).
  { intros i' Q1 Q2 Q3 Q4 H. destruct (id_dp db !! x) as [b|] eqn:P; [|discriminate]. injection H as <-. simpl. split; [reflexivity|].
    split; [intros n Hn; now rewrite lookup_insert_ne by congruence|]. split; [eauto|]. split.
    - intros n. destruct (decide (n = x)) as [->|Hn]; [rewrite lookup_insert, D; split; eauto|now rewrite lookup_insert_ne by congruence].
    - intros n. unfold is_installed, get_version, get_info. simpl. destruct (decide (n = x)) as [->|Hn]; [rewrite lookup_insert, D; cbn [bind]; rewrite Q1, Q2, Q3, Q4; auto|].
      now rewrite lookup_insert_ne by congruence. }
  destruct (is_installed db x) eqn:In; cbn [bind].
  - destruct (i_state i) eqn:St; cbn [bind]; [discriminate| |discriminate]. intros H. destruct (Q (with_state StI i)) as (R1 & R2 & R3 & R4 & R5); auto.
    + unfold counts_installed. simpl. now rewrite St.
    + repeat split; try assumption; try apply R4; try apply R5. intros _. eauto.
  - intros H. destruct (Q i eq_refl eq_refl eq_refl eq_refl H) as (R1 & R2 & R3 & R4 & R5). repeat split; try assumption; try apply R4; try apply R5. discriminate.
Qed.

Section ops.
  Context (h : host) (o : opts).

  Lemma configure_one_cases x w w' r : is_inst (w_sys w) x = true -> configure_one h o x w = (w', r) ->
    w_fs w' = w_fs w /\
    ((exists e, r = Err e /\ w_sys w' = w_sys w /\ (w_log w' = w_log w \/ w_log w' = EvPostInstall x :: w_log w)) \/
     (r = Ok tt /\ w_log w' = EvPostInstall x :: w_log w /\ record_configured (w_sys w) x = Ok (w_sys w') )).
  Proof.
    intros I H. unfold configure_one in H. apply bindM_any in H as (w1 & [(e & H & _)|(b & H & K)]); [discriminate H|].
    unfold look in H. injection H as <- <-. rewrite I in K. apply bindM_any in K as (w2 & [(e & H & -> & ->)|([] & H & K)]).
    - destruct (o_comar o); [|injection H as <- <-; split; [reflexivity|]; left; eauto 6].
      apply bindM_any in H as (w3 & [(e' & H & -> & [= <-])|(l & H & K)]); unfold look in H.
      + injection H as <- _. split; [reflexivity|]. left; eauto 6.
      + injection H as <- _. unfold hook in K. destruct (h_hook h (w_log w) x); [|discriminate]. injection K as <- <-. split; [reflexivity|]. left. eauto 6.
    - destruct (o_comar o); [|discriminate]. apply bindM_any in H as (w3 & [(e' & _ & _ & [=])|(l & H & K')]). unfold look in H. injection H as <- _.
      unfold hook in K'. destruct (h_hook h (w_log w) x); [discriminate|]. injection K' as <-. unfold commit in K. simpl in K.
      destruct (record_configured (w_sys w) x) as [s|e] eqn:R; injection K as <- <-; (split; [reflexivity|]); [right; auto|left; eauto 6].
  Qed.

  Lemma configured_marks s x s' : record_configured s x = Ok s' -> same_but_marks s s' /\ clear_pending (y_inst s) x = Ok (y_inst s').
  Proof.
    unfold record_configured. intros H. apply Proof.DatabaseFacts.bind_ok in H as (i & C & [= <-]). split; [|exact C].
    split; [reflexivity|]. split; [reflexivity|]. split; [reflexivity|]. apply clear_spec in C as (_ & _ & _ & _ & C & _). exact C.
  Qed.

  Lemma configure_loop order : forall w w' r, NoDup order -> (forall x, In x order -> is_inst (w_sys w) x = true) ->
    eachM (configure_one h o) order w = (w', r) ->
    exists done rest tried, order = done ++ rest /\ (tried = done \/ exists x rest', rest = x :: rest' /\ tried = done ++ [x]) /\
      w_log w' = rev (map EvPostInstall tried) ++ w_log w /\ w_fs w' = w_fs w /\ same_but_marks (w_sys w) (w_sys w') /\
      (forall x, is_Some (id_dp (y_inst (w_sys w')) !! x) <-> is_Some (id_dp (y_inst (w_sys w)) !! x) /\ ~ In x done) /\
      (forall x, is_Some (id_d (y_inst (w_sys w')) !! x) <-> is_Some (id_d (y_inst (w_sys w)) !! x)) /\
      (forall x, In x done -> exists i, id_d (y_inst (w_sys w)) !! x = Some i /\ i_state i = StIP) /\
      (system (w_sys w) -> system (w_sys w')) /\
      (r = Ok tt -> rest = []).
  Proof.
    induction order as [|x order IH]; intros w w' r N I H.
    - simpl in H. injection H as <- <-. exists [], [], []. split; [reflexivity|]. split; [auto|]. split; [reflexivity|]. split; [reflexivity|]. split; [apply marks_refl|].
      split; [simpl; tauto|]. split; [tauto|]. split; [intros x []|]. auto.
    - simpl in H. apply NoDup_cons in N as [N1 N2]. apply bindM_any in H as (w1 & [(e & H & -> & ->)|([] & H & K)]).
      + destruct (configure_one_cases x w w1 _ (I x (or_introl eq_refl)) H) as (F & [(e' & _ & S & L)|([=] & _)]).
        exists [], (x :: order). assert (G : forall tried, (tried = [] \/ tried = [x]) -> w_log w1 = rev (map EvPostInstall tried) ++ w_log w ->
          exists tried, x :: order = [] ++ x :: order /\ (tried = [] \/ exists y rest', x :: order = y :: rest' /\ tried = [] ++ [y]) /\
          w_log w1 = rev (map EvPostInstall tried) ++ w_log w /\ w_fs w1 = w_fs w /\ same_but_marks (w_sys w) (w_sys w1) /\
          (forall x, is_Some (id_dp (y_inst (w_sys w1)) !! x) <-> is_Some (id_dp (y_inst (w_sys w)) !! x) /\ ~ In x []) /\
          (forall x, is_Some (id_d (y_inst (w_sys w1)) !! x) <-> is_Some (id_d (y_inst (w_sys w)) !! x)) /\
          (forall x, In x [] -> exists i, id_d (y_inst (w_sys w)) !! x = Some i /\ i_state i = StIP) /\
          (system (w_sys w) -> system (w_sys w1)) /\ (@Err unit e = Ok tt -> x :: order = [])).
        { intros tried T LT. exists tried. split; [reflexivity|]. split; [destruct T as [->| ->]; [auto|right; eauto]|]. split; [exact LT|]. split; [exact F|]. rewrite S. split; [apply marks_refl|].
          split; [simpl; tauto|]. split; [tauto|]. split; [intros y []|]. split; [auto|discriminate]. }
        destruct L as [L|L]; [apply (G []); auto|apply (G [x]); auto].
      + destruct (configure_one_cases x w w1 _ (I x (or_introl eq_refl)) H) as (F & [(e' & [=] & _)|(_ & L & R)]).
        destruct (configured_marks _ _ _ R) as [M C]. pose proof (clear_spec _ _ _ C) as (C1 & C2 & C3 & C4 & C5 & C6).
        destruct (IH w1 w' r N2) as (done & rest & tried & E & T & Lg & Fs & Mk & Dp & D & St & Sy & Rs); [|exact K|].
        { intros y Hy. unfold is_inst. destruct M as (_ & _ & _ & M). rewrite (proj1 (M y)). apply I. simpl. auto. }
        exists (x :: done), rest, (x :: tried). split; [simpl; now rewrite E|]. split; [destruct T as [->|(y & rest' & -> & ->)]; [auto|right; exists y, rest'; auto]|].
        split; [rewrite Lg, L; simpl; now rewrite <- app_assoc|]. split; [congruence|]. split; [eapply marks_trans; eauto|].
        split; [|split; [|split; [|split; [|exact Rs]]]].
        * intros y. rewrite Dp, C1. simpl. destruct (decide (y = x)) as [->|Hy]; [rewrite lookup_delete; split; [intros [[? [=]] _]|intros [_ Q]; exfalso; apply Q; auto]|].
          rewrite lookup_delete_ne by congruence. split; [intros [Q1 Q2]; split; [exact Q1|intros [Q|Q]; [congruence|contradiction]]|tauto].
        * intros y. now rewrite D, C4.
        * intros y [<-|Hy]; [apply C6, I; simpl; auto|]. destruct (St y Hy) as (i & Q1 & Q2). exists i. split; [|exact Q2]. rewrite <- C2; [exact Q1|].
          intros ->. apply N1, elem_of_list_In. rewrite E. apply in_or_app. auto.
        * intros Sw. apply Sy. refine (lived_step _ (w_sys w) (YConfigured x) (w_sys w1) Sw _ Logic.I R). discriminate.
  Qed.
End ops.

Section top.
  Context (h : host) (o : opts) (F : fair h).

  Lemma list_pending_iff db : (exists l, list_pending db = Ok l) <-> forall x, is_Some (id_dp db !! x) -> is_Some (id_d db !! x).
  Proof.
    split.
    - intros [l H] x Hx. apply dp_names in Hx. apply in_map_iff in Hx as ([y b] & <- & Hx). unfold list_pending in H. apply mapM_ok in H.
      apply elem_of_list_In in Hx. apply elem_of_list_lookup in Hx as [i Hx]. destruct (Forall2_lookup_l _ _ _ _ _ H Hx) as (z & _ & Hz). simpl in *.
      destruct (id_d db !! y); [eauto|discriminate].
    - intros H. unfold list_pending.
      assert (G : forall m : list (string * bool), (forall p, In p m -> is_Some (id_d db !! p.1)) ->
        exists l, mapM (fun px : string * bool => match id_d db !! px.1 with Some info => Ok (px.1, info) | None => Err EKey end) m = Ok l).
      { induction m as [|p m IH]; intros Q; [exists []; reflexivity|]. destruct IH as [l IH]; [intros; apply Q; simpl; auto|]. destruct (Q p) as [i Hi]; [simpl; auto|].
        simpl. rewrite Hi. cbn [bind]. rewrite IH. cbn [bind]. eauto. }
      apply G. intros [x b] Hp. apply H. apply dp_names, in_map_iff. exists (x, b). auto.
  Qed.
  Lemma list_pending_info db l x i : list_pending db = Ok l -> In (x, i) l -> id_d db !! x = Some i.
  Proof.
    intros H Hx. unfold list_pending in H. apply mapM_ok in H. apply elem_of_list_In, elem_of_list_lookup in Hx as [k Hx].
    destruct (Forall2_lookup_r _ _ _ _ _ H Hx) as ([y b] & _ & Hy). simpl in Hy. destruct (id_d db !! y) eqn:E; [|discriminate]. injection Hy as -> ->. exact E.
  Qed.

  Lemma configure_outcome w w' r l : system (w_sys w) -> list_pending (y_inst (w_sys w)) = Ok l -> configure_pending h o w = (w', r) ->
    exists done rest tried, NoDup (done ++ rest) /\ (forall x, In x (done ++ rest) <-> In x (map fst l)) /\
      (tried = done \/ exists x rest', rest = x :: rest' /\ tried = done ++ [x]) /\
      w_log w' = rev (map EvPostInstall tried) ++ w_log w /\
      (forall x, In x tried -> has_pkg (w_sys w) x) /\
      (forall x y, In x tried -> waits_for (w_sys w) (map fst l) x y -> comes_before tried y x) /\
      (exists l', list_pending (y_inst (w_sys w')) = Ok l' /\ forall x, In x (map fst l') <-> In x rest) /\
      w_fs w' = w_fs w /\ same_but_marks (w_sys w) (w_sys w') /\ system (w_sys w') /\ (r = Ok tt -> rest = []).
  Proof.
    intros S Hl H. unfold configure_pending in H. apply bindM_any in H as (w1 & [(e & H & _)|(A & H & K)]); unfold look in H; rewrite Hl in H; cbn [bind] in H; [discriminate|].
    injection H as <- <-. assert (N : NoDup (map fst l)) by (rewrite (list_pending_names _ _ Hl); apply nodup_keys).
    assert (Dp : forall x, In x (map fst l) <-> is_Some (id_dp (y_inst (w_sys w)) !! x)) by (intros x; rewrite (list_pending_names _ _ Hl); apply dp_names).
    pose proof (plan_configure_spec (w_sys w) (h_it h) (map fst l) S (proj1 F) N) as P.
    apply bindM_any in K as (w1 & [(e & H & -> & ->)|([g order] & H & K)]); unfold look in H.
    - injection H as <- H. exists [], (map fst l), []. split; [exact N|]. split; [tauto|]. split; [auto|]. split; [reflexivity|]. split; [intros x []|]. split; [intros x y []|].
      split; [exists l; split; [exact Hl|tauto]|]. split; [reflexivity|]. split; [apply marks_refl|]. split; [exact S|discriminate].
    - injection H as <- H. rewrite H in P. destruct P as (P1 & P2 & P3 & P4 & P5). simpl in K.
      destruct (configure_loop h o order w w' r P1) as (done & rest & tried & E & T & Lg & Fs & Mk & Dp' & D & St & Sy & Rs); [|exact K|].
      { intros x Hx. apply P2, P5 in Hx as (p & [Hp _] & _). exact Hp. }
      assert (Tr : exists tail, order = tried ++ tail). { destruct T as [->|(x & rest' & -> & ->)]; [eauto|]. exists rest'. rewrite <- app_assoc. exact E. }
      destruct Tr as [tail Tr]. exists done, rest, tried. rewrite <- E. split; [exact P1|]. split; [exact P2|]. split; [exact T|]. split; [exact Lg|].
      split; [|split; [|split; [|split; [exact Fs|split; [exact Mk|split; [exact (Sy S)|exact Rs]]]]]].
      + intros x Hx. assert (Hi : In x order) by (rewrite Tr; apply in_or_app; auto). apply P2, P5 in Hi as (p & Hp & _). exists p. exact Hp.
      + intros x y Hx W. apply (before_prefix tried tail); [now rewrite <- Tr|exact Hx|]. rewrite <- Tr. apply P3, W.
      + destruct (proj2 (list_pending_iff (y_inst (w_sys w')))) as [l' Hl'].
        { intros x Hx. apply Dp' in Hx as [Hx _]. apply D. revert x Hx. apply list_pending_iff. eauto. }
        exists l'. split; [exact Hl'|]. intros x. rewrite (list_pending_names _ _ Hl'), dp_names, Dp', <- Dp, <- P2, E, in_app_iff.
        split; [tauto|]. intros Hx. split; [auto|]. intros Hd. rewrite E in P1. apply NoDup_app in P1 as (_ & P1 & _). apply (P1 x); apply elem_of_list_In; assumption.
  Qed.

  (** When it works *)
  Lemma configure_runs order : o_comar o = true -> (forall log x, h_hook h log x = None) -> forall w, NoDup order ->
    (forall x, In x order -> is_Some (id_dp (y_inst (w_sys w)) !! x) /\ exists i f, id_d (y_inst (w_sys w)) !! x = Some i /\ i_state i = StIP /\
       y_lists (w_sys w) !! (x, i_version i, i_release i) = Some f) ->
    exists w', eachM (configure_one h o) order w = (w', Ok tt).
  Proof.
    intros C Hk. induction order as [|x order IH]; intros w N H; [eexists; reflexivity|]. apply NoDup_cons in N as [N1 N2].
    destruct (H x (or_introl eq_refl)) as ([b Dp] & i & f & D & St & Ls).
    assert (I : is_installed (y_inst (w_sys w)) x = true) by (unfold is_installed, counts_installed; now rewrite D, St).
    assert (R : exists s, record_configured (w_sys w) x = Ok s).
    { unfold record_configured, clear_pending. rewrite D, I, St. cbn [bind]. rewrite Dp. cbn [bind]. eauto. }
    destruct R as [s R]. assert (K : exists w1, configure_one h o x w = (w1, Ok tt) /\ w_sys w1 = s).
    { unfold configure_one, bindM, look, hook, commit. unfold is_inst. rewrite I, C. unfold stored_list, get_info. rewrite D. cbn [bind]. rewrite Ls, Hk. simpl. rewrite R. eauto. }
    destruct K as (w1 & K & <-). destruct (configured_marks _ _ _ R) as [M Cl]. pose proof (clear_spec _ _ _ Cl) as (C1 & C2 & _).
    destruct (IH w1 N2) as [w' Hw].
    { intros y Hy. assert (y <> x) by (intros ->; apply N1; now apply elem_of_list_In). destruct (H y (or_intror Hy)) as (Q1 & i' & f' & Q2 & Q3 & Q4).
      rewrite C1, lookup_delete_ne by congruence. split; [exact Q1|]. exists i', f'. rewrite C2 by assumption. destruct M as (_ & _ & M & _). rewrite M. auto. }
    exists w'. simpl. unfold bindM. rewrite K. exact Hw.
  Qed.
  Lemma configure_works w l : system (w_sys w) -> list_pending (y_inst (w_sys w)) = Ok l ->
    o_comar o = true -> (forall log x, h_hook h log x = None) ->
    ((exists w', configure_pending h o w = (w', Ok tt)) <->
     (forall x i, In (x, i) l -> i_state i = StIP) /\ (forall x p, In x (map fst l) -> present (w_sys w) x p -> p_compdeps p = []) /\ no_circle (w_sys w) (map fst l)).
  Proof.
    intros S Hl C Hk. pose proof (lived_yinv _ _ S) as Y.
    assert (N : NoDup (map fst l)) by (rewrite (list_pending_names _ _ Hl); apply nodup_keys).
    assert (Dp : forall x, In x (map fst l) <-> is_Some (id_dp (y_inst (w_sys w)) !! x)) by (intros x; rewrite (list_pending_names _ _ Hl); apply dp_names).
    pose proof (plan_configure_spec (w_sys w) (h_it h) (map fst l) S (proj1 F) N) as P. split.
    - intros [w' H]. unfold configure_pending in H. apply bindM_any in H as (w1 & [(e & H & _)|(A & H & K)]); unfold look in H; rewrite Hl in H; cbn [bind] in H; [discriminate|].
      injection H as <- <-. apply bindM_any in K as (w1 & [(e & H & _ & [=])|([g order] & H & K)]); unfold look in H.
      injection H as <- H. rewrite H in P. destruct P as (P1 & P2 & P3 & P4 & P5). simpl in K.
      destruct (configure_loop h o order w w' (Ok tt) P1) as (done & rest & tried & E & T & Lg & Fs & Mk & Dp' & D & St & Sy & Rs); [|exact K|].
      { intros x Hx. apply P2, P5 in Hx as (p & [Hp _] & _). exact Hp. }
      specialize (Rs eq_refl). subst rest. rewrite app_nil_r in E. subst done. split; [|split; [|exact P4]].
      + intros x i Hx. pose proof (list_pending_info _ _ _ _ Hl Hx) as Hi. destruct (St x) as (i' & Q1 & Q2); [apply P2, in_map_iff; exists (x, i); auto|]. congruence.
      + intros x p Hx Hp. destruct (P5 x Hx) as (p' & [_ Q1] & Q2). destruct Hp as [_ Hp]. congruence.
    - intros (St & Cd & Nc). assert (Inf : forall x, In x (map fst l) -> exists i, id_d (y_inst (w_sys w)) !! x = Some i /\ i_state i = StIP).
      { intros x Hx. apply in_map_iff in Hx as ([x' i] & <- & Hx). exists i. split; [eapply list_pending_info; eauto|eapply St; exact Hx]. }
      assert (Ins : forall x, In x (map fst l) -> is_installed (y_inst (w_sys w)) x = true).
      { intros x Hx. destruct (Inf x Hx) as (i & Q1 & Q2). unfold is_installed, counts_installed. now rewrite Q1, Q2. }
      unfold configure_pending, bindM, look. rewrite Hl. cbn [bind]. destruct (plan_configure (w_sys w) (h_it h) (map fst l)) as [[g order]|e].
      + destruct P as (P1 & P2 & _). simpl. apply configure_runs; [exact C|exact Hk|exact P1|]. intros x Hx. apply P2 in Hx. split; [now apply Dp|].
        destruct (Inf x Hx) as (i & Q1 & Q2). destruct (yi_lists _ Y x i (Ins x Hx) Q1) as [f Q3]. eauto.
      + destruct P as [(x & Hx & [P|(p & Hp & P)])|P]; [|exfalso; apply P; eapply Cd; eauto|contradiction].
        exfalso. apply P. pose proof (Ins x Hx) as Q. pose proof Q as Q'. apply (system_agrees (w_sys w) x S) in Q as [p Q]. exists p. split; assumption.
  Qed.
End top.

Definition tidy (db : installdb) : Prop := forall x, is_Some (id_dp db !! x) <-> exists i, id_d db !! x = Some i /\ i_state i = StIP.
Lemma tidy_listed s : tidy (y_inst s) -> exists l, list_pending (y_inst s) = Ok l /\ forall n, In n (map fst l) <-> is_Some (id_dp (y_inst s) !! n).
Proof.
  intros T. destruct (proj2 (list_pending_iff (y_inst s))) as [l Hl]; [intros x Hx; apply T in Hx as (i & -> & _); eauto|]. exists l. split; [exact Hl|].
  intros n. rewrite (list_pending_names _ _ Hl). apply dp_names.
Qed.
Lemma tidy_remove db n db' : ~ is_Some (id_dp db !! n) -> db_remove db n = Ok db' -> tidy db -> tidy db' /\ ~ is_Some (id_dp db' !! n).
Proof.
  intros N H T. unfold db_remove in H. destruct (id_d db !! n) as [i|] eqn:D; [|discriminate]. injection H as <-. simpl. split; [|exact N]. intros x. simpl.
  destruct (decide (x = n)) as [->|E]; [|rewrite lookup_insert_ne by congruence; apply T]. rewrite lookup_insert. split; [contradiction|intros (j & [= <-] & Q); discriminate Q].
Qed.
Lemma remove_db_inst s n files s' : remove_db s n files = Ok s' -> db_remove (y_inst s) n = Ok (y_inst s').
Proof. unfold remove_db. intros H. apply Proof.DatabaseFacts.bind_ok in H as (i & E & H). apply Proof.DatabaseFacts.bind_ok in H as (d & _ & [= <-]). exact E. Qed.
Lemma tidy_install db n v r b d later db' : (later = false -> ~ is_Some (id_dp db !! n)) -> db_install db n v r b d later = Ok db' ->
  (forall x, x <> n -> is_Some (id_dp db !! x) <-> exists i, id_d db !! x = Some i /\ i_state i = StIP) -> tidy db'.
Proof.
  intros N H T. unfold db_install in H. destruct (is_installed db n); [discriminate|]. injection H as <-. intros x. simpl.
  destruct (decide (x = n)) as [->|E].
  - rewrite lookup_insert. destruct later.
    + rewrite lookup_insert. split; eauto.
    + split; [intros Q; destruct (N eq_refl Q)|intros (j & [= <-] & Q); discriminate Q].
  - rewrite lookup_insert_ne by congruence. specialize (T x E). destruct later; [rewrite lookup_insert_ne by congruence|]; exact T.
Qed.
Lemma patient_tidy s : lived patient s -> tidy (y_inst s).
Proof.
  induction 1 as [|s o s' L IH C P H].
  - intros x. simpl. rewrite !lookup_empty. split; [intros [? [=]]|intros (? & [=] & _)].
  - destruct (tidy_listed s IH) as (l & Hl & Hn). destruct o as [d|p files later|n|n]; simpl in H, P.
    + apply Proof.DatabaseFacts.bind_ok in H as (d' & _ & [= <-]). exact IH.
    + assert (N : later = false -> ~ is_Some (id_dp (y_inst s) !! p_name p)). { intros Q K. apply (P Q). exists l. split; [exact Hl|now apply Hn]. }
      unfold record_install in H. destruct (is_installed (y_inst s) (p_name p)) eqn:HI.
      * apply Proof.DatabaseFacts.bind_ok in H as (info & _ & H). apply Proof.DatabaseFacts.bind_ok in H as (old & _ & H). apply Proof.DatabaseFacts.bind_ok in H as (pk & _ & H).
        cbv zeta in H. apply update_databases_split in H as (s1 & D & U). apply remove_db_inst in D. simpl in D. unfold update_databases in U. cbn [bind] in U.
        apply Proof.DatabaseFacts.bind_ok in U as (i & U1 & U). apply Proof.DatabaseFacts.bind_ok in U as (d & _ & [= <-]). simpl.
        assert (Dp : id_dp (y_inst s1) = id_dp (y_inst s)). { unfold db_remove in D. destruct (id_d (y_inst s) !! p_name p); [|discriminate]. now injection D as <-. }
        refine (tidy_install _ _ _ _ _ _ _ _ _ U1 _); [now rewrite Dp|].
        intros x E. rewrite Dp. unfold db_remove in D. destruct (id_d (y_inst s) !! p_name p); [|discriminate]. injection D as <-. simpl. rewrite lookup_insert_ne by congruence. apply IH.
      * cbv zeta in H. unfold update_databases in H. cbn [bind] in H.
        apply Proof.DatabaseFacts.bind_ok in H as (i & U1 & U). apply Proof.DatabaseFacts.bind_ok in U as (d & _ & [= <-]). simpl.
        refine (tidy_install _ _ _ _ _ _ _ _ _ U1 _); [exact N|]. intros x _. apply IH.
    + unfold record_remove in H. apply Proof.DatabaseFacts.bind_ok in H as (p & _ & H). apply Proof.DatabaseFacts.bind_ok in H as (old & _ & H).
      destruct (is_installed (y_inst s) n); [|discriminate]. apply Proof.DatabaseFacts.bind_ok in H as (s1 & D & [= <-]). simpl. apply remove_db_inst in D.
      refine (proj1 (tidy_remove _ _ _ _ D IH)). intros K. apply P. exists l. split; [exact Hl|now apply Hn].
    + destruct (configured_marks _ _ _ H) as [_ Cl]. pose proof (clear_spec _ _ _ Cl) as (C1 & C2 & C3 & C4 & C5 & C6). intros x. rewrite C1.
      destruct (decide (x = n)) as [->|E]; [|rewrite lookup_delete_ne, C2 by congruence; apply IH]. rewrite lookup_delete. split; [intros [? [=]]|].
      intros (i & Q1 & Q2). exfalso. unfold clear_pending in Cl. destruct (id_d (y_inst s) !! n) as [j|] eqn:D; [|discriminate].
      apply IH in C3 as (j' & Dj & Sj). rewrite D in Dj. injection Dj as Dj. subst j'. unfold is_installed, counts_installed in Cl. rewrite D, Sj in Cl. cbn [bind] in Cl. destruct (id_dp (y_inst s) !! n); [|discriminate].
      injection Cl as Cl. rewrite <- Cl in Q1. simpl in Q1. rewrite lookup_insert in Q1. injection Q1 as <-. discriminate Q2.
Qed.

Lemma lived_mono (P Q : sys -> yop -> Prop) s : (forall s o, P s o -> Q s o) -> lived P s -> lived Q s.
Proof. intros H K. induction K; [constructor|]. econstructor; eauto. Qed.
Lemma configure_patient h o w : fair h -> lived patient (w_sys w) -> o_comar o = true -> (forall log x, h_hook h log x = None) ->
  (forall x p, listed_pending (w_sys w) x -> present (w_sys w) x p -> p_compdeps p = []) ->
  (forall L, (forall x, In x L -> listed_pending (w_sys w) x) -> no_circle (w_sys w) L) ->
  exists w', configure_pending h o w = (w', Ok tt).
Proof.
  intros F L C Hk Cd Nc. pose proof (patient_tidy _ L) as T. destruct (tidy_listed _ T) as (l & Hl & Hn).
  assert (S : system (w_sys w)) by (apply (lived_mono patient); [intros; exact Logic.I|exact L]).
  apply (configure_works h o F w l S Hl C Hk). split; [|split].
  - intros x i Hx. pose proof (list_pending_info _ _ _ _ Hl Hx) as D. assert (K : In x (map fst l)) by (apply in_map_iff; exists (x, i); auto).
    apply Hn, T in K as (j & Q1 & Q2). congruence.
  - intros x p Hx. apply Cd. exists l. auto.
  - apply Nc. intros x Hx. exists l. auto.
Qed.
