(** * Installing package files *)
From Coq Require Import String List ZArith Lia.
From stdpp Require Import gmap strings relations.
From Verif Require Import Model.Py Model.ItemByRepo Model.Dependency Model.Package Model.ComponentDB Model.Databases
  Model.InstallDB Model.System Model.Graph
  Spec.VersionSpec Spec.DependencySpec Spec.ItemByRepoSpec Spec.DatabaseSpec Spec.SystemSpec Spec.GraphSpec
  Proof.PyFacts Proof.DependencyFacts Proof.ItemByRepoFacts Proof.ItemByRepoMain Proof.DatabaseFacts Proof.InstallDBFacts Proof.SystemFacts Proof.GraphFacts
  Model.Plan Spec.PlanSpec Proof.PlanFacts Proof.PlanTop
  Model.Path Model.Fs Model.Ops Spec.PathSpec Spec.FsSpec Spec.OpsSpec Spec.PkgFilesSpec Proof.OpsFacts Proof.OpsTop Proof.OpsSteps Proof.Reinstall Proof.Conflicts Proof.Consent.
Open Scope string_scope.
Open Scope list_scope.

(** ** Reading the files *)
Section read.
  Context (h : host).
  Lemma read_more uris : forall (a0 : gmap string pkgfile) (b0 : gmap string string) a b,
    foldM (fun dd x => k <- h_open h x ;; Ok (<[p_name (k_pkg k) := k]> dd.1, <[p_name (k_pkg k) := x]> dd.2)) uris (a0, b0) = Ok (a, b) ->
    forall n, (exists k u, holds h uris n k /\ In u uris /\ h_open h u = Ok k /\ a !! n = Some k /\ b !! n = Some u) \/
              ((forall u k, In u uris -> h_open h u = Ok k -> p_name (k_pkg k) <> n) /\ a !! n = a0 !! n /\ b !! n = b0 !! n).
  Proof.
    induction uris as [|x uris IH]; intros a0 b0 a b H n; cbn [foldM] in H.
    - injection H as <- <-. right. split; [intros u k []|auto].
    - destruct (h_open h x) as [k|] eqn:O; [|discriminate]. cbn [bind fst snd] in H. destruct (IH _ _ _ _ H n) as [(k' & u & (pre & u' & post & -> & K1 & K2 & K3) & U & K4 & K5 & K6)|(K1 & K2 & K3)].
      + left. exists k', u. split; [|split; [now right|auto]]. exists (x :: pre), u', post. auto.
      + destruct (decide (n = p_name (k_pkg k))) as [->|D].
        * left. exists k, x. rewrite K2, K3, !lookup_insert. split; [|split; [now left|auto]]. exists [], x, uris. split; [reflexivity|]. split; [exact O|]. split; [reflexivity|exact K1].
        * right. rewrite K2, K3, !lookup_insert_ne by congruence. split; [|auto]. intros u k' [<-|Hu] Hk; [congruence|eauto].
  Qed.
  Lemma holds_in uris n k : holds h uris n k -> exists u, In u uris /\ h_open h u = Ok k /\ p_name (k_pkg k) = n.
  Proof. intros (pre & u & post & -> & H1 & H2 & _). exists u. split; [apply in_elt|auto]. Qed.
  Lemma holds_one uris n k k' : holds h uris n k -> holds h uris n k' -> k = k'.
  Proof.
    intros (pre & u & post & E & H1 & H2 & H3) (pre' & u' & post' & E' & H1' & H2' & H3'). rewrite E in E'. clear E.
    revert pre' E'. induction pre as [|x pre IH]; intros [|x' pre'] E; simpl in E.
    - injection E as <- <-. congruence.
    - injection E as <- ->. destruct (H3 u' k'); [apply in_elt|exact H1'|exact H2'].
    - injection E as -> <-. destruct (H3' u k); [apply in_elt|exact H1|exact H2].
    - injection E as -> E. eauto.
  Qed.
  Lemma read_spec uris a b : read_files h uris = Ok (a, b) ->
    (forall n k, a !! n = Some k <-> holds h uris n k) /\ (forall n k, holds h uris n k -> exists u, b !! n = Some u /\ h_open h u = Ok k).
  Proof.
    intros H. pose proof (read_more uris _ _ _ _ H) as R. split.
    - intros n k. destruct (R n) as [(k' & u & K1 & K2 & K3 & K4 & K5)|(K1 & K2 & _)]; [rewrite K4|rewrite K2, lookup_empty].
      + split; [now intros [= <-]|]. intros K. f_equal. eapply holds_one; eauto.
      + split; [discriminate|]. intros K. apply holds_in in K as (u & U1 & U2 & U3). destruct (K1 u k U1 U2 U3).
    - intros n k Hk. destruct (R n) as [(k' & u & K1 & K2 & K3 & K4 & K5)|(K1 & _)].
      + exists u. split; [exact K5|]. now rewrite (holds_one _ _ _ _ Hk K1).
      + apply holds_in in Hk as (u & U1 & U2 & U3). destruct (K1 u k U1 U2 U3).
  Qed.
End read.

(** ** The graph of the files *)
Lemma dict_sat_true d dep : dict_satisfies_dep d dep = Ok true <-> exists p, d !! dep_package dep = Some p /\ satisfies dep (dep_package dep) (p_version p) (p_release p) = Ok true.
Proof. unfold dict_satisfies_dep. destruct (d !! dep_package dep) as [p|]; [|split; [discriminate|intros (p & K & _); discriminate]]. split; [eauto|intros (q & [= <-] & K); exact K]. Qed.

Section graph.
  Context (d : gmap string package).
  Notation get := (fun x => match d !! x with Some p => Ok p | None => Err EKey end).
  Notation fstep := (fun x (g : pgraph) dep => b <- dict_satisfies_dep d dep ;; if b : bool then pg_add_dep get g x dep else Ok g).
  Lemma ffold x deps : forall g g', einv g -> x ∈ g_v g -> (forall y, y ∈ g_v g <-> is_Some (d !! y)) -> foldM (fstep x) deps g = Ok g' ->
    einv g' /\ (forall y, y ∈ g_v g' <-> is_Some (d !! y)) /\
    (forall u v, edge g' u v <-> edge g u v \/ (u = x /\ exists dep, In dep deps /\ dep_package dep = v /\ dict_satisfies_dep d dep = Ok true)) /\
    (forall dep, In dep deps -> is_ok (dict_satisfies_dep d dep) = true).
  Proof.
    induction deps as [|dep deps IH]; intros g g' E Hx V H; cbn [foldM] in H.
    - injection H as <-. split; [exact E|]. split; [exact V|]. split; [|intros ? []]. intros u v. split; [auto|]. intros [K|(_ & ? & [] & _)]; exact K.
    - destruct (dict_satisfies_dep d dep) as [[|]|e] eqn:S; cbn [bind] in H; [| |discriminate].
      + pose proof (add_dep_spec get g x dep E Hx) as P. destruct (pg_add_dep get g x dep) as [g1|e]; [|discriminate]. cbn [bind] in H. destruct P as (P1 & P2 & P3 & _).
        assert (V1 : forall y, y ∈ g_v g1 <-> is_Some (d !! y)).
        { intros y. rewrite P2, V. split; [|auto]. intros [K| ->]; [exact K|]. apply dict_sat_true in S as (p & Sp & _). now exists p. }
        destruct (IH g1 g' P1) as (I1 & I2 & I3 & I4); [apply P2; auto|exact V1|exact H|]. split; [exact I1|]. split; [exact I2|]. split.
        * intros u v. rewrite I3, P3. split.
          -- intros [[K|[-> ->]]|(-> & dep' & K1 & K2)]; [auto|right; split; [reflexivity|exists dep; simpl; auto]|right; split; [reflexivity|exists dep'; simpl; auto]].
          -- intros [K|(-> & dep' & [<-|K1] & K2 & K3)]; [auto|left; right; auto|right; eauto 6].
        * intros dep' [<-|K]; [now rewrite S|auto].
      + destruct (IH g g' E Hx V H) as (I1 & I2 & I3 & I4). split; [exact I1|]. split; [exact I2|]. split.
        * intros u v. rewrite I3. split; [intros [K|(-> & dep' & K1 & K2)]; [auto|right; split; [reflexivity|exists dep'; simpl; auto]]|].
          intros [K|(-> & dep' & [<-|K1] & K2 & K3)]; [auto|congruence|right; eauto 6].
        * intros dep' [<-|K]; [now rewrite S|auto].
  Qed.
  Lemma floop A : forall g g', einv g -> (forall x, In x A -> x ∈ g_v g) -> (forall y, y ∈ g_v g <-> is_Some (d !! y)) ->
    foldM (fun g x => p <- get x ;; deps <- runtimeDependencies p ;; foldM (fstep x) deps g) A g = Ok g' ->
    einv g' /\ (forall y, y ∈ g_v g' <-> is_Some (d !! y)) /\
    (forall u v, edge g' u v <-> edge g u v \/ (In u A /\ exists p dep, d !! u = Some p /\ In dep (p_deps p) /\ dep_package dep = v /\ dict_satisfies_dep d dep = Ok true)) /\
    (forall x p, In x A -> d !! x = Some p -> p_compdeps p = []).
  Proof.
    induction A as [|x A IH]; intros g g' E Hd V H; cbn [foldM] in H.
    - injection H as <-. split; [exact E|]. split; [exact V|]. split; [|intros ? ? []]. intros u v. split; [auto|]. intros [K|[[] _]]; exact K.
    - destruct (d !! x) as [p|] eqn:D; [|discriminate]. cbn [bind] in H. unfold runtimeDependencies at 1 in H. destruct (p_compdeps p) eqn:C; [|discriminate]. cbn [bind] in H.
      destruct (foldM _ (p_deps p) g) as [g1|e] eqn:F; [|discriminate]. cbn [bind] in H. destruct (ffold _ _ _ _ E (Hd x (or_introl eq_refl)) V F) as (F1 & F2 & F3 & _).
      destruct (IH g1 g' F1) as (I1 & I2 & I3 & I4); [intros y Hy; apply F2, V, Hd; now right|exact F2|exact H|]. split; [exact I1|]. split; [exact I2|]. split.
      + intros u v. rewrite I3, F3. split.
        * intros [[K|(-> & dep & K1 & K2)]|[K1 K2]]; [auto| |right; split; [now right|exact K2]]. right. split; [now left|]. exists p, dep. auto.
        * intros [K|([<-|K1] & q & dep & K2 & K3)]; [auto| |right; eauto 8]. left. right. split; [reflexivity|]. rewrite D in K2. injection K2 as <-. eauto.
      + intros y q [<-|Hy] Hq; [congruence|eauto].
  Qed.
  Lemma file_graph_spec A g : List.NoDup A -> (forall x, In x A <-> is_Some (d !! x)) -> file_graph d A = Ok g ->
    built g /\ (forall y, y ∈ g_v g <-> is_Some (d !! y)) /\
    (forall u v, edge g u v <-> exists p dep, d !! u = Some p /\ In dep (p_deps p) /\ dep_package dep = v /\ dict_satisfies_dep d dep = Ok true).
  Proof.
    intros N HA H. unfold file_graph in H. cbv zeta in H. destruct (foldM (pg_add_package get) A empty_graph) as [g0|e] eqn:E0; [|discriminate]. cbn [bind] in H.
    pose proof (add_packages_spec get A empty_graph einv_empty) as P. unfold add_packages in P. rewrite E0 in P.
    destruct P as (P1 & P2 & P3 & P4); [now apply NoDup_ListNoDup|intros x _ K; now apply elem_of_empty in K|].
    assert (V0 : forall y, y ∈ g_v g0 <-> is_Some (d !! y)). { intros y. rewrite P2, <- HA. split; [intros [K|K]; [now apply elem_of_empty in K|exact K]|auto]. }
    assert (Ne : forall u v, ~ edge g0 u v). { intros u v K. apply P3 in K as (vs & K & _). simpl in K. rewrite lookup_empty in K. discriminate. }
    destruct (floop A g0 g P1) as (F1 & F2 & F3 & _); [intros x Hx; apply V0, HA, Hx|exact V0|exact H|]. split; [apply F1|]. split; [exact F2|].
    intros u v. rewrite F3. split; [intros [K|[_ K]]; [destruct (Ne u v K)|exact K]|]. intros (p & dep & K1 & K2). right. split; [apply HA; now exists p|eauto].
  Qed.
End graph.

(** ** One installation, and many *)
Section loop.
  Context (h : host) (o : opts).
  Lemma install_logs_one k i ask w w' u : install_package h o k i ask w = (w', Ok u) ->
    exists new, w_log w' = new ++ w_log w /\ installations new = [p_name (k_pkg k)].
  Proof.
    intros H. unfold install_package in H. cbv zeta in H.
    apply bindM_ok in H as (w1 & ? & H1 & H). apply bindM_ok in H as (w2 & old & H2 & H). apply bindM_ok in H as (w3 & ? & H3 & H). apply bindM_ok in H as (w4 & ? & H4 & H).
    apply bindM_ok in H as (w5 & ? & H5 & H). apply bindM_ok in H as (w6 & ? & H6 & H). injection H as <- _.
    assert (L : logs none_installed w w6).
    { etransitivity; [|etransitivity; [|etransitivity; [|etransitivity; [|etransitivity]]]].
      - assert (K : keeps (logs none_installed) (check_relations h o k i)) by (unfold check_relations; kp; apply logs_commit). specialize (K w). rewrite H1 in K. exact K.
      - assert (K : keeps (logs none_installed) (check_reinstall h o k ask)).
        { unfold check_reinstall, run_preremove. kp; try apply confirm_logs; try (apply hook_logs; intros z [=]). }
        specialize (K w1). rewrite H2 in K. exact K.
      - pose proof (extract_install_logs h o (fun _ => False) k (option_map fst old) w2) as K. rewrite H3 in K. exact K.
      - assert (K : keeps (logs none_installed) (store_pisi_files k old)) by (unfold store_pisi_files; kp; apply logs_commit). specialize (K w3). rewrite H4 in K. exact K.
      - assert (K : keeps (logs none_installed) (if o_comar o then hook h (EvPostInstall (p_name (k_pkg k))) (p_name (k_pkg k)) else ret tt)) by (kp; apply hook_logs; intros z [=]).
        specialize (K w4). rewrite H5 in K. exact K.
      - match type of H6 with commit ?f _ = _ => pose proof (logs_commit none_installed f w5) as K end. rewrite H6 in K. exact K. }
    destruct L as (new & E & N). exists (EvInstalled (p_name (k_pkg k)) :: new). cbn [w_log]. rewrite E. split; [reflexivity|]. unfold installations. cbn [omap list_omap]. cbn [rev].
    assert (Z : omap (fun e => match e with EvInstalled n => Some n | _ => None end) new = []).
    { clear - N. induction N as [|e l He _ IH]; [reflexivity|]. cbn [omap list_omap]. rewrite IH. destruct e; try reflexivity. destruct (He _ eq_refl). }
    now rewrite Z.
  Qed.
  Lemma installations_app a b : installations (a ++ b) = installations b ++ installations a.
  Proof. unfold installations. rewrite omap_app. apply rev_app_distr. Qed.

  Definition put (h : host) (uris : list string) (b : gmap string string) : Prop :=
    forall n k, holds h uris n k -> exists u, b !! n = Some u /\ h_open h u = Ok k.
  (** [done] are installed, the others are as they were *)
  Definition after (uris : list string) (s : sys) (done : list string) (s' : sys) : Prop :=
    forall y q, present s' y q <-> (In y done /\ exists k, holds h uris y k /\ k_pkg k = q) \/ (~ In y done /\ present s y q).
  Lemma files_loop uris b order : put h uris b -> (forall x, In x order -> exists k, holds h uris x k) -> List.NoDup order ->
    forall w w' r, system (w_sys w) ->
    eachM (fun x => match b !! x with Some u => install_single_file h o u false | None => throw EKey end) order w = (w', r) ->
    exists done rest w1 new, order = done ++ rest /\ system (w_sys w1) /\ w_log w1 = new ++ w_log w /\ installations new = done /\
      after uris (w_sys w) done (w_sys w1) /\
      match r with
      | Ok _ => rest = [] /\ w' = w1
      | Err e => exists x k rest', rest = x :: rest' /\ holds h uris x k /\ install_package h o k (o_ignore_file_conflicts o) true w1 = (w', Err e)
      end.
  Proof.
    intros P. induction order as [|x order IH]; intros Ho N w w' r S H; cbn [eachM] in H.
    - injection H as <- <-. exists [], [], w, []. split; [reflexivity|]. split; [exact S|]. split; [reflexivity|]. split; [reflexivity|]. split; [|auto].
      intros y q. split; [right; auto|]. intros [[[] _]|[_ K]]; exact K.
    - destruct (Ho x (or_introl eq_refl)) as [k Hk]. destruct (P x k Hk) as (u & Eu & Ek). rewrite Eu in H. unfold install_single_file at 1 in H.
      assert (Hn : p_name (k_pkg k) = x) by (apply holds_in in Hk as (? & _ & _ & K); exact K).
      apply NoDup_cons_iff in N as [N1 N2].
      apply bindM_any in H as (w1 & [(e & H & -> & ->)|([] & H1 & H)]).
      + apply bindM_any in H as (w0 & [(e' & H & _)|(k' & H & H2)]); [injection H as _ H; congruence|]. injection H as <- H. assert (k' = k) as -> by congruence.
        exists [], (x :: order), w, []. split; [reflexivity|]. split; [exact S|]. split; [reflexivity|]. split; [reflexivity|]. split; [|exists x, k, order; auto].
        intros y q. split; [right; auto|]. intros [[[] _]|[_ K]]; exact K.
      + apply bindM_ok in H1 as (w0 & k' & H0 & H1). injection H0 as <- H0. assert (k' = k) as -> by congruence. cbn [negb] in H1.
        pose proof (install_system _ _ _ _ _ _ _ _ S H1) as S1. destruct (install_logs_one _ _ _ _ _ _ H1) as (n1 & L1 & I1).
        destruct (IH (fun y Hy => Ho y (or_intror Hy)) N2 _ _ _ S1 H) as (done & rest & w2 & n2 & -> & S2 & L2 & I2 & A2 & R).
        exists (x :: done), rest, w2, (n2 ++ n1). split; [reflexivity|]. split; [exact S2|]. split; [now rewrite L2, L1, app_assoc|].
        split; [now rewrite installations_app, I1, I2, Hn|]. split; [|exact R].
        intros y q. rewrite (A2 y q), (install_present _ _ _ _ _ _ _ _ S H1), Hn. split.
        * intros [[K1 K2]|[K1 [[-> ->]|[K2 K3]]]]; [left; split; [now right|exact K2]|left; split; [now left|eauto]|right; split; [intros [->|K]; auto|exact K3]].
        * intros [[[<-|K1] (k' & K2 & <-)]|[K1 K2]].
          -- right. split; [intros K; apply N1, in_app_iff; now left|]. left. split; [reflexivity|]. f_equal. exact (holds_one _ _ _ _ _ K2 Hk).
          -- left. eauto.
          -- right. split; [intros K; apply K1; now right|]. right. split; [intros ->; apply K1; now left|exact K2].
  Qed.
End loop.

(** ** The whole *)
Section files.
  Context (h : host) (o : opts) (F : fair h).
  Lemma met_dict uris a b d : read_files h uris = Ok (a, b) -> (dict_satisfies_dep (file_dict a) d = Ok true <-> met_by_files h uris d).
  Proof.
    intros R. destruct (read_spec _ _ _ _ R) as [Ra _]. rewrite dict_sat_true. unfold file_dict, met_by_files. setoid_rewrite lookup_fmap. setoid_rewrite <- Ra. split.
    - intros (p & E & K). destruct (a !! dep_package d) as [k|]; [|discriminate]. injection E as <-. exists k. split; [reflexivity|]. now apply satisfies_true in K.
    - intros (k & -> & K). exists (k_pkg k). split; [reflexivity|]. now apply satisfies_true.
  Qed.
  Notation going b order := (eachM (fun x => match b !! x with Some u => install_single_file h o u false | None => throw EKey end) order).
  Definition extras (extra : list string) : M unit :=
    match extra with
    | [] => ret tt
    | _ => let! yes := confirm h QFileExtra in if yes : bool then do! install_pkg_names h o extra false in ret tt else throw EError
    end.
  Lemma extras_tracks extra : tracks o (extras extra).
  Proof. unfold extras. destruct extra; [apply tracks_ret|]. apply tracks_bind; [apply tracks_confirm|]. intros [|]; [|apply tracks_throw]. apply tracks_bind; [apply install_names_tracks|]. intros _. apply tracks_ret. Qed.

  Lemma files_shape uris w w' r : o_ignore_dependency o = false -> o_dry_run o = false -> install_pkg_files h o uris w = (w', r) ->
    (untouched w w' /\ exists e, r = Err e) \/
    exists a b extra, read_files h uris = Ok (a, b) /\ unsatisfied (w_sys w) (file_dict a) (map fst (map_to_list (file_dict a))) = Ok extra /\
    ((exists e, extras extra w = (w', Err e) /\ r = Err e) \/
     exists w1 u1, extras extra w = (w1, Ok u1) /\
       ((untouched w1 w' /\ exists e, r = Err e) \/
        exists order get, in_need_order h uris order /\ put h uris b /\ (forall s n k, holds h uris n k -> get s n = Ok (k_pkg k)) /\
          ((exists e, o_ignore_file_conflicts o = false /\ check_conflicts h o get (rev order) w1 = (w', Err e) /\ r = Err e) \/
           exists w2, ((o_ignore_file_conflicts o = true /\ w2 = w1) \/ exists u2, o_ignore_file_conflicts o = false /\ check_conflicts h o get (rev order) w1 = (w2, Ok u2)) /\
             going b order w2 = (w', r)))).
  Proof.
    intros NI ND H. unfold install_pkg_files in H. rewrite NI, ND in H. destruct (negb (forallb _ uris)); [injection H as <- <-; left; split; [repeat split|eauto]|].
    apply bindM_any in H as (w0 & [(e & H & -> & ->)|([a b] & E & H)]); [injection H as <- _; left; split; [repeat split|eauto]|]. injection E as <- R. cbv zeta in H. cbn [fst snd] in H.
    apply bindM_any in H as (w0 & [(e & H & -> & ->)|(extra & E & H)]); [left; split; [|eauto]; unfold look in H; injection H as <- _; repeat split|]. apply look_ok in E as [-> U].
    right. exists a, b, extra. split; [exact R|]. split; [exact U|].
    change (match extra with [] => ret tt | _ :: _ => _ end) with (extras extra) in H.
    apply bindM_any in H as (w1 & [(e & H & -> & ->)|([] & E & H)]); [left; eauto|]. right. exists w1, tt. split; [exact E|].
    destruct (read_spec _ _ _ _ R) as [Ra Rb].
    assert (HD : forall x, In x (map fst (map_to_list (file_dict a))) <-> exists k, holds h uris x k).
    { intros x. rewrite in_map_iff. split.
      - intros ([y p] & <- & K). apply elem_of_list_In, elem_of_map_to_list in K. unfold file_dict in K. rewrite lookup_fmap in K. cbn [fst]. destruct (a !! y) as [k|] eqn:Ek; [|discriminate]. exists k. now apply Ra.
      - intros [k K]. apply Ra in K. exists (x, k_pkg k). split; [reflexivity|]. apply elem_of_list_In, elem_of_map_to_list. unfold file_dict. now rewrite lookup_fmap, K. }
    assert (HS : forall x, is_Some (file_dict a !! x) <-> exists k, holds h uris x k).
    { intros x. unfold file_dict. rewrite lookup_fmap, fmap_is_Some. split; [intros [k K]|intros [k K]]; exists k; now apply Ra. }
    destruct (map fst (map_to_list (file_dict a))) as [|x0 A] eqn:EA.
    { right. exists [], (fun _ _ => Err EKey). split; [|split; [exact Rb|split; [intros s n k K; assert (X : In n []) by (apply HD; eauto); destruct X|]]].
      - split; [constructor|]. split; [intros n; apply HD|]. intros x y (k & d & K & _). assert (X : In x []) by (apply HD; eauto). destruct X.
      - cbn [rev]. injection H as <- <-. right. destruct (o_ignore_file_conflicts o) eqn:FC.
        + exists w1. split; [left; auto|reflexivity].
        + exists w1. split; [right; exists tt; split; [reflexivity|]|reflexivity]. reflexivity. }
    rewrite <- EA in H, HD. apply bindM_any in H as (w0 & [(e & H & -> & ->)|(g & G & H)]); [injection H as <- _; left; split; [repeat split|eauto]|]. injection G as <- G.
    apply bindM_any in H as (w0 & [(e & H & -> & ->)|(order & T & H)]); [injection H as <- _; left; split; [repeat split|eauto]|]. injection T as <- T.
    destruct (file_graph_spec (file_dict a) (map fst (map_to_list (file_dict a))) g) as (G1 & G2 & G3); [|intros x; rewrite HD, HS; reflexivity|exact G|].
    { apply NoDup_ListNoDup, NoDup_fst_map_to_list. }
    pose proof (sort_ok g _ _ (built_gwf g G1) (proj2 (proj1 F) g G1) order T) as (T1 & T2 & T3).
    right. exists (rev order), (fun _ n => match file_dict a !! n with Some p => Ok p | None => Err EKey end). rewrite rev_involutive. split; [|split; [exact Rb|split; [intros s n k K; apply Ra in K; unfold file_dict; now rewrite lookup_fmap, K|]]].
    - split; [apply NoDup_ListNoDup, nodup_rev, T1|]. split; [intros n; rewrite <- in_rev, T2, G2; apply HS|].
      intros x y (k & d & K1 & K2 & K3 & K4). apply comes_before_rev, T3, G3. exists (k_pkg k), d. split; [|split; [exact K2|split; [exact K3|now apply (met_dict _ _ _ _ R)]]].
      apply Ra in K1. unfold file_dict. now rewrite lookup_fmap, K1.
    - destruct (o_ignore_file_conflicts o).
      + right. exists w1. split; [left; auto|exact H].
      + apply bindM_any in H as (w2 & [(e & H & -> & ->)|([] & E2 & H)]); [left; eauto|right; exists w2; split; [right; eauto|exact H]].
  Qed.

  (** *** The order *)
  Lemma files_order uris w w' u : system (w_sys w) -> o_ignore_dependency o = false -> o_dry_run o = false -> install_pkg_files h o uris w = (w', Ok u) ->
    exists order before last, in_need_order h uris order /\ w_log w' = last ++ before ++ w_log w /\ installations last = order /\
      forall n k, holds h uris n k -> present (w_sys w') n (k_pkg k).
  Proof.
    intros S NI ND H. destruct (files_shape _ _ _ _ NI ND H) as [(_ & e & X)|(a & b & extra & R & U & [(e & _ & X)|(w1 & [] & E & Z)])]; [discriminate|discriminate|].
    destruct Z as [(_ & e & X)|(order & get & Or & P & _ & [(e & _ & _ & X)|(w2 & C & L)])]; [discriminate|discriminate|].
    destruct (extras_tracks extra w S) as [_ S1]. rewrite E in S1. specialize (S1 tt eq_refl). cbn [fst] in S1.
    assert (G1 : exists n1, w_log w1 = n1 ++ w_log w).
    { unfold extras in E. destruct extra as [|x0 extra]; [injection E as <-; now exists []|]. apply bindM_ok in E as (w0 & yes & E0 & E). injection E0 as <- E0. destruct yes; [|discriminate].
      apply bindM_ok in E as (w0 & done & E1 & E). injection E as <-. match type of E1 with _ ?w3 = _ => destruct (guarded_grows _ _ _ _ (guard_install_names h o (x0 :: extra) false w3)) as [n En] end.
      rewrite E1 in En. cbn [fst w_log] in En. rewrite En. eexists (n ++ [_]). now rewrite <- app_assoc. }
    assert (G2 : system (w_sys w2) /\ exists n2, w_log w2 = n2 ++ w_log w1).
    { destruct C as [[_ ->]|([] & _ & C)]; [split; [exact S1|now exists []]|]. destruct (check_conflicts_tracks h o get (rev order) w1 S1) as [_ K]. rewrite C in K. split; [exact (K tt eq_refl)|].
      destruct (check_conflicts_logs h o (fun _ => True) get (rev order) w1) as (n & En & _). rewrite C in En. now exists n. }
    destruct G1 as [n1 G1]. destruct G2 as [S2 [n2 G2]]. destruct Or as (O1 & O2 & O3).
    destruct (files_loop h o uris b order P (fun x Hx => proj1 (O2 x) Hx) O1 _ _ _ S2 L) as (done & rest & w3 & new & Ed & S3 & L3 & I3 & A3 & -> & ->).
    rewrite app_nil_r in Ed. subst done. exists order, (n2 ++ n1), new. split; [split; auto|]. split; [now rewrite L3, G2, G1, <- !app_assoc|]. split; [exact I3|].
    intros n k K. apply A3. left. split; [apply O2; eauto|eauto].
  Qed.

  (** *** Everything ready *)
  Lemma unsat_nil s uris a b A : system s -> settled h s uris -> read_files h uris = Ok (a, b) -> forall extra, unsatisfied s (file_dict a) A = Ok extra -> extra = [].
  Proof.
    intros S St R. unfold unsatisfied. destruct (read_spec _ _ _ _ R) as [Ra _].
    assert (Q : forall A acc extra, foldM (fun acc x => match file_dict a !! x with None => Err EKey | Some p => deps <- runtimeDependencies p ;;
                 foldM (fun acc dep => b <- installed_satisfies_dep s dep ;; c <- (if b : bool then Ok true else dict_satisfies_dep (file_dict a) dep) ;;
                          Ok (if c : bool then acc else acc ++ [dep_package dep])%list) deps acc end) A acc = Ok extra -> extra = acc); [|intros extra; apply Q].
    clear A. induction A as [|x A IH]; intros acc extra H; cbn [foldM] in H; [now injection H as <-|]. destruct (file_dict a !! x) as [p|] eqn:D; [|discriminate].
    unfold file_dict in D. rewrite lookup_fmap in D. destruct (a !! x) as [k|] eqn:Dk; [|discriminate]. injection D as <-. apply Ra in Dk.
    unfold runtimeDependencies at 1 in H. destruct (p_compdeps (k_pkg k)); [|discriminate]. cbn [bind] in H.
    assert (Q : forall deps acc acc', (forall d, In d deps -> In d (p_deps (k_pkg k))) ->
                 foldM (fun acc dep => b <- installed_satisfies_dep s dep ;; c <- (if b : bool then Ok true else dict_satisfies_dep (file_dict a) dep) ;;
                          Ok (if c : bool then acc else acc ++ [dep_package dep])%list) deps acc = Ok acc' -> acc' = acc).
    { clear H IH. induction deps as [|d deps IH]; intros c0 c1 Hd H; cbn [foldM] in H; [now injection H as <-|].
      destruct (installed_satisfies_dep s d) as [b0|e] eqn:I; [|discriminate]. cbn [bind] in H.
      assert (K : (if b0 then Ok true else dict_satisfies_dep (file_dict a) d) = Ok true).
      { destruct b0; [reflexivity|]. destruct (St x k d Dk (Hd d (or_introl eq_refl))) as [M|[M _]]; [now apply (met_dict _ _ _ _ R)|]. apply (sat_true _ _ S) in M. congruence. }
      rewrite K in H. cbn [bind] in H. apply IH in H; [exact H|]. intros d' Hd'. apply Hd. now right. }
    match type of H with bind ?m _ = _ => destruct m as [acc1|e] eqn:E; [|discriminate] end. cbn [bind] in H. apply IH in H. apply Q in E; [congruence|auto].
  Qed.
  Lemma files_ready uris w w' r : system (w_sys w) -> o_ignore_dependency o = false -> o_dry_run o = false ->
    o_ignore_file_conflicts o = true \/ refuses h QConflicts -> settled h (w_sys w) uris -> install_pkg_files h o uris w = (w', r) ->
    (untouched w w' /\ exists e, r = Err e) \/
    exists order done rest w1, in_need_order h uris order /\ order = done ++ rest /\ system (w_sys w1) /\ after h uris (w_sys w) done (w_sys w1) /\
      match r with
      | Ok _ => rest = [] /\ w' = w1
      | Err e => exists x k rest', rest = x :: rest' /\ holds h uris x k /\ (forall d, In d (p_deps (k_pkg k)) -> met (w_sys w1) d) /\
                 install_package h o k (o_ignore_file_conflicts o) true w1 = (w', Err e)
      end.
  Proof.
    intros S NI ND NC St H. destruct (files_shape _ _ _ _ NI ND H) as [Z|(a & b & extra & R & U & Z)]; [now left|].
    rewrite (unsat_nil _ _ _ _ _ S St R _ U) in Z. destruct Z as [(e & Z & _)|(w1 & [] & E & Z)]; [discriminate|]. injection E as <-.
    destruct Z as [Z|(order & get & Or & P & _ & Z)]; [now left|].
    assert (CU : forall w2 r2, check_conflicts h o get (rev order) w = (w2, r2) -> o_ignore_file_conflicts o = false -> untouched w w2).
    { intros w2 r2 C NF. destruct NC as [X|NC]; [congruence|]. pose proof (proj1 (check_refused h o get (rev order) w NC)) as K. rewrite C in K. exact K. }
    destruct Z as [(e & NF & C & ->)|(w2 & C & L)]; [left; split; [eapply CU; eassumption|eauto]|]. right.
    assert (E2 : w_sys w2 = w_sys w). { destruct C as [[_ ->]|([] & NF & C)]; [reflexivity|]. apply (CU _ _ C NF). }
    destruct Or as (O1 & O2 & O3). assert (S2 : system (w_sys w2)) by now rewrite E2.
    destruct (files_loop h o uris b order P (fun x Hx => proj1 (O2 x) Hx) O1 _ _ _ S2 L) as (done & rest & w3 & new & Ed & S3 & L3 & I3 & A3 & Z). rewrite E2 in A3.
    exists order, done, rest, w3. split; [split; auto|]. split; [exact Ed|]. split; [exact S3|]. split; [exact A3|]. destruct r as [v|e]; [exact Z|].
    destruct Z as (x & k & rest' & -> & Hk & Z). exists x, k, rest'. split; [reflexivity|]. split; [exact Hk|]. split; [|exact Z].
    intros d Hd. destruct (St x k d Hk Hd) as [M|[(p & M1 & M2) M]].
    - pose proof (O3 x (dep_package d)) as B. destruct B as (l1 & l2 & l3 & B); [exists k, d; auto|]. destruct M as (k' & Hk' & M).
      assert (In (dep_package d) done).
      { rewrite Ed in B. clear - B O1 Ed. rewrite Ed in O1. clear Ed. revert done B O1. induction l1 as [|z l1 IH]; intros [|y done] B O1; cbn [app] in *.
        - injection B as -> B. apply NoDup_cons_iff in O1 as [O1 _]. destruct O1. rewrite B. apply in_elt.
        - injection B as -> _. now left.
        - injection B as -> B. apply NoDup_cons_iff in O1 as [O1 _]. destruct O1. rewrite B. apply in_app_iff. right. right. apply in_elt.
        - injection B as -> B. apply NoDup_cons_iff in O1 as [_ O1]. right. eapply IH; eassumption. }
      exists (k_pkg k'). split; [|exact M]. apply A3. left. eauto.
    - exists p. split; [|exact M2]. apply A3. right. split; [|exact M1]. intros K. assert (In (dep_package d) order) as K' by (rewrite Ed; apply in_app_iff; now left). apply O2 in K' as [k' K']. exact (M k' K').
  Qed.
  Lemma files_met uris w w' u : system (w_sys w) -> o_ignore_dependency o = false -> o_dry_run o = false ->
    o_ignore_file_conflicts o = true \/ refuses h QConflicts -> settled h (w_sys w) uris -> install_pkg_files h o uris w = (w', Ok u) ->
    (forall y q, present (w_sys w') y q <-> (exists k, holds h uris y k /\ k_pkg k = q) \/ ((forall k, ~ holds h uris y k) /\ present (w_sys w) y q)) /\
    forall n k d, holds h uris n k -> In d (p_deps (k_pkg k)) -> met (w_sys w') d.
  Proof.
    intros S NI ND NC St H. destruct (files_ready _ _ _ _ S NI ND NC St H) as [(_ & e & X)|(order & done & rest & w1 & (O1 & O2 & O3) & Ed & S1 & A & -> & ->)]; [discriminate|].
    rewrite app_nil_r in Ed. subst done.
    assert (A' : forall y q, present (w_sys w1) y q <-> (exists k, holds h uris y k /\ k_pkg k = q) \/ ((forall k, ~ holds h uris y k) /\ present (w_sys w) y q)).
    { intros y q. rewrite (A y q), O2. split.
      - intros [[_ K]|[K1 K2]]; [now left|right; split; [intros k K; eauto|exact K2]].
      - intros [(k & K1 & K2)|[K1 K2]]; [left; eauto|right; split; [intros [k K]; exact (K1 k K)|exact K2]]. }
    split; [exact A'|]. intros n k d Hk Hd. destruct (St n k d Hk Hd) as [(k' & K1 & K2)|[(p & K1 & K2) K3]].
    - exists (k_pkg k'). split; [|exact K2]. apply A'. eauto.
    - exists p. split; [|exact K2]. apply A'. auto.
  Qed.
End files.
