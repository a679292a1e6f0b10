(** * Lemmas about planning *)
From Coq Require Import String List Lia.
From stdpp Require Import gmap strings relations.
From Verif Require Import Proof.GraphFacts.
From Verif Require Import Model.Py Model.ItemByRepo Model.Dependency Model.Package Model.Databases
  Model.InstallDB Model.System Model.Graph Model.Plan
  Spec.DependencySpec Spec.ItemByRepoSpec Spec.DatabaseSpec Spec.SystemSpec Spec.GraphSpec Spec.PlanSpec
  Proof.DatabaseFacts Proof.SystemFacts.
Open Scope string_scope.
Open Scope list_scope.

(** ** The loop *)
Section rounds_facts.
  Context (it : iter) (step : pgraph * gset string -> string -> res (pgraph * gset string)).
  Context (nbr : string -> string -> Prop) (I : gset string -> pgraph -> Prop) (U : gset string) (Bad : string -> exn -> Prop).
  Hypothesis It : forall n X, NoDup (it_set it n X) /\ forall x, In x (it_set it n X) <-> x ∈ X.
  Hypothesis IU : forall dn g, I dn g -> g_v g ⊆ U.
  Hypothesis Step : forall dn g Bp x, I dn g -> x ∈ g_v g -> x ∉ dn ->
    match step (g, Bp) x with
    | Ok gb => I ({[x]} ∪ dn) gb.1 /\ (forall y, y ∈ g_v gb.1 <-> y ∈ g_v g \/ nbr x y) /\
               (forall y, y ∈ gb.2 <-> y ∈ Bp \/ (nbr x y /\ y ∉ g_v g))
    | Err e => Bad x e
    end.

  Lemma round_spec B : forall dn g Bp, I dn g -> NoDup B -> (forall x, In x B -> x ∈ g_v g /\ x ∉ dn) ->
    match foldM step B (g, Bp) with
    | Ok gb => (exists dn', I dn' gb.1 /\ forall x, x ∈ dn' <-> x ∈ dn \/ In x B) /\
               (forall y, y ∈ g_v gb.1 <-> y ∈ g_v g \/ exists x, In x B /\ nbr x y) /\
               (forall y, y ∈ gb.2 <-> y ∈ Bp \/ ((exists x, In x B /\ nbr x y) /\ y ∉ g_v g))
    | Err e => exists x, In x B /\ Bad x e
    end.
  Proof.
    induction B as [|x B IH]; intros dn g Bp Hi N Hb; cbn [foldM].
    - split; [exists dn; split; [exact Hi|intros x; simpl; tauto]|]. simpl. split; intros y; [|]; (split; [tauto|]); intros [H|H]; auto.
      + destruct H as (x & [] & _).
      + destruct H as ((x & [] & _) & _).
    - apply NoDup_cons in N as [N1 N2]. destruct (Hb x (or_introl eq_refl)) as [X1 X2].
      pose proof (Step dn g Bp x Hi X1 X2) as S. destruct (step (g, Bp) x) as [[g1 Bp1]|e]; cbn [bind].
      + destruct S as (S1 & S2 & S3). simpl in S1, S2, S3.
        assert (Hb1 : forall y, In y B -> y ∈ g_v g1 /\ y ∉ {[x]} ∪ dn).
        { intros y Hy. destruct (Hb y (or_intror Hy)) as [Y1 Y2]. split; [apply S2; auto|].
          rewrite elem_of_union, elem_of_singleton. intros [->|K]; [apply N1; now apply elem_of_list_In|auto]. }
        specialize (IH ({[x]} ∪ dn) g1 Bp1 S1 N2 Hb1). destruct (foldM step B (g1, Bp1)) as [[g2 Bp2]|e].
        * destruct IH as ((dn' & I1 & I2) & I3 & I4). simpl in I1, I3, I4. split; [|split].
          -- exists dn'. split; [exact I1|]. intros y. rewrite I2, elem_of_union, elem_of_singleton. simpl. split; [intros [[->|]|]; auto|intros [|[->|]]; auto].
          -- intros y. simpl. rewrite I3, S2. split.
             ++ intros [[H|H]|(z & Hz & H)]; [auto|right; exists x; auto|right; exists z; auto].
             ++ intros [H|(z & [<-|Hz] & H)]; [auto|auto|right; eauto].
          -- intros y. simpl. rewrite I4, S3, S2. split.
             ++ intros [[H|[H K]]|[(z & Hz & H) K]]; [auto|right; split; [exists x; auto|exact K]|right]. split; [exists z; auto|tauto].
             ++ intros [H|[(z & [<-|Hz] & H) K]]; [auto|auto|]. destruct (decide (y ∈ g_v g1)) as [D|D].
                ** apply S2 in D as [D|D]; [contradiction|auto].
                ** right. split; [eauto|]. now rewrite S2 in D.
        * destruct IH as (z & Hz & H). exists z. split; [right; exact Hz|exact H].
      + exists x. split; [left; reflexivity|exact S].
  Qed.

  Lemma rounds_spec fuel : forall n B dn g, I dn g -> NoDup B -> (forall x, In x B -> x ∈ g_v g /\ x ∉ dn) ->
    dn ⊆ g_v g -> size U < fuel + size dn ->
    match rounds fuel n it step g B with
    | Ok g' => exists dn', I dn' g' /\ (forall x, x ∈ dn \/ In x B -> x ∈ dn') /\
               (forall y, y ∈ g_v g' <-> y ∈ g_v g \/ y ∈ dn') /\
               (forall x, x ∈ dn' -> x ∈ dn \/ exists b, In b B /\ rtc nbr b x) /\
               (forall x y, x ∈ dn' -> nbr x y -> x ∈ dn \/ y ∈ g_v g')
    | Err e => exists b x, In b B /\ rtc nbr b x /\ Bad x e
    end.
  Proof.
    induction fuel as [|fuel IH]; intros n B dn g Hi N Hb Hd Hs.
    - exfalso. pose proof (IU _ _ Hi) as K. assert (size dn <= size U) by (apply subseteq_size; set_solver). lia.
    - destruct B as [|b0 B0] eqn:EB; cbn [rounds].
      + exists dn. split; [exact Hi|]. split; [intros x [H|[]]; exact H|]. split; [intros y; split; [auto|intros [H|H]; auto]|]. split; auto.
      + rewrite <- EB in *. assert (NE : exists b, In b B) by (exists b0; rewrite EB; simpl; auto). clear EB b0 B0.
        pose proof (round_spec B dn g ∅ Hi N Hb) as R. destruct (foldM step B (g, ∅)) as [[g1 Bp1]|e]; cbn [bind].
        * destruct R as ((dn1 & R1 & R2) & R3 & R4). simpl in R1, R3, R4. destruct (It n Bp1) as [T1 T2].
          assert (P : forall x, In x (it_set it n Bp1) -> x ∈ g_v g1 /\ x ∉ dn1).
          { intros x Hx. apply T2, R4 in Hx as [Hx|[Hx K]]; [now apply elem_of_empty in Hx|]. split; [apply R3; auto|].
            rewrite R2. intros [D|D]; [apply K, Hd, D|]. now apply Hb in D as [D _]. }
          assert (Sz : size dn < size dn1).
          { apply subset_size. split; [intros x Hx; apply R2; auto|]. intros K. destruct NE as [b Hb0]. destruct (Hb b Hb0) as [_ Q]. apply Q, K, R2. auto. }
          assert (D1 : dn1 ⊆ g_v g1). { intros x Hx. apply R2 in Hx as [Hx|Hx]; apply R3; left; [apply Hd, Hx|apply Hb, Hx]. }
          assert (Sz1 : size U < fuel + size dn1) by lia.
          specialize (IH (S n) (it_set it n Bp1) dn1 g1 R1 T1 P D1 Sz1). simpl fst. simpl snd. destruct (rounds fuel (S n) it step g1 (it_set it n Bp1)) as [g2|e].
          -- destruct IH as (dn2 & J1 & J2 & J3 & J4 & J5). exists dn2. split; [exact J1|]. split; [intros x Hx; apply J2; left; apply R2; exact Hx|]. split; [|split].
             ++ intros y. rewrite J3, R3. split; [|tauto]. intros [[H|(x & Hx & H)]|H]; [auto| |auto].
                destruct (decide (y ∈ g_v g)) as [D|D]; [auto|]. right. apply J2. right. apply T2, R4. right. split; [eauto|exact D].
             ++ intros x Hx. apply J4 in Hx as [Hx|(b & Hx & H)].
                ** apply R2 in Hx as [Hx|Hx]; [auto|]. right. exists x. split; [exact Hx|apply rtc_refl].
                ** apply T2, R4 in Hx as [Hx|[(z & Hz & K) _]]; [now apply elem_of_empty in Hx|]. right. exists z. split; [exact Hz|]. eapply rtc_l; eauto.
             ++ intros x y Hx K. destruct (J5 x y Hx K) as [D|D]; [|auto]. apply R2 in D as [D|D]; [auto|]. right. apply J3. left. apply R3. right. eauto.
          -- destruct IH as (b & x & Hb1 & H & K). apply T2, R4 in Hb1 as [Hb1|[(z & Hz & Q) _]]; [now apply elem_of_empty in Hb1|].
             exists z, x. split; [exact Hz|]. split; [|exact K]. eapply rtc_l; eauto.
        * destruct R as (x & Hx & K). exists x, x. split; [exact Hx|]. split; [apply rtc_refl|exact K].
  Qed.
End rounds_facts.

(** ** Package graphs *)
Definition einv (g : pgraph) : Prop := built g /\ forall u, u ∈ g_v g -> is_Some (g_edata g !! u).
Lemma einv_empty : einv empty_graph.
Proof. split; [constructor|]. intros u H. simpl in H. now apply elem_of_empty in H. Qed.

Lemma add_package_spec get g n : einv g ->
  match pg_add_package get g n with
  | Ok g' => einv g' /\ n ∉ g_v g /\ (exists p, get n = Ok p) /\ (forall y, y ∈ g_v g' <-> y ∈ g_v g \/ y = n) /\ (forall u v, edge g' u v <-> edge g u v)
  | Err e => get n = Err e \/ n ∈ g_v g
  end.
Proof.
  intros [B E]. unfold pg_add_package. destruct (get n) as [p|e] eqn:G; cbn [bind]; [|auto].
  destruct (add_vertex g n (Some (vinfo p))) as [g'|e] eqn:A.
  - pose proof (add_vertex_gwf g n _ g' (built_gwf g B) A) as (W & N & V & Ed). split; [|split; [exact N|split; [eauto|split; [|exact Ed]]]].
    + split; [eapply built_vertex; eauto|]. intros u Hu. unfold add_vertex in A. case_bool_decide; [discriminate|]. injection A as <-. simpl in *.
      destruct (decide (u = n)) as [->|D]; [rewrite lookup_insert; eauto|]. rewrite lookup_insert_ne by congruence. apply E.
      apply elem_of_union in Hu as [Hu|Hu]; [apply elem_of_singleton in Hu; contradiction|exact Hu].
    + intros y. rewrite V, elem_of_union, elem_of_singleton. tauto.
  - right. unfold add_vertex in A. destruct (bool_decide (n ∈ g_v g)) eqn:K; [now apply bool_decide_eq_true in K|discriminate].
Qed.

Lemma add_packages_spec get A : forall g, einv g -> NoDup A -> (forall x, In x A -> x ∉ g_v g) ->
  match add_packages get A g with
  | Ok g' => einv g' /\ (forall y, y ∈ g_v g' <-> y ∈ g_v g \/ In y A) /\ (forall u v, edge g' u v <-> edge g u v) /\ (forall x, In x A -> exists p, get x = Ok p)
  | Err e => exists x, In x A /\ get x = Err e
  end.
Proof.
  unfold add_packages. induction A as [|a A IH]; intros g E N Hd; cbn [foldM].
  - simpl. split; [exact E|]. split; [tauto|]. split; [tauto|intros x []].
  - apply NoDup_cons in N as [N1 N2]. pose proof (add_package_spec get g a E) as P. destruct (pg_add_package get g a) as [g1|e]; cbn [bind].
    + destruct P as (P1 & P2 & P3 & P4 & P5). assert (Hd1 : forall x, In x A -> x ∉ g_v g1).
      { intros x Hx. rewrite P4. intros [K| ->]; [exact (Hd x (or_intror Hx) K)|apply N1; now apply elem_of_list_In]. }
      specialize (IH g1 P1 N2 Hd1). destruct (foldM (pg_add_package get) A g1) as [g2|e].
      * destruct IH as (I1 & I2 & I3 & I4). split; [exact I1|]. split; [|split].
        -- intros y. rewrite I2, P4. simpl. split; [intros [[|]|]; auto|intros [|[|]]; auto].
        -- intros u v. now rewrite I3.
        -- intros x [<-|Hx]; auto.
      * destruct IH as (x & Hx & K). exists x. simpl. auto.
    + destruct P as [P|P]; [exists a; simpl; auto|]. destruct (Hd a (or_introl eq_refl) P).
Qed.

Lemma data_unless_vertex_spec get (g : pgraph) n :
  match data_unless_vertex get g n with
  | Ok d => (n ∈ g_v g /\ d = None) \/ (n ∉ g_v g /\ exists p, get n = Ok p /\ d = Some (vinfo p))
  | Err e => n ∉ g_v g /\ get n = Err e
  end.
Proof.
  unfold data_unless_vertex. destruct (bool_decide (n ∈ g_v g)) eqn:K.
  - apply bool_decide_eq_true in K. auto.
  - apply bool_decide_eq_false in K. destruct (get n) as [p|e]; cbn [bind]; eauto.
Qed.

Lemma add_edge_spec (g : pgraph) u v e du dv : einv g ->
  (u ∈ g_v g \/ is_Some du) -> (v ∈ g_v g \/ is_Some dv) ->
  exists g', add_edge g u v (Some e) du dv = Ok g' /\ einv g' /\
    (forall y, y ∈ g_v g' <-> y ∈ g_v g \/ y = u \/ y = v) /\ (forall x y, edge g' x y <-> edge g x y \/ (x = u /\ y = v)).
Proof.
  intros [B E] Hu Hv. assert (X : exists g', add_edge g u v (Some e) du dv = Ok g' /\ forall x, x ∈ g_v g' -> is_Some (g_edata g' !! x)).
  { assert (A1 : exists g1, (if bool_decide (u ∈ g_v g) then Ok g else add_vertex g u du) = Ok g1 /\ built g1 /\ g_v g1 = {[u]} ∪ g_v g /\ forall x, x ∈ g_v g1 -> is_Some (g_edata g1 !! x)).
    { destruct (bool_decide (u ∈ g_v g)) eqn:K.
      - apply bool_decide_eq_true in K. exists g. split; [reflexivity|]. split; [exact B|]. split; [clear - K; set_solver|exact E].
      - apply bool_decide_eq_false in K. destruct Hu as [Hu|[d ->]]; [contradiction|].
        assert (P : exists g1, add_vertex g u (Some d) = Ok g1) by (unfold add_vertex; rewrite (bool_decide_false _ K); eauto). destruct P as [g1 P].
        exists g1. split; [exact P|]. split; [eapply built_vertex; eauto|]. unfold add_vertex in P. rewrite (bool_decide_false _ K) in P. injection P as <-. split; [reflexivity|]. simpl.
        intros x Hx. destruct (decide (x = u)) as [->|D]; [rewrite lookup_insert; eauto|]. rewrite lookup_insert_ne by congruence. apply E.
        apply elem_of_union in Hx as [Hx|Hx]; [apply elem_of_singleton in Hx; contradiction|exact Hx]. }
    assert (A2 : forall g1 : pgraph, built g1 -> g_v g1 = {[u]} ∪ g_v g -> (forall x, x ∈ g_v g1 -> is_Some (g_edata g1 !! x)) ->
      exists g2, (if bool_decide (v ∈ g_v g1) then Ok g1 else add_vertex g1 v dv) = Ok g2 /\ built g2 /\ u ∈ g_v g2 /\ forall x, x ∈ g_v g2 -> is_Some (g_edata g2 !! x)).
    { clear A1. intros g1 B1 V1 E1. destruct (bool_decide (v ∈ g_v g1)) eqn:K.
      - exists g1. split; [reflexivity|]. split; [exact B1|]. split; [rewrite V1; clear; set_solver|exact E1].
      - apply bool_decide_eq_false in K. destruct Hv as [Hv|[d ->]]; [exfalso; apply K; rewrite V1; clear - Hv; set_solver|].
        assert (P : exists g2, add_vertex g1 v (Some d) = Ok g2) by (unfold add_vertex; rewrite (bool_decide_false _ K); eauto). destruct P as [g2 P].
        exists g2. split; [exact P|]. split; [eapply built_vertex; eauto|]. unfold add_vertex in P. rewrite (bool_decide_false _ K) in P. injection P as <-. simpl.
        split; [rewrite V1; clear; set_solver|].
        intros x Hx. destruct (decide (x = v)) as [->|D]; [rewrite lookup_insert; eauto|]. rewrite lookup_insert_ne by congruence. apply E1.
        apply elem_of_union in Hx as [Hx|Hx]; [apply elem_of_singleton in Hx; contradiction|exact Hx]. }
    destruct A1 as (g1 & X1 & B1 & V1 & E1). destruct (A2 g1 B1 V1 E1) as (g2 & X2 & B2 & U2 & E2). unfold add_edge. rewrite X1. cbn [bind]. rewrite X2. cbn [bind].
    pose proof (proj2 (gw_adj g2 (built_gwf g2 B2) u) U2) as [vs ->]. destruct (E2 u U2) as [m Em]. rewrite Em. eexists. split; [reflexivity|]. simpl.
    intros x Hx. destruct (decide (x = u)) as [->|D]; [rewrite lookup_insert; eauto|]. rewrite lookup_insert_ne by congruence. apply E2, Hx. }
  destruct X as (g' & X1 & X2). exists g'. split; [exact X1|]. destruct (add_edge_gwf g u v _ du dv g' (built_gwf g B) X1) as (W & V & Ed).
  split; [split; [eapply built_edge; eauto|exact X2]|]. split; [|exact Ed]. intros y. rewrite V, !elem_of_union, !elem_of_singleton. tauto.
Qed.

Lemma add_dep_spec get g x dep : einv g -> x ∈ g_v g ->
  match pg_add_dep get g x dep with
  | Ok g' => einv g' /\ (forall y, y ∈ g_v g' <-> y ∈ g_v g \/ y = dep_package dep) /\
             (forall u v, edge g' u v <-> edge g u v \/ (u = x /\ v = dep_package dep)) /\
             (dep_package dep ∈ g_v g \/ exists p, get (dep_package dep) = Ok p)
  | Err e => get (dep_package dep) = Err e
  end.
Proof.
  intros E Hx. unfold pg_add_dep. pose proof (data_unless_vertex_spec get g x) as D1. destruct (data_unless_vertex get g x) as [d1|e]; cbn [bind]; [|destruct D1; contradiction].
  destruct D1 as [[_ ->]|[D1 _]]; [|contradiction].
  pose proof (data_unless_vertex_spec get g (dep_package dep)) as D2. destruct (data_unless_vertex get g (dep_package dep)) as [d2|e]; cbn [bind]; [|destruct D2; assumption].
  destruct (add_edge_spec g x (dep_package dep) (Some dep) None d2 E (or_introl Hx)) as (g' & -> & E' & V' & Ed').
  { destruct D2 as [[D2 _]|[_ (p & _ & ->)]]; eauto. }
  split; [exact E'|]. split; [intros y; rewrite V'; split; [intros [|[->|]]; auto|tauto]|]. split; [exact Ed'|]. destruct D2 as [[D2 _]|[_ (p & D2 & _)]]; eauto.
Qed.
Lemma add_plain_dep_spec get g n x : einv g -> x ∈ g_v g ->
  match pg_add_plain_dep get g n x with
  | Ok g' => einv g' /\ (forall y, y ∈ g_v g' <-> y ∈ g_v g \/ y = n) /\
             (forall u v, edge g' u v <-> edge g u v \/ (u = n /\ v = x)) /\ (n ∈ g_v g \/ exists p, get n = Ok p)
  | Err e => get n = Err e
  end.
Proof.
  intros E Hx. unfold pg_add_plain_dep. pose proof (data_unless_vertex_spec get g n) as D2. destruct (data_unless_vertex get g n) as [d2|e]; cbn [bind]; [|destruct D2; assumption].
  pose proof (data_unless_vertex_spec get g x) as D1. destruct (data_unless_vertex get g x) as [d1|e]; cbn [bind]; [|destruct D1; contradiction].
  destruct D1 as [[_ ->]|[D1 _]]; [|contradiction].
  destruct (add_edge_spec g n x None d2 None E) as (g' & -> & E' & V' & Ed'); [|auto|].
  { destruct D2 as [[D2 _]|[_ (p & _ & ->)]]; eauto. }
  split; [exact E'|]. split; [intros y; rewrite V'; split; [intros [|[| ->]]; auto|tauto]|]. split; [exact Ed'|]. destruct D2 as [[D2 _]|[_ (p & D2 & _)]]; eauto.
Qed.

(** ** Closures along dependencies *)
Section dep_closure.
  Context (get : string -> res package) (c : dependency -> res bool)
    (f : string -> pgraph * gset string -> dependency -> res (pgraph * gset string)).
  Hypothesis Hf : forall x gb dep, f x gb dep =
    (skip <- c dep ;;
     if skip : bool then Ok gb
     else let Bp := if bool_decide (dep_package dep ∈ g_v gb.1) then gb.2 else {[dep_package dep]} ∪ gb.2 in
          g <- pg_add_dep get gb.1 x dep ;; Ok (g, Bp)).

  Definition wanted (deps : list dependency) (y : string) : Prop := exists d, In d deps /\ c d = Ok false /\ dep_package d = y.
  Lemma wanted_cons d deps y : wanted (d :: deps) y <-> (c d = Ok false /\ dep_package d = y) \/ wanted deps y.
  Proof. unfold wanted. simpl. split; [intros (d' & [<-|H] & K); eauto|]. intros [K|(d' & H & K)]; eauto. Qed.

  Lemma dep_fold x deps : forall g Bp, einv g -> x ∈ g_v g ->
    match foldM (f x) deps (g, Bp) with
    | Ok gb => einv gb.1 /\ (forall y, y ∈ g_v gb.1 <-> y ∈ g_v g \/ wanted deps y) /\
               (forall u v, edge gb.1 u v <-> edge g u v \/ (u = x /\ wanted deps v)) /\
               (forall y, y ∈ gb.2 <-> y ∈ Bp \/ (wanted deps y /\ y ∉ g_v g)) /\
               (forall d, In d deps -> is_ok (c d) = true) /\
               (forall y, y ∈ g_v gb.1 -> y ∈ g_v g \/ exists p, get y = Ok p)
    | Err e => exists d, In d deps /\ (c d = Err e \/ (c d = Ok false /\ get (dep_package d) = Err e))
    end.
  Proof.
    induction deps as [|d deps IH]; intros g Bp E Hx; cbn [foldM].
    - assert (W : forall y, ~ wanted [] y) by (intros y (d & H & _); destruct H). split; [exact E|]. simpl. split; [intros y; specialize (W y); tauto|]. split; [intros u v; specialize (W v); tauto|].
      split; [intros y; specialize (W y); tauto|]. split; [intros d []|auto].
    - rewrite Hf. destruct (c d) as [[|]|e] eqn:C; cbn [bind].
      + specialize (IH g Bp E Hx). destruct (foldM (f x) deps (g, Bp)) as [gb|e].
        * destruct IH as (I1 & I2 & I3 & I4 & I5 & I6). split; [exact I1|]. split; [intros y; rewrite I2, wanted_cons, C; split; [tauto|intros [H|[[H _]|H]]; [auto|discriminate|auto]]|].
          split; [intros u v; rewrite I3, wanted_cons, C; split; [tauto|intros [H|[? [[H _]|H]]]; [auto|discriminate|auto]]|].
          split; [intros y; rewrite I4, wanted_cons, C; split; [tauto|intros [H|[[[H _]|H] ?]]; [auto|discriminate|auto]]|]. split; [|exact I6].
          intros d' [<-|H]; [now rewrite C|auto].
        * destruct IH as (d' & H & K). exists d'. split; [right; exact H|exact K].
      + simpl fst. simpl snd. pose proof (add_dep_spec get g x d E Hx) as P. destruct (pg_add_dep get g x d) as [g1|e]; cbn [bind].
        * destruct P as (P1 & P2 & P3 & P4). set (Bp1 := if bool_decide (dep_package d ∈ g_v g) then Bp else {[dep_package d]} ∪ Bp).
          assert (HB : forall y, y ∈ Bp1 <-> y ∈ Bp \/ (y = dep_package d /\ y ∉ g_v g)).
          { intros y. unfold Bp1. destruct (bool_decide (dep_package d ∈ g_v g)) eqn:K; [apply bool_decide_eq_true in K|apply bool_decide_eq_false in K].
            - split; [auto|]. intros [H|[-> H]]; [auto|contradiction].
            - rewrite elem_of_union, elem_of_singleton. split; [intros [->|]; auto|intros [|[-> _]]; auto]. }
          assert (Hx1 : x ∈ g_v g1) by (apply P2; auto). specialize (IH g1 Bp1 P1 Hx1). destruct (foldM (f x) deps (g1, Bp1)) as [gb|e].
          -- destruct IH as (I1 & I2 & I3 & I4 & I5 & I6). split; [exact I1|]. split; [|split; [|split; [|split]]].
             ++ intros y. rewrite I2, P2, wanted_cons, C. split; [intros [[| ->]|]; auto|intros [|[[_ <-]|]]; auto].
             ++ intros u v. rewrite I3, P3, wanted_cons, C. split; [intros [[|[-> ->]]|[-> ?]]; auto 6|intros [|[-> [[_ <-]|]]]; auto 6].
             ++ intros y. rewrite I4, HB, P2, wanted_cons, C. split.
                ** intros [[|[-> ?]]|[? K]]; [auto|right; auto|right]. split; [auto|tauto].
                ** intros [H|[[[_ <-]|H] K]]; [auto|auto|]. destruct (decide (y = dep_package d)) as [->|D]; [auto|]. right. split; [exact H|]. intros [?|?]; auto.
             ++ intros d' [<-|H]; [now rewrite C|auto].
             ++ intros y Hy. destruct (I6 y Hy) as [H|H]; [|auto]. apply P2 in H as [H| ->]; [auto|]. destruct P4 as [?|?]; auto.
          -- destruct IH as (d' & H & K). exists d'. split; [right; exact H|exact K].
        * exists d. split; [left; reflexivity|]. right. auto.
      + exists d. split; [left; reflexivity|]. auto.
  Qed.

  Definition dstep (gb : pgraph * gset string) (x : string) : res (pgraph * gset string) :=
    p <- get x ;; deps <- runtimeDependencies p ;; foldM (f x) deps gb.
  Definition dnbr (x y : string) : Prop := exists p, get x = Ok p /\ wanted (p_deps p) y.
  (** handling [x] fails with [e] *)
  Definition dbad (x : string) (e : exn) : Prop :=
    get x = Err e \/ exists p, get x = Ok p /\ ((p_compdeps p <> [] /\ e = EType) \/ exists d, In d (p_deps p) /\ c d = Err e).
  Definition dgood (x : string) : Prop := exists p, get x = Ok p /\ p_compdeps p = [] /\ forall d, In d (p_deps p) -> is_ok (c d) = true.
  Definition dI (U : gset string) (g0 : pgraph) (dn : gset string) (g : pgraph) : Prop :=
    einv g /\ g_v g ⊆ U /\ (forall u v, edge g u v <-> edge g0 u v \/ (u ∈ dn /\ dnbr u v)) /\ forall x, x ∈ dn -> dgood x.

  Lemma dstep_spec U g0 dn g Bp x : (forall y p, get y = Ok p -> y ∈ U) -> dI U g0 dn g -> x ∈ g_v g -> x ∉ dn ->
    match dstep (g, Bp) x with
    | Ok gb => dI U g0 ({[x]} ∪ dn) gb.1 /\ (forall y, y ∈ g_v gb.1 <-> y ∈ g_v g \/ dnbr x y) /\
               (forall y, y ∈ gb.2 <-> y ∈ Bp \/ (dnbr x y /\ y ∉ g_v g))
    | Err e => exists y, rtc dnbr x y /\ dbad y e
    end.
  Proof.
    intros HU (E & Hv & Ed & Hg) Hx Hn. unfold dstep. destruct (get x) as [p|e] eqn:G; cbn [bind]; [|exists x; split; [apply rtc_refl|left; exact G]].
    unfold runtimeDependencies. destruct (p_compdeps p) as [|cd cds] eqn:Ec; cbn [bind].
    2:{ exists x. split; [apply rtc_refl|]. right. exists p. split; [exact G|]. left. rewrite Ec. split; [discriminate|reflexivity]. }
    assert (Nb : forall y, dnbr x y <-> wanted (p_deps p) y). { intros y. unfold dnbr. rewrite G. split; [intros (q & [= <-] & H); exact H|eauto]. }
    pose proof (dep_fold x (p_deps p) g Bp E Hx) as F. destruct (foldM (f x) (p_deps p) (g, Bp)) as [gb|e].
    - destruct F as (F1 & F2 & F3 & F4 & F5 & F6). split; [|split].
      + split; [exact F1|]. split; [|split].
        * intros y Hy. destruct (F6 y Hy) as [H|[q H]]; [apply Hv, H|eapply HU, H].
        * intros u v. rewrite F3, Ed, elem_of_union, elem_of_singleton. split; [intros [[H|H]|[-> H]]; [tauto|tauto|right; split; [auto|now apply Nb]]|].
          intros [H|[[->|H] K]]; [auto|right; split; [reflexivity|now apply Nb]|auto].
        * intros y Hy. apply elem_of_union in Hy as [Hy|Hy]; [|auto]. apply elem_of_singleton in Hy as ->. exists p. auto.
      + intros y. rewrite F2, Nb. reflexivity.
      + intros y. rewrite F4, Nb. reflexivity.
    - destruct F as (d & F1 & [F2|[F2 F3]]).
      + exists x. split; [apply rtc_refl|]. right. exists p. split; [exact G|]. right. eauto.
      + exists (dep_package d). split; [|left; exact F3]. apply rtc_once, Nb. exists d. auto.
  Qed.

  Context (it : iter) (U : gset string) (fuel n : nat).
  Hypothesis It : forall n X, NoDup (it_set it n X) /\ forall x, In x (it_set it n X) <-> x ∈ X.
  Hypothesis HU : forall y p, get y = Ok p -> y ∈ U.
  Hypothesis HF : size U < fuel.

  Definition dreach (A : list string) (x : string) : Prop := exists a, In a A /\ rtc dnbr a x.
  Lemma dep_closure A : NoDup A ->
    match (g <- add_packages get A empty_graph ;; rounds fuel n it dstep g A) with
    | Ok g => einv g /\ g_v g ⊆ U /\ (forall y, y ∈ g_v g <-> dreach A y) /\ (forall u v, edge g u v <-> u ∈ g_v g /\ dnbr u v) /\ (forall x, x ∈ g_v g -> dgood x)
    | Err e => exists x, dreach A x /\ dbad x e
    end.
  Proof.
    intros N. pose proof (add_packages_spec get A empty_graph einv_empty N) as P. destruct (add_packages get A empty_graph) as [g0|e]; cbn [bind].
    - destruct P as (P1 & P2 & P3 & P4); [intros x _ K; now apply elem_of_empty in K|].
      assert (V0 : forall y, y ∈ g_v g0 <-> In y A) by (intros y; rewrite P2; split; [intros [K|]; [now apply elem_of_empty in K|auto]|auto]).
      assert (Ne : forall u v, ~ edge g0 u v). { intros u v H. apply P3 in H as (vs & H & _). simpl in H. rewrite lookup_empty in H. discriminate. }
      assert (I0 : dI U g0 ∅ g0).
      { split; [exact P1|]. split; [intros y Hy; apply V0, P4 in Hy as [p Hy]; eauto|]. split; [|intros x Hx; now apply elem_of_empty in Hx].
        intros u v. split; [auto|]. intros [H|[H _]]; [exact H|now apply elem_of_empty in H]. }
      pose proof (rounds_spec it dstep dnbr (dI U g0) U (fun x e => exists y, rtc dnbr x y /\ dbad y e) It (fun dn g H => proj1 (proj2 H))
        (fun dn g Bp x => dstep_spec U g0 dn g Bp x HU) fuel n A ∅ g0 I0 N) as R.
      destruct (rounds fuel n it dstep g0 A) as [g|e].
      + destruct R as (dn & R1 & R2 & R3 & R4 & R5).
        * intros x Hx. split; [now apply V0|intros K; now apply elem_of_empty in K].
        * intros x Hx. now apply elem_of_empty in Hx.
        * lia.
        * assert (V : forall y, y ∈ g_v g <-> y ∈ dn). { intros y. rewrite R3, V0. split; [|auto]. intros [H|H]; [apply R2; auto|exact H]. }
          destruct R1 as (E1 & E2 & E3 & E4). split; [exact E1|]. split; [exact E2|]. split; [|split].
          -- intros y. rewrite V. split; [intros H; destruct (R4 y H) as [K|K]; [now apply elem_of_empty in K|exact K]|].
             intros (a & Ha & H). apply V. assert (Ka : a ∈ g_v g) by (apply V, R2; auto). clear Ha. revert Ka.
             induction H as [|a b y H _ IH]; intros Ka; [exact Ka|]. apply IH. apply V in Ka. destruct (R5 a b Ka H) as [K|K]; [now apply elem_of_empty in K|exact K].
          -- intros u v. rewrite E3, V. specialize (Ne u v). tauto.
          -- intros x Hx. apply E4, V, Hx.
      + destruct R as (b & x & R1 & R2 & y & R3 & R4).
        * intros x Hx. split; [now apply V0|intros K; now apply elem_of_empty in K].
        * intros x Hx. now apply elem_of_empty in Hx.
        * lia.
        * exists y. split; [exists b; split; [exact R1|etrans; eauto]|exact R4].
    - destruct P as (x & P1 & P2); [intros x _ K; now apply elem_of_empty in K|]. exists x. split; [exists x; split; [exact P1|apply rtc_refl]|left; exact P2].
  Qed.
End dep_closure.

(** ** Closures along reverse dependencies *)
Definition ordered (g : pgraph) : Prop :=
  exists L, NoDup L /\ (forall x, In x L <-> x ∈ g_v g) /\ forall u v, edge g u v -> comes_before L v u.

Lemma comes_before_app l m x y : comes_before l x y -> comes_before (l ++ m) x y.
Proof. intros (a & b & c & ->). exists a, b, (c ++ m). now rewrite <- !app_assoc; simpl; rewrite <- app_assoc. Qed.
Lemma comes_before_last l x y : In x l -> comes_before (l ++ [y]) x y.
Proof. intros H. apply in_split in H as (a & b & ->). exists a, b, []. now rewrite <- app_assoc. Qed.

Lemma ordered_grow (g g' : pgraph) n x : ordered g -> x ∈ g_v g -> n ∉ g_v g ->
  (forall y, y ∈ g_v g' <-> y ∈ g_v g \/ y = n) -> (forall u v, edge g' u v <-> edge g u v \/ (u = n /\ v = x)) -> ordered g'.
Proof.
  intros (L & N & V & O) Hx Hn V' E'. exists (L ++ [n]). split; [|split].
  - apply NoDup_app. split; [exact N|]. split; [|apply NoDup_singleton]. intros y Hy K. apply elem_of_list_singleton in K as ->. apply Hn, V. now apply elem_of_list_In.
  - intros y. rewrite in_app_iff, V', V. simpl. intuition.
  - intros u v H. apply E' in H as [H|[-> ->]]; [apply comes_before_app, O, H|]. apply comes_before_last. now apply V.
Qed.

Lemma comes_before_split l x y : NoDup l -> comes_before l x y -> x <> y.
Proof.
  intros N (a & b & c & ->) ->. apply NoDup_app in N as (_ & _ & N). apply NoDup_cons in N as [N _]. apply N. apply elem_of_app. right. left.
Qed.
Lemma comes_before_in l x y : comes_before l x y -> In x l /\ In y l.
Proof. intros (a & b & c & ->). split; apply in_or_app; right; [left; reflexivity|]. right. apply in_or_app. right. left. reflexivity. Qed.
Lemma nodup_cut (a a' : list string) y r r' : NoDup (a ++ y :: r) -> a ++ y :: r = a' ++ y :: r' -> a = a' /\ r = r'.
Proof.
  revert a'. induction a as [|z a IH]; intros [|z' a'] N H; simpl in *.
  - injection H as ->. auto.
  - injection H as -> ->. apply NoDup_cons in N as [N _]. exfalso. apply N. apply elem_of_app. right. left.
  - injection H as <- H. apply NoDup_cons in N as [N _]. exfalso. apply N. rewrite elem_of_app. right. left.
  - injection H as <- H. apply NoDup_cons in N as [_ N]. destruct (IH a' N H) as [-> ->]. auto.
Qed.
Lemma comes_before_trans l x y z : NoDup l -> comes_before l x y -> comes_before l y z -> comes_before l x z.
Proof.
  intros N (a & b & c & E1) (a' & b' & c' & E2). rewrite E1 in E2.
  replace (a ++ x :: b ++ y :: c) with ((a ++ x :: b) ++ y :: c) in E2 by (now rewrite <- app_assoc).
  rewrite E1 in N. replace (a ++ x :: b ++ y :: c) with ((a ++ x :: b) ++ y :: c) in N by (now rewrite <- app_assoc).
  destruct (nodup_cut _ _ _ _ _ N E2) as [<- ->]. rewrite E1. exists a, (b ++ y :: b'), c'. rewrite <- app_assoc. reflexivity.
Qed.
Lemma ordered_acyclic (g : pgraph) : ordered g -> ~ cyclic g.
Proof.
  intros (L & N & V & O) [u H]. assert (K : forall a b, tc (edge g) a b -> comes_before L b a).
  { intros a b T. induction T as [a b T|a b z T _ IH]; [now apply O|]. eapply comes_before_trans; [exact N|exact IH|now apply O]. }
  now apply K, comes_before_split in H.
Qed.

Section rev_closure.
  Context (get : string -> res package) (revs : string -> res (list (string * dependency))) (c : string * dependency -> res bool)
    (f : string -> pgraph * gset string -> string * dependency -> res (pgraph * gset string)).
  Hypothesis Hf : forall x gb rd, f x gb rd =
    (take <- c rd ;;
     if take : bool then
       if bool_decide (rd.1 ∈ g_v gb.1) then Ok gb
       else g <- pg_add_plain_dep get gb.1 rd.1 x ;; Ok (g, {[rd.1]} ∪ gb.2)
     else Ok gb).

  Definition taken (rds : list (string * dependency)) (y : string) : Prop := exists d, In (y, d) rds /\ c (y, d) = Ok true.
  Lemma taken_cons rd rds y : taken (rd :: rds) y <-> (c rd = Ok true /\ rd.1 = y) \/ taken rds y.
  Proof.
    unfold taken. simpl. split; [intros (d' & [->|H] & K); eauto|]. intros [[K <-]|(d' & H & K)]; [|eauto]. exists rd.2. destruct rd. auto.
  Qed.

  Lemma rev_fold x rds : forall g Bp, einv g -> x ∈ g_v g ->
    match foldM (f x) rds (g, Bp) with
    | Ok gb => einv gb.1 /\ (forall y, y ∈ g_v gb.1 <-> y ∈ g_v g \/ taken rds y) /\
               (forall u v, edge gb.1 u v <-> edge g u v \/ (v = x /\ taken rds u /\ u ∉ g_v g)) /\
               (forall y, y ∈ gb.2 <-> y ∈ Bp \/ (taken rds y /\ y ∉ g_v g)) /\
               (forall rd, In rd rds -> is_ok (c rd) = true) /\
               (forall y, y ∈ g_v gb.1 -> y ∈ g_v g \/ exists p, get y = Ok p) /\
               (ordered g -> ordered gb.1)
    | Err e => exists rd, In rd rds /\ (c rd = Err e \/ (c rd = Ok true /\ get rd.1 = Err e))
    end.
  Proof.
    induction rds as [|rd rds IH]; intros g Bp E Hx; cbn [foldM].
    - assert (W : forall y, ~ taken [] y) by (intros y (d & H & _); destruct H). split; [exact E|]. simpl. split; [intros y; specialize (W y); tauto|]. split; [intros u v; specialize (W u); tauto|].
      split; [intros y; specialize (W y); tauto|]. split; [intros d []|auto].
    - rewrite Hf. destruct (c rd) as [[|]|e] eqn:C; cbn [bind].
      + simpl fst. simpl snd. destruct (bool_decide (rd.1 ∈ g_v g)) eqn:K; [apply bool_decide_eq_true in K|apply bool_decide_eq_false in K].
        * cbn [bind]. specialize (IH g Bp E Hx). destruct (foldM (f x) rds (g, Bp)) as [gb|e].
          -- destruct IH as (I1 & I2 & I3 & I4 & I5 & I6 & I7). split; [exact I1|]. split; [|split; [|split; [|split; [|split]]]].
             ++ intros y. rewrite I2, taken_cons, C. split; [tauto|]. intros [|[[_ <-]|]]; auto.
             ++ intros u v. rewrite I3, taken_cons, C. split; [tauto|]. intros [H|(H & [[_ <-]|H'] & H'')]; [auto|contradiction|auto].
             ++ intros y. rewrite I4, taken_cons, C. split; [tauto|]. intros [H|[[[_ <-]|H] H']]; [auto|contradiction|auto].
             ++ intros d' [<-|H]; [now rewrite C|auto].
             ++ exact I6.
             ++ exact I7.
          -- destruct IH as (d' & H & Q). exists d'. split; [right; exact H|exact Q].
        * pose proof (add_plain_dep_spec get g rd.1 x E Hx) as P. destruct (pg_add_plain_dep get g rd.1 x) as [g1|e]; cbn [bind].
          -- destruct P as (P1 & P2 & P3 & P4). assert (Hx1 : x ∈ g_v g1) by (apply P2; auto). specialize (IH g1 ({[rd.1]} ∪ Bp) P1 Hx1). destruct (foldM (f x) rds (g1, _)) as [gb|e].
             ++ destruct IH as (I1 & I2 & I3 & I4 & I5 & I6 & I7). split; [exact I1|]. split; [|split; [|split; [|split; [|split]]]].
                ** intros y. rewrite I2, P2, taken_cons, C. split; [intros [[| ->]|]; auto|intros [|[[_ <-]|]]; auto].
                ** intros u v. rewrite I3, P3, P2, taken_cons, C. split; [intros [[|[-> ->]]|(H & H' & H'')]; [auto|right; auto|right; split; [auto|split; [auto|tauto]]]|].
                   intros [H|(-> & [[_ <-]|H] & H')]; [auto|auto|]. destruct (decide (u = rd.1)) as [->|D]; [auto|]. right. split; [reflexivity|]. split; [exact H|]. intros [?|?]; auto.
                ** intros y. rewrite I4, P2, taken_cons, C, elem_of_union, elem_of_singleton. split; [intros [[->|H]|[H H']]; [right; auto|auto|right; split; [auto|tauto]]|].
                   intros [H|[[[_ <-]|H] H']]; [auto|auto|]. destruct (decide (y = rd.1)) as [->|D]; [auto|]. right. split; [exact H|]. intros [?|?]; auto.
                ** intros d' [<-|H]; [now rewrite C|auto].
                ** intros y Hy. destruct (I6 y Hy) as [H|H]; [|auto]. apply P2 in H as [H| ->]; [auto|]. destruct P4 as [?|?]; auto.
                ** intros O. apply I7. eapply ordered_grow; eauto.
             ++ destruct IH as (d' & H & Q). exists d'. split; [right; exact H|exact Q].
          -- exists rd. split; [left; reflexivity|]. right. auto.
      + specialize (IH g Bp E Hx). destruct (foldM (f x) rds (g, Bp)) as [gb|e].
        * destruct IH as (I1 & I2 & I3 & I4 & I5 & I6 & I7). split; [exact I1|]. split; [|split; [|split; [|split; [|split]]]].
          -- intros y. rewrite I2, taken_cons, C. split; [tauto|]. intros [H|[[H _]|H]]; [auto|discriminate|auto].
          -- intros u v. rewrite I3, taken_cons, C. split; [tauto|]. intros [H|(H & [[K _]|H'] & H'')]; [auto|discriminate|auto].
          -- intros y. rewrite I4, taken_cons, C. split; [tauto|]. intros [H|[[[K _]|H] H']]; [auto|discriminate|auto].
          -- intros d' [<-|H]; [now rewrite C|auto].
          -- exact I6.
          -- exact I7.
        * destruct IH as (d' & H & Q). exists d'. split; [right; exact H|exact Q].
      + exists rd. split; [left; reflexivity|]. auto.
  Qed.

  Definition rstep (gb : pgraph * gset string) (x : string) : res (pgraph * gset string) :=
    _ <- get x ;; rds <- revs x ;; foldM (f x) rds gb.
  Definition rnbr (x y : string) : Prop := exists l, revs x = Ok l /\ taken l y.
  Definition rbad (x : string) (e : exn) : Prop :=
    get x = Err e \/ revs x = Err e \/ exists l rd, revs x = Ok l /\ In rd l /\ c rd = Err e.
  Definition rgood (x : string) : Prop := exists p l, get x = Ok p /\ revs x = Ok l /\ forall rd, In rd l -> is_ok (c rd) = true.
  Record rI (U : gset string) (g0 : pgraph) (dn : gset string) (g : pgraph) : Prop := mkRI {
    ri_einv : einv g;
    ri_U : g_v g ⊆ U;
    ri_edge : forall u v, edge g u v -> edge g0 u v \/ (v ∈ dn /\ rnbr v u /\ u ∉ g_v g0);
    ri_keep : forall u v, edge g0 u v -> edge g u v;
    ri_vert : forall u, u ∈ g_v g -> u ∈ g_v g0 \/ exists v, edge g u v /\ rnbr v u;
    ri_ord : ordered g0 -> ordered g;
    ri_sub : g_v g0 ⊆ g_v g;
    ri_good : forall x, x ∈ dn -> rgood x
  }.

  Lemma rstep_spec U g0 dn g Bp x : (forall y p, get y = Ok p -> y ∈ U) -> rI U g0 dn g -> x ∈ g_v g -> x ∉ dn ->
    match rstep (g, Bp) x with
    | Ok gb => rI U g0 ({[x]} ∪ dn) gb.1 /\ (forall y, y ∈ g_v gb.1 <-> y ∈ g_v g \/ rnbr x y) /\
               (forall y, y ∈ gb.2 <-> y ∈ Bp \/ (rnbr x y /\ y ∉ g_v g))
    | Err e => exists y, rtc rnbr x y /\ rbad y e
    end.
  Proof.
    intros HU [E Hv Ed Ek Ve Or Su Hg] Hx Hn. unfold rstep. destruct (get x) as [p|e] eqn:G; cbn [bind]; [|exists x; split; [apply rtc_refl|left; exact G]].
    destruct (revs x) as [l|e] eqn:Er; cbn [bind]; [|exists x; split; [apply rtc_refl|right; left; exact Er]].
    assert (Nb : forall y, rnbr x y <-> taken l y). { intros y. unfold rnbr. rewrite Er. split; [intros (q & [= <-] & H); exact H|eauto]. }
    pose proof (rev_fold x l g Bp E Hx) as F. destruct (foldM (f x) l (g, Bp)) as [gb|e].
    - destruct F as (F1 & F2 & F3 & F4 & F5 & F6 & F7). split; [|split].
      + constructor.
        * exact F1.
        * intros y Hy. destruct (F6 y Hy) as [H|[q H]]; [apply Hv, H|eapply HU, H].
        * intros u v H. apply F3 in H as [H|(-> & H & K)].
          -- destruct (Ed u v H) as [Q|(Q1 & Q2 & Q3)]; [auto|]. right. split; [clear - Q1; set_solver|auto].
          -- right. split; [clear; set_solver|]. split; [now apply Nb|]. intros Q. apply K, Su, Q.
        * intros u v H. apply F3. auto.
        * intros u Hu. destruct (decide (u ∈ g_v g)) as [D|D].
          -- destruct (Ve u D) as [Q|(v & Q1 & Q2)]; [auto|]. right. exists v. split; [apply F3; auto|exact Q2].
          -- apply F2 in Hu as [Hu|Hu]; [contradiction|]. right. exists x. split; [apply F3; auto|now apply Nb].
        * auto.
        * intros u Hu. apply F2. auto.
        * intros y Hy. apply elem_of_union in Hy as [Hy|Hy]; [|auto]. apply elem_of_singleton in Hy as ->. exists p, l. auto.
      + intros y. rewrite F2, Nb. reflexivity.
      + intros y. rewrite F4, Nb. reflexivity.
    - destruct F as ([n d] & F1 & [F2|[F2 F3]]).
      + exists x. split; [apply rtc_refl|]. right. right. eauto.
      + exists n. split; [|left; exact F3]. apply rtc_once, Nb. exists d. auto.
  Qed.

  Context (it : iter) (U : gset string) (fuel n : nat).
  Hypothesis It : forall n X, NoDup (it_set it n X) /\ forall x, In x (it_set it n X) <-> x ∈ X.
  Hypothesis HU : forall y p, get y = Ok p -> y ∈ U.
  Hypothesis HF : size U < fuel.

  Definition rreach (A : list string) (x : string) : Prop := exists a, In a A /\ rtc rnbr a x.
  Lemma rev_closure g0 A : NoDup A -> einv g0 -> g_v g0 ⊆ U -> (forall x, In x A -> x ∈ g_v g0) ->
    match rounds fuel n it rstep g0 A with
    | Ok g => exists dn, rI U g0 dn g /\ (forall a, In a A -> a ∈ dn) /\ (forall y, y ∈ g_v g <-> y ∈ g_v g0 \/ y ∈ dn) /\
                (forall x, x ∈ dn -> rreach A x) /\ (forall x y, x ∈ dn -> rnbr x y -> y ∈ g_v g)
    | Err e => exists x, rreach A x /\ rbad x e
    end.
  Proof.
    intros N E0 V0 Ha. assert (I0 : rI U g0 ∅ g0).
    { constructor; auto. intros x Hx. now apply elem_of_empty in Hx. }
    pose proof (rounds_spec it rstep rnbr (rI U g0) U (fun x e => exists y, rtc rnbr x y /\ rbad y e) It (fun dn g H => ri_U _ _ _ _ H)
      (fun dn g Bp x => rstep_spec U g0 dn g Bp x HU) fuel n A ∅ g0 I0 N) as R.
    destruct (rounds fuel n it rstep g0 A) as [g|e].
    - destruct R as (dn & R1 & R2 & R3 & R4 & R5).
      + intros x Hx. split; [now apply Ha|intros K; now apply elem_of_empty in K].
      + intros x Hx. now apply elem_of_empty in Hx.
      + lia.
      + exists dn. split; [exact R1|]. split; [auto|]. split; [exact R3|]. split.
        * intros x Hx. destruct (R4 x Hx) as [K|K]; [now apply elem_of_empty in K|exact K].
        * intros x y Hx K. destruct (R5 x y Hx K) as [D|D]; [now apply elem_of_empty in D|exact D].
    - destruct R as (b & x & R1 & R2 & y & R3 & R4).
      + intros x Hx. split; [now apply Ha|intros K; now apply elem_of_empty in K].
      + intros x Hx. now apply elem_of_empty in Hx.
      + lia.
      + exists y. split; [exists b; split; [exact R1|etrans; eauto]|exact R4].
  Qed.
End rev_closure.

(** ** Reading the databases *)
Lemma get_item_dom {A} order (sh : shelf A) n r x : get_item order sh n r = Ok x -> n ∈ dom sh.
Proof. unfold get_item, get_item_repo. intros H. apply elem_of_dom. destruct (sh !! n) as [data|]; [eauto|discriminate]. Qed.
Lemma get_package_dom db n r p : get_package db n r = Ok p -> n ∈ dom (db_pkg db).
Proof. apply get_item_dom. Qed.
Lemma first_of_in {A} ks (m : gmap string A) k x : first_of ks m = Some (k, x) -> In k ks.
Proof. induction ks as [|k' ks IH]; simpl; [discriminate|]. destruct (m !! k'); [intros [= <- _]; auto|auto]. Qed.
Lemma get_item_error {A} order (sh : shelf A) n r e : r <> RAll -> get_item order sh n r = Err e -> e = EError.
Proof.
  intros Hr. unfold get_item, get_item_repo. destruct (sh !! n) as [data|]; [|simpl; congruence]. destruct r; simpl; try congruence.
  - destruct (data !! "inst"); simpl; congruence.
  - destruct (data !! "trdparty"); simpl; congruence.
  - destruct (first_of _ data) as [[k x]|] eqn:F; [|simpl; congruence]. apply first_of_in, in_map_iff in F as (m & <- & _). unfold str_repo.
    replace (py_startswith ("repo-" +:+ m) "repo-") with true; [simpl; congruence|]. simpl. now destruct m.
  - destruct (data !! _); simpl; congruence.
Qed.
Lemma get_repo_error s n e : get_repo s n = Err e -> e = EError.
Proof. apply get_item_error. discriminate. Qed.
Lemma get_inst_error s n e : get_inst s n = Err e -> e = EError.
Proof. apply get_item_error. discriminate. Qed.
Lemma enough_spec s : size (dom (db_pkg (y_db s))) < enough s.
Proof. rewrite size_dom. unfold enough. lia. Qed.

Lemma sat_spec s d : system s ->
  match installed_satisfies_dep s d with
  | Ok true => met s d
  | Ok false => ~ met s d /\ answerable s d
  | Err e => e = EValue /\ ~ answerable s d /\ ~ met s d
  end.
Proof.
  intros H. destruct (system_agrees s (dep_package d) H) as [Ag _]. unfold installed_satisfies_dep. destruct (is_installed (y_inst s) (dep_package d)) eqn:I; cbn [bind].
  - destruct (proj1 Ag eq_refl) as [p Hp]. rewrite Hp. cbn [bind]. assert (Hu : forall q, present s (dep_package d) q -> q = p) by (intros q [_ Q]; congruence).
    assert (Hpr : present s (dep_package d) p) by (split; assumption).
    destruct (satisfies d (dep_package d) (p_version p) (p_release p)) as [[|]|e] eqn:S.
    + apply DependencyFacts.satisfies_true in S. exists p. split; [exact Hpr|exact S].
    + apply DependencyFacts.satisfies_false in S as [S1 S2]. split; [intros (q & Q1 & Q2 & Q3); apply Hu in Q1 as ->; contradiction|]. intros q Hq. now apply Hu in Hq as ->.
    + apply DependencyFacts.satisfies_err in S as [-> S]. split; [reflexivity|]. split; [intros K; apply S, K, Hpr|]. intros (q & Q1 & Q2 & Q3). apply Hu in Q1 as ->. contradiction.
  - split; [intros (q & [Q _] & _); congruence|intros q [Q _]; congruence].
Qed.
Lemma sat_true s d : system s -> (installed_satisfies_dep s d = Ok true <-> met s d).
Proof.
  intros H. pose proof (sat_spec s d H) as S. destruct (installed_satisfies_dep s d) as [[|]|e]; split; try congruence; try tauto.
Qed.
Lemma sat_ok s d : system s -> (is_ok (installed_satisfies_dep s d) = true <-> answerable s d).
Proof.
  intros H. pose proof (sat_spec s d H) as S. destruct (installed_satisfies_dep s d) as [[|]|e]; simpl; split; try congruence; try tauto.
  intros _ p Hp. destruct S as (q & Q1 & Q2 & _). replace p with q; [exact Q2|]. destruct Q1, Hp. congruence.
Qed.

Lemma comes_before_rev l x y : comes_before l x y -> comes_before (rev l) y x.
Proof. intros (a & b & c & ->). exists (rev c), (rev b), (rev a). rewrite rev_app_distr. simpl. rewrite rev_app_distr. simpl. now rewrite <- !app_assoc. Qed.
Lemma nodup_rev (l : list string) : NoDup l -> NoDup (rev l).
Proof. intros H. rewrite <- (Permutation_rev l). exact H. Qed.

(** ** Install plans *)
(** [x] as offered can be planned for. *)
Definition plannable (s : sys) (x : string) : Prop :=
  exists p, offered s x p /\ p_compdeps p = [] /\ forall d, In d (p_deps p) -> answerable s d.

Lemma install_dep_form s x gb dep : install_dep s x gb dep =
    (skip <- installed_satisfies_dep s dep ;;
     if skip : bool then Ok gb
     else let Bp := if bool_decide (dep_package dep ∈ g_v gb.1) then gb.2 else {[dep_package dep]} ∪ gb.2 in
          g <- pg_add_dep (get_repo s) gb.1 x dep ;; Ok (g, Bp)).
Proof. reflexivity. Qed.

Lemma install_nbr s x y : system s -> dnbr (get_repo s) (installed_satisfies_dep s) x y -> needs s x y.
Proof.
  intros H (p & G & d & D1 & D2 & D3). exists p, d. split; [exact G|]. split; [exact D1|]. split; [exact D3|]. pose proof (sat_spec s d H) as S. rewrite D2 in S. tauto.
Qed.
Lemma install_nbr_good s x y : system s -> dgood (get_repo s) (installed_satisfies_dep s) x -> needs s x y -> dnbr (get_repo s) (installed_satisfies_dep s) x y.
Proof.
  intros H (p & G1 & _ & G3) (q & d & N1 & N2 & N3 & N4). unfold offered in N1. fold (get_repo s x) in N1. rewrite G1 in N1. injection N1 as <-.
  exists p. split; [exact G1|]. exists d. split; [exact N2|]. split; [|exact N3]. pose proof (sat_spec s d H) as S. specialize (G3 d N2).
  destruct (installed_satisfies_dep s d) as [[|]|e]; [contradiction|reflexivity|discriminate].
Qed.
Lemma install_good s x : system s -> (dgood (get_repo s) (installed_satisfies_dep s) x <-> plannable s x).
Proof.
  intros H. split; intros (p & P1 & P2 & P3); exists p; (split; [exact P1|]); (split; [exact P2|]); intros d Hd; apply (sat_ok s d H); auto.
Qed.

Lemma rtc_mono {A} (R S : A -> A -> Prop) x y : (forall a b, R a b -> S a b) -> rtc R x y -> rtc S x y.
Proof. intros H K. induction K; [apply rtc_refl|]. eapply rtc_l; eauto. Qed.
Lemma tc_mono_on {A} (R S : A -> A -> Prop) (P : A -> Prop) x y :
  (forall a b, P a -> R a b -> S a b /\ P b) -> P x -> tc R x y -> tc S x y.
Proof. intros H Px K. induction K as [x y K|x y z K _ IH]; destruct (H _ _ Px K); [now apply tc_once|]. eapply tc_l; eauto. Qed.
Lemma tc_rtc_in {A} (R : A -> A -> Prop) (P : A -> Prop) x y : (forall a b, P a -> R a b -> P b) -> P x -> rtc R x y -> P y.
Proof. intros H Px K. induction K; eauto. Qed.

Lemma sort_cycle (g : pgraph) vs adj e : built g -> iterates g vs adj -> topological_sort vs adj = Err e -> exists c, e = ECycle c /\ cyclic g.
Proof.
  intros B I H. destruct (sort_fails g vs adj (built_gwf g B) I e H) as (c & -> & _). exists c. split; [reflexivity|].
  assert (N : ~ ~ cyclic g). { intros K. apply (sort_iff g vs adj (built_gwf g B) I) in K as [l K]. congruence. }
  destruct (sort_fails g vs adj (built_gwf g B) I (ECycle c) H) as (c' & [= <-] & _ & R & _). exact R.
Qed.

Lemma plan_install_spec s it A : system s -> any_order it -> NoDup A ->
  match plan_install s it A with
  | Ok (g, order) => NoDup order /\ (forall x, In x order <-> needed s A x) /\
      (forall x y, In x order -> needs s x y -> comes_before order y x) /\
      (forall x, needed s A x -> plannable s x) /\ ~ need_cycle s A
  | Err e => (exists x, needed s A x /\ missing (get_package (y_db s) x RRepos) /\ e = EError) \/
      (exists x p, needed s A x /\ offered s x p /\ p_compdeps p <> [] /\ e = EType) \/
      (exists x p d, needed s A x /\ offered s x p /\ In d (p_deps p) /\ ~ answerable s d /\ e = EValue) \/
      (exists c, e = ECycle c /\ need_cycle s A /\ forall x, needed s A x -> plannable s x)
  end.
Proof.
  intros H [It Ig] N. pose proof (dep_closure (get_repo s) (installed_satisfies_dep s) (install_dep s) (install_dep_form s) it (dom (db_pkg (y_db s))) (enough s) 0 It (fun y p => get_package_dom _ y _ p) (enough_spec s) A N) as C.
  unfold plan_install, plan_install_graph. change (install_step s) with (dstep (get_repo s) (install_dep s)).
  destruct (g <- add_packages (get_repo s) A empty_graph ;; rounds (enough s) 0 it (dstep (get_repo s) (install_dep s)) g A) as [g|e] eqn:EG; cbn [bind].
  - destruct C as (C1 & _ & C3 & C4 & C5). destruct C1 as [B _].
    assert (Nd : forall x, x ∈ g_v g <-> needed s A x).
    { intros x. split; [intros Hx; apply C3 in Hx as (a & Ha & Hx); exists a; split; [exact Ha|]; eapply rtc_mono; [|exact Hx]; intros; now apply install_nbr|].
      intros (a & Ha & Hx). assert (Va : a ∈ g_v g) by (apply C3; exists a; split; [exact Ha|apply rtc_refl]). clear Ha. revert Va.
      induction Hx as [|a b x K _ IH]; intros Va; [exact Va|]. apply IH. apply (install_nbr_good s a b H (C5 a Va)) in K. apply C3 in Va as (a0 & Ha0 & Va). apply C3.
      exists a0. split; [exact Ha0|]. eapply rtc_r; eauto. }
    assert (Ed : forall u v, edge g u v <-> u ∈ g_v g /\ needs s u v).
    { intros u v. rewrite C4. split; intros [U1 U2]; (split; [exact U1|]); [now apply install_nbr|apply install_nbr_good; auto]. }
    assert (Pl : forall x, needed s A x -> plannable s x) by (intros x Hx; apply install_good; [exact H|apply C5, Nd, Hx]).
    destruct (topological_sort (it_vs it g) (it_adj it g)) as [l|e] eqn:T; cbn [bind].
    + destruct (sort_ok g _ _ (built_gwf g B) (Ig g B) l T) as (S1 & S2 & S3). split; [now apply nodup_rev|]. split; [intros x; rewrite <- in_rev, S2; apply Nd|]. split; [|split; [exact Pl|]].
      * intros x y Hx K. apply comes_before_rev, S3, Ed. split; [|exact K]. apply S2. now apply in_rev.
      * intros (x & Hx & K). assert (Ac : ~ cyclic g) by (apply (sort_iff g _ _ (built_gwf g B) (Ig g B)); eauto). apply Ac. exists x.
        eapply (tc_mono_on (needs s) (edge g) (fun x => needed s A x)); [|exact Hx|exact K]. intros a b Ha Hab. split; [apply Ed; split; [now apply Nd|exact Hab]|].
        destruct Ha as (a0 & Ha0 & Ha). exists a0. split; [exact Ha0|]. eapply rtc_r; eauto.
    + right. right. right. destruct (sort_cycle g _ _ e B (Ig g B) T) as (c & -> & u & Hu). exists c. split; [reflexivity|]. split; [|exact Pl]. exists u.
      assert (Uu : u ∈ g_v g). { inversion Hu as [? ? K|? ? ? K _]; subst; now apply Ed in K as [K _]. }
      split; [now apply Nd|]. eapply (tc_mono_on (edge g) (needs s) (fun _ => True)); [|exact I|exact Hu]. intros a b _ K. apply Ed in K as [_ K]. auto.
  - destruct C as (x & (a & Ha & Hx) & Bd). assert (Nx : needed s A x) by (exists a; split; [exact Ha|]; eapply rtc_mono; [|exact Hx]; intros; now apply install_nbr).
    destruct Bd as [Bd|(p & G & [[Q1 Q2]|(d & D1 & D2)])].
    + left. exists x. split; [exact Nx|]. split; [exists e; exact Bd|eapply get_repo_error; exact Bd].
    + right. left. exists x, p. auto.
    + right. right. left. exists x, p, d. pose proof (sat_spec s d H) as S. rewrite D2 in S. destruct S as (-> & S & _). auto 6.
Qed.

(** ** Remove plans *)
Definition rem_c (s : sys) (rd : string * dependency) : res bool :=
  b <- has_package (y_db s) rd.1 RInst ;; if b : bool then installed_satisfies_dep s rd.2 else Ok false.
Lemma remove_rev_form s x gb rd : remove_rev s x gb rd =
    (take <- rem_c s rd ;;
     if take : bool then
       if bool_decide (rd.1 ∈ g_v gb.1) then Ok gb
       else g <- pg_add_plain_dep (get_inst s) gb.1 rd.1 x ;; Ok (g, {[rd.1]} ∪ gb.2)
     else Ok gb).
Proof. unfold remove_rev, rem_c. now destruct (has_package (y_db s) rd.1 RInst). Qed.

Lemma present_get s n p : system s -> (present s n p <-> get_inst s n = Ok p).
Proof.
  intros H. unfold present. fold (get_inst s n). split; [tauto|]. intros G. split; [|exact G]. apply (system_agrees s n H). exists p. exact G.
Qed.
Lemma has_inst s n : system s -> exists b, has_package (y_db s) n RInst = Ok b /\ (b = true <-> exists p, present s n p).
Proof.
  intros H. unfold has_package. rewrite ItemByRepoFacts.has_key_place by apply ItemByRepoFacts.place_inst. eexists. split; [reflexivity|].
  assert (E : forall p, present s n p <-> ItemByRepoFacts.entry (db_pkg (y_db s)) n RInst = Some p).
  { intros p. rewrite (present_get s n p H). apply RevDepFacts.get_package_place, ItemByRepoFacts.place_inst. }
  split.
  - intros K. destruct (ItemByRepoFacts.entry (db_pkg (y_db s)) n RInst) as [p|] eqn:Q; [exists p; now apply E|discriminate].
  - intros [p K]. apply E in K. now rewrite K.
Qed.

Lemma rem_c_spec s rd : system s ->
  match rem_c s rd with
  | Ok b => (b = true <-> (exists p, present s rd.1 p) /\ met s rd.2)
  | Err e => e = EValue /\ ~ answerable s rd.2 /\ exists p, present s rd.1 p
  end.
Proof.
  intros H. unfold rem_c. destruct (has_inst s rd.1 H) as (b & -> & Hb). cbn [bind]. destruct b.
  - pose proof (sat_spec s rd.2 H) as S. destruct (installed_satisfies_dep s rd.2) as [[|]|e].
    + split; [intros _; split; [now apply Hb|exact S]|reflexivity].
    + split; [discriminate|tauto].
    + split; [tauto|]. split; [tauto|now apply Hb].
  - split; [discriminate|]. intros [K _]. now apply Hb in K.
Qed.
Lemma relies_nbr s x y : system s -> (rnbr (fun x => get_rev_deps (y_db s) x RInst) (rem_c s) x y <-> relies_on s x y).
Proof.
  intros H. unfold rnbr, taken, relies_on. split.
  - intros (l & L1 & d & L2 & L3). exists l, d. pose proof (rem_c_spec s (y, d) H) as S. rewrite L3 in S. simpl in S. destruct S as [S _]. specialize (S eq_refl). tauto.
  - intros (l & d & L1 & L2 & L3 & L4). exists l. split; [exact L1|]. exists d. split; [exact L2|]. pose proof (rem_c_spec s (y, d) H) as S. simpl in S.
    destruct (rem_c s (y, d)) as [b|e]; [f_equal; apply S; auto|]. destruct S as (_ & S & _). exfalso. apply S. apply (sat_ok s d H). now rewrite (proj2 (sat_true s d H) L4).
Qed.

Lemma plan_remove_spec s it A : system s -> any_order it -> NoDup A ->
  match plan_remove s it A with
  | Ok (g, order) => NoDup order /\ (forall x, In x order <-> falls_with s A x) /\
      (forall x, In x order -> In x A \/ exists y, In y order /\ relies_on s y x /\ comes_before order x y) /\
      (forall x, falls_with s A x -> exists p, present s x p) /\
      (forall x l y d p, falls_with s A x -> get_rev_deps (y_db s) x RInst = Ok l -> In (y, d) l -> present s y p -> answerable s d)
  | Err e => (exists x, In x A /\ is_installed (y_inst s) x = false /\ e = EError) \/
      (exists x l y d p, falls_with s A x /\ get_rev_deps (y_db s) x RInst = Ok l /\ In (y, d) l /\ present s y p /\ ~ answerable s d /\ e = EValue)
  end.
Proof.
  intros H [It Ig] N. unfold plan_remove, plan_remove_graph. change (remove_step s) with (rstep (get_inst s) (fun x => get_rev_deps (y_db s) x RInst) (remove_rev s)).
  set (revs := fun x => get_rev_deps (y_db s) x RInst).
  assert (Reach : forall x, rreach revs (rem_c s) A x <-> falls_with s A x).
  { intros x. split; intros (a & Ha & K); exists a; (split; [exact Ha|]); (eapply rtc_mono; [|exact K]); intros u v; apply relies_nbr, H. }
  assert (Ni : forall x e, get_inst s x = Err e -> is_installed (y_inst s) x = false /\ e = EError).
  { intros x e G. split; [|eapply get_inst_error; exact G]. destruct (is_installed (y_inst s) x) eqn:I; [|reflexivity]. apply (system_agrees s x H) in I as [p I]. unfold get_inst in G. congruence. }
  pose proof (add_packages_spec (get_inst s) A empty_graph einv_empty N) as P. destruct (add_packages (get_inst s) A empty_graph) as [g0|e]; cbn [bind].
  2:{ destruct P as (x & P1 & P2); [intros x _ K; now apply elem_of_empty in K|]. left. exists x. destruct (Ni x e P2). auto. }
  destruct P as (P1 & P2 & P3 & P4); [intros x _ K; now apply elem_of_empty in K|].
  assert (V0 : forall y, y ∈ g_v g0 <-> In y A) by (intros y; rewrite P2; split; [intros [K|]; [now apply elem_of_empty in K|auto]|auto]).
  assert (Ne : forall u v, ~ edge g0 u v). { intros u v K. apply P3 in K as (vs & K & _). simpl in K. rewrite lookup_empty in K. discriminate. }
  assert (HU : forall y p, get_inst s y = Ok p -> y ∈ dom (db_pkg (y_db s))) by (intros y p; apply get_package_dom).
  assert (U0 : g_v g0 ⊆ dom (db_pkg (y_db s))) by (intros y Hy; apply V0, P4 in Hy as [p Hy]; eauto).
  pose proof (rev_closure (get_inst s) revs (rem_c s) (remove_rev s) (remove_rev_form s) it (dom (db_pkg (y_db s))) (enough s) 0 It HU (enough_spec s) g0 A N P1 U0 (fun x => proj2 (V0 x))) as C.
  fold revs. destruct (rounds (enough s) 0 it (rstep (get_inst s) revs (remove_rev s)) g0 A) as [g|e]; cbn [bind].
  - destruct C as (dn & [E _ Re _ Rv Ro _ Rg] & C2 & C3 & C4 & C5). destruct E as [B _].
    assert (Vd : forall y, y ∈ g_v g <-> y ∈ dn) by (intros y; rewrite C3, V0; split; [intros [K|K]; auto|auto]).
    assert (Nd : forall x, x ∈ g_v g <-> falls_with s A x).
    { intros x. split; [intros Hx; apply Reach, C4, Vd, Hx|]. intros K. apply Reach in K as (a & Ha & K). assert (Va : a ∈ g_v g) by (apply Vd, C2, Ha). clear Ha. revert Va.
      induction K as [|a b x K _ IH]; intros Va; [exact Va|]. apply IH. eapply C5; [apply Vd; exact Va|exact K]. }
    assert (Or : ordered g). { apply Ro. exists A. split; [exact N|]. split; [intros x; symmetry; apply V0|]. intros u v K. destruct (Ne u v K). }
    apply ordered_acyclic in Or. apply (sort_iff g _ _ (built_gwf g B) (Ig g B)) in Or as [l T]. rewrite T. cbn [bind].
    destruct (sort_ok g _ _ (built_gwf g B) (Ig g B) l T) as (S1 & S2 & S3). split; [exact S1|]. split; [intros x; rewrite S2; apply Nd|]. split; [|split].
    + intros x Hx. apply S2 in Hx. destruct (Rv x Hx) as [K|(v & K1 & K2)]; [left; now apply V0|]. right. exists v. split; [|split; [now apply relies_nbr|now apply S3]].
      apply S2. eapply (gw_closed g (built_gwf g B)). exact K1.
    + intros x Hx. apply Nd, Vd, Rg in Hx as (p & q & Hx & _). exists p. now apply present_get.
    + intros x rl y d p Hx L1 L2 Hp. apply Nd, Vd, Rg in Hx as (p' & l' & _ & G2 & G3). unfold revs in G2. rewrite L1 in G2. injection G2 as <-. specialize (G3 _ L2).
      pose proof (rem_c_spec s (y, d) H) as S. destruct (rem_c s (y, d)) as [b|e] eqn:Ec; [|discriminate]. unfold rem_c in Ec. destruct (has_inst s y H) as (b' & Eb & Hb). cbn [fst snd] in Ec. rewrite Eb in Ec. cbn [bind] in Ec.
      rewrite (proj2 Hb (ex_intro _ p Hp)) in Ec. apply (sat_ok s d H). now rewrite Ec.
  - destruct C as (x & C1 & C2). apply Reach in C1. destruct C2 as [C2|[C2|(l & [y d] & C2 & C3 & C4)]].
    + destruct (Ni x e C2) as [K ->]. destruct C1 as (a & Ha & C1). apply rtc_inv_r in C1 as [<-|(z & _ & Z)]; [left; exists a; auto|].
      destruct Z as (? & ? & _ & _ & (p & Q & _) & _). congruence.
    + unfold revs in C2. rewrite RevDepFacts.get_rev_deps_place in C2 by apply ItemByRepoFacts.place_inst. discriminate.
    + right. pose proof (rem_c_spec s (y, d) H) as S. rewrite C4 in S. destruct S as (-> & S1 & p & S2). simpl in S1, S2. exists x, l, y, d, p. auto 8.
Qed.
