(** * Lemmas about drawings *)
From Coq Require Import String Ascii List Lia.
From stdpp Require Import gmap strings relations.
From Verif Require Import Proof.GraphFacts.
From Verif Require Import Model.Py Model.ItemByRepo Model.Dependency Model.Package Model.Databases
  Model.InstallDB Model.System Model.Graph Model.Plan Model.Draw
  Spec.DependencySpec Spec.ItemByRepoSpec Spec.DatabaseSpec Spec.SystemSpec Spec.GraphSpec Spec.PlanSpec Spec.DrawSpec
  Proof.DatabaseFacts Proof.SystemFacts Proof.PlanFacts Proof.PlanTop.
Open Scope string_scope.
Open Scope list_scope.

(** ** Labels *)
Section labels.
  Context (get : string -> res package).
  Definition labelled (g : pgraph) : Prop :=
    forall u, u ∈ g_v g -> exists p, get u = Ok p /\ g_vdata g !! u = Some (vinfo p).
  Lemma labelled_empty : labelled empty_graph.
  Proof. intros u H. simpl in H. now apply elem_of_empty in H. Qed.
  Lemma vertex_labelled g u p g' : labelled g -> get u = Ok p -> add_vertex g u (Some (vinfo p)) = Ok g' -> labelled g'.
  Proof.
    intros L G A. unfold add_vertex in A. case_bool_decide as K; [discriminate|]. injection A as <-. intros y Hy. simpl in *.
    destruct (decide (y = u)) as [->|D]; [rewrite lookup_insert; eauto|]. rewrite lookup_insert_ne by congruence. apply L. set_solver.
  Qed.
  Lemma add_package_labelled g n g' : labelled g -> pg_add_package get g n = Ok g' -> labelled g'.
  Proof. unfold pg_add_package. intros L A. destruct (get n) as [p|] eqn:G; [|discriminate]. eapply vertex_labelled; eauto. Qed.
  Lemma add_edge_labelled g u v e du dv g' : labelled g ->
    ((u ∈ g_v g /\ du = None) \/ (exists p, get u = Ok p /\ du = Some (vinfo p))) ->
    ((v ∈ g_v g /\ dv = None) \/ (exists p, get v = Ok p /\ dv = Some (vinfo p))) ->
    add_edge g u v e du dv = Ok g' -> labelled g'.
  Proof.
    intros L Hu Hv A. unfold add_edge in A.
    destruct (if bool_decide (u ∈ g_v g) then Ok g else add_vertex g u du) as [g1|] eqn:E1; [|discriminate]. cbn [bind] in A.
    assert (L1 : labelled g1 /\ g_v g ⊆ g_v g1).
    { clear A. case_bool_decide as K; [injection E1 as <-; auto|]. destruct Hu as [[Hu _]|(p & Hp & ->)]; [contradiction|]. split; [eapply vertex_labelled; eauto|].
      unfold add_vertex in E1. rewrite bool_decide_false in E1 by exact K. injection E1 as <-. simpl. set_solver. }
    destruct (if bool_decide (v ∈ g_v g1) then Ok g1 else add_vertex g1 v dv) as [g2|] eqn:E2; [|discriminate]. cbn [bind] in A.
    assert (L2 : labelled g2).
    { clear A E1. case_bool_decide as K; [injection E2 as <-; apply L1|]. destruct Hv as [[Hv _]|(p & Hp & ->)]; [destruct K; apply L1, Hv|]. eapply vertex_labelled; [apply L1|eauto|eauto]. }
    destruct (g_adj g2 !! u); [|discriminate]. destruct e as [e|]; [|injection A as <-; exact L2]. destruct (g_edata g2 !! u); [|discriminate]. injection A as <-. exact L2.
  Qed.
  Lemma add_dep_labelled g n dep g' : labelled g -> pg_add_dep get g n dep = Ok g' -> labelled g'.
  Proof.
    unfold pg_add_dep. intros L A. pose proof (data_unless_vertex_spec get g n) as P1. destruct (data_unless_vertex get g n) as [d1|]; [|discriminate]. cbn [bind] in A.
    pose proof (data_unless_vertex_spec get g (dep_package dep)) as P2. destruct (data_unless_vertex get g (dep_package dep)) as [d2|]; [|discriminate]. cbn [bind] in A.
    eapply add_edge_labelled; [exact L| | |exact A]; [destruct P1 as [P|[_ P]]|destruct P2 as [P|[_ P]]]; auto.
  Qed.
End labels.
Lemma foldM_keeps {A S} (P : S -> Prop) (f : S -> A -> res S) : (forall x s s', P s -> f s x = Ok s' -> P s') ->
  forall l s s', P s -> foldM f l s = Ok s' -> P s'.
Proof.
  intros H. induction l as [|x l IH]; intros s s' K E; cbn [foldM] in E; [now injection E as <-|]. destruct (f s x) as [s1|] eqn:F; [|discriminate]. eapply IH; [|exact E]. eauto.
Qed.
Lemma rounds_keeps (P : pgraph -> Prop) it step : (forall x gb gb', P gb.1 -> step gb x = Ok gb' -> P gb'.1) ->
  forall fuel n g B g', P g -> rounds fuel n it step g B = Ok g' -> P g'.
Proof.
  intros H. induction fuel as [|fuel IH]; intros n g B g' K E; destruct B as [|b B]; cbn [rounds] in E; try (injection E as <-; exact K); [discriminate|].
  destruct (foldM step (b :: B) (g, ∅)) as [gb|] eqn:F; [|discriminate]. cbn [bind] in E. eapply IH; [|exact E].
  apply (foldM_keeps (fun gb => P gb.1) step H (b :: B) (g, ∅) gb); [exact K|exact F].
Qed.

(** ** The graph *)
Section graph.
  Context (s : sys) (it : iter) (r : rarg) (ign : bool).
  Hypothesis Hs : system s.
  Hypothesis Hi : any_order it.
  Hypothesis Hr : r <> RAll.
  Let get (n : string) : res package := get_package (y_db s) n r.
  Let c (d : dependency) : res bool := if ign then installed_satisfies_dep s d else Ok false.

  Lemma c_false d : c d = Ok false -> ign = true -> ~ met s d.
  Proof. unfold c. intros C ->. pose proof (sat_spec s d Hs) as S. rewrite C in S. tauto. Qed.
  Lemma c_good d : is_ok (c d) = true -> (ign = true -> ~ met s d) -> c d = Ok false.
  Proof.
    unfold c. destruct ign; [|reflexivity]. intros G N. pose proof (sat_spec s d Hs) as S. destruct (installed_satisfies_dep s d) as [[|]|e]; [destruct (N eq_refl S)|reflexivity|discriminate].
  Qed.
  Lemma nbr_arrow x y : dnbr get c x y -> arrow s r ign x y.
  Proof. intros (p & G & d & D1 & D2 & D3). exists p, d. split; [exact G|]. split; [exact D1|]. split; [exact D3|]. now apply c_false. Qed.
  Lemma arrow_nbr x y : dgood get c x -> arrow s r ign x y -> dnbr get c x y.
  Proof.
    intros (p & G1 & _ & G3) (q & d & N1 & N2 & N3 & N4). unfold filed in N1. fold (get x) in N1. rewrite G1 in N1. injection N1 as <-.
    exists p. split; [exact G1|]. exists d. split; [exact N2|]. split; [|exact N3]. apply c_good; auto.
  Qed.
  Lemma graph_labelled A g : package_graph s it r ign A = Ok g -> labelled get g.
  Proof.
    unfold package_graph. destruct (add_packages _ A empty_graph) as [g0|] eqn:E0; [|discriminate]. cbn [bind]. intros E.
    assert (L0 : labelled get g0). { eapply (foldM_keeps (labelled get)); [|apply labelled_empty|exact E0]. intros x g1 g2 L K. eapply add_package_labelled; [exact L|exact K]. }
    eapply (rounds_keeps (labelled get)); [|exact L0|exact E]. intros x gb gb' L K. unfold graph_step in K. destruct (get_package (y_db s) x r) as [p|]; [|discriminate]. cbn [bind] in K.
    destruct (runtimeDependencies p) as [deps|]; [|discriminate]. cbn [bind] in K. eapply (foldM_keeps (fun gb => labelled get gb.1)); [|exact L|exact K].
    intros d gb1 gb2 L1 K1. unfold graph_dep in K1. destruct (if ign then _ else _) as [[|]|]; cbn [bind] in K1; [now injection K1 as <-| |discriminate].
    destruct (pg_add_dep _ gb1.1 x d) as [g1|] eqn:Ed; [|discriminate]. cbn [bind] in K1. injection K1 as <-. simpl. eapply add_dep_labelled; [exact L1|exact Ed].
  Qed.

  Lemma graph_spec A : List.NoDup A ->
    match package_graph s it r ign A with
    | Ok g => built g /\ (forall y, y ∈ g_v g <-> drawn s r ign A y) /\ (forall u v, edge g u v <-> drawn s r ign A u /\ arrow s r ign u v) /\
              (forall u, u ∈ g_v g -> exists p, filed s r u p /\ g_vdata g !! u = Some (p_version p, p_release p)) /\
              (forall x p d, drawn s r ign A x -> filed s r x p -> In d (p_deps p) -> ign = true -> answerable s d)
    | Err e => (exists x, drawn s r ign A x /\ (forall p, ~ filed s r x p) /\ e = EError) \/
               (exists x p d, ign = true /\ drawn s r ign A x /\ filed s r x p /\ In d (p_deps p) /\ ~ answerable s d /\ e = EValue)
    end.
  Proof.
    intros N. apply NoDup_ListNoDup in N. destruct Hi as [It Ig].
    pose proof (dep_closure get c (graph_dep s r ign) (fun x gb dep => eq_refl) it (dom (db_pkg (y_db s))) (enough s) 0 It (fun y p => get_package_dom _ y _ p) (enough_spec s) A N) as C.
    pose proof (graph_labelled A) as L. change (package_graph s it r ign A) with (g <- add_packages get A empty_graph ;; rounds (enough s) 0 it (dstep get (graph_dep s r ign)) g A).
    destruct (g <- add_packages get A empty_graph ;; rounds (enough s) 0 it (dstep get (graph_dep s r ign)) g A) as [g|e] eqn:EG.
    - destruct C as (C1 & _ & C3 & C4 & C5). destruct C1 as [B _].
      assert (Nd : forall x, x ∈ g_v g <-> drawn s r ign A x).
      { intros x. split; [intros Hx; apply C3 in Hx as (a & Ha & Hx); exists a; split; [exact Ha|]; eapply rtc_mono; [|exact Hx]; intros; now apply nbr_arrow|].
        intros (a & Ha & Hx). assert (Va : a ∈ g_v g) by (apply C3; exists a; split; [exact Ha|apply rtc_refl]). clear Ha. revert Va.
        induction Hx as [|a b x K _ IH]; intros Va; [exact Va|]. apply IH. apply (arrow_nbr a b (C5 a Va)) in K. apply C3 in Va as (a0 & Ha0 & Va). apply C3.
        exists a0. split; [exact Ha0|]. eapply rtc_r; eauto. }
      split; [exact B|]. split; [exact Nd|]. split; [|split].
      + intros u v. rewrite C4, <- Nd. split; intros [U1 U2]; (split; [exact U1|]); [now apply nbr_arrow|apply arrow_nbr; auto].
      + intros u Hu. destruct (L g EG u Hu) as (p & P1 & P2). exists p. auto.
      + intros x p d Hx Hp Hd Hign. apply (sat_ok s d Hs). apply Nd in Hx. destruct (C5 x Hx) as (q & Q1 & _ & Q2). unfold filed in Hp. fold (get x) in Hp. rewrite Q1 in Hp. injection Hp as ->.
        specialize (Q2 d Hd). unfold c in Q2. now rewrite Hign in Q2.
    - destruct C as (x & (a & Ha & Hx) & Bd). assert (Nx : drawn s r ign A x) by (exists a; split; [exact Ha|]; eapply rtc_mono; [|exact Hx]; intros; now apply nbr_arrow).
      destruct Bd as [Bd|(p & G & [[Q1 _]|(d & D1 & D2)])].
      + left. exists x. split; [exact Nx|]. split; [intros p K; unfold filed in K; fold (get x) in K; congruence|eapply get_item_error; [exact Hr|exact Bd]].
      + exfalso. apply Q1. apply (found_plain (y_db s) x r p); [apply (lived_yinv _ _ Hs)| |exact G]. destruct r; [right|right|left|destruct Hr|right]; try reflexivity; split; discriminate.
      + right. exists x, p, d. unfold c in D2. destruct ign eqn:Ei; [|discriminate]. pose proof (sat_spec s d Hs) as S. rewrite D2 in S. destruct S as (-> & S & _). auto 8.
  Qed.
End graph.

(** ** The file *)
Lemma repl_punct c : repl c = if punct c then "_"%char else c.
Proof. destruct c as [[] [] [] [] [] [] [] []]; vm_compute; reflexivity. Qed.
Lemma map_repl n : map_chars repl n = ident n.
Proof. induction n as [|c n IH]; simpl; [reflexivity|]. rewrite IH, repl_punct. reflexivity. Qed.
Lemma id_str_spec u : id_str u = if String.eqb u "" then Err EType else Ok (ident u).
Proof. destruct u as [|c u]; [reflexivity|]. unfold id_str. now rewrite map_repl. Qed.
Lemma sapp_assoc a b c : ((a +:+ b) +:+ c = a +:+ (b +:+ c))%string.
Proof. induction a as [|x a IH]; [reflexivity|]. change ((String x a +:+ b) +:+ c)%string with (String x ((a +:+ b) +:+ c))%string. rewrite IH. reflexivity. Qed.
Lemma sapp_nil a : (a +:+ "" = a)%string.
Proof. induction a as [|x a IH]; [reflexivity|]. change (String x a +:+ "")%string with (String x (a +:+ ""))%string. now rewrite IH. Qed.
Lemma concat_cons x l : String.concat "" (x :: l) = (x +:+ String.concat "" l)%string.
Proof. destruct l as [|y l]; simpl; [now rewrite sapp_nil|reflexivity]. Qed.
Lemma concat_app l m : String.concat "" (l ++ m) = (String.concat "" l +:+ String.concat "" m)%string.
Proof. induction l as [|x l IH]; [reflexivity|]. rewrite <- app_comm_cons, !concat_cons, IH. now rewrite sapp_assoc. Qed.

Lemma draw_vertices g (file : string -> package -> Prop) vs :
  (forall u, In u vs -> u <> "" /\ exists p, file u p /\ g_vdata g !! u = Some (p_version p, p_release p)) ->
  forall out, exists boxes, foldM (draw_vertex g) vs out = Ok (out +:+ String.concat "" (map box_line boxes))%string /\
    map fst boxes = vs /\ forall b, In b boxes -> file b.1 b.2.
Proof.
  induction vs as [|u vs IH]; intros H out.
  - exists []. cbn [foldM map]. change (String.concat "" []) with "". rewrite sapp_nil. split; [reflexivity|]. split; [reflexivity|intros b []].
  - destruct (H u (or_introl eq_refl)) as (Nu & p & F & D). cbn [foldM]. unfold draw_vertex at 1. rewrite id_str_spec, D.
    destruct (String.eqb u "") eqn:Eu; [apply String.eqb_eq in Eu; contradiction|]. cbn [bind].
    edestruct (IH (fun v Hv => H v (or_intror Hv))) as (boxes & B1 & B2 & B3). exists ((u, p) :: boxes). rewrite B1. split; [|split].
    + f_equal. cbn [map]. rewrite concat_cons. unfold box_line at 2. cbn [fst snd]. rewrite !sapp_assoc. reflexivity.
    + cbn [map fst]. now rewrite B2.
    + intros b [<-|Hb]; [exact F|auto].
Qed.
Lemma draw_edges u vs : u <> "" -> (forall v, In v vs -> v <> "") ->
  forall out, foldM (draw_edge u) vs out = Ok (out +:+ String.concat "" (map (fun v => arrow_line (u, v)) vs))%string.
Proof.
  intros Nu. induction vs as [|v vs IH]; intros H out; cbn [foldM map].
  - change (String.concat "" []) with "". now rewrite sapp_nil.
  - unfold draw_edge at 1. rewrite !id_str_spec. destruct (String.eqb u "") eqn:Eu; [apply String.eqb_eq in Eu; contradiction|]. cbn [bind].
    destruct (String.eqb v "") eqn:Ev; [apply String.eqb_eq in Ev; now destruct (H v (or_introl eq_refl))|]. cbn [bind].
    rewrite IH by (intros w Hw; apply H; now right). f_equal. rewrite concat_cons. unfold arrow_line at 2. cbn [fst snd]. rewrite !sapp_assoc. reflexivity.
Qed.
Definition arrows_of (adj : string -> list string) (vs : list string) : list (string * string) :=
  flat_map (fun u => map (pair u) (adj u)) vs.
Lemma draw_all adj vs : (forall u, In u vs -> u <> "" /\ forall v, In v (adj u) -> v <> "") ->
  forall out, foldM (fun out u => foldM (draw_edge u) (adj u) out) vs out = Ok (out +:+ String.concat "" (map arrow_line (arrows_of adj vs)))%string.
Proof.
  induction vs as [|u vs IH]; intros H out; cbn [foldM].
  - change (map arrow_line (arrows_of adj [])) with (@nil string). change (String.concat "" []) with "". now rewrite sapp_nil.
  - destruct (H u (or_introl eq_refl)) as [Nu Nv]. rewrite draw_edges by assumption. cbn [bind]. rewrite IH by (intros w Hw; apply H; now right). f_equal.
    unfold arrows_of at 2. cbn [flat_map]. fold (arrows_of adj vs). rewrite map_app, concat_app, map_map, sapp_assoc. reflexivity.
Qed.
Lemma arrows_in adj vs u v : In (u, v) (arrows_of adj vs) <-> In u vs /\ In v (adj u).
Proof.
  unfold arrows_of. rewrite in_flat_map. split.
  - intros (w & W1 & W2). apply in_map_iff in W2 as (x & [= -> ->] & W2). auto.
  - intros [H1 H2]. exists u. split; [exact H1|]. apply in_map_iff. eauto.
Qed.
Lemma arrows_nodup adj vs : List.NoDup vs -> (forall u, In u vs -> List.NoDup (adj u)) -> List.NoDup (arrows_of adj vs).
Proof.
  induction vs as [|u vs IH]; intros N H; [constructor|]. apply NoDup_cons_iff in N as [N1 N2]. unfold arrows_of. cbn [flat_map]. fold (arrows_of adj vs).
  apply NoDup_ListNoDup, NoDup_app. split; [|split].
  - apply NoDup_ListNoDup. apply FinFun.Injective_map_NoDup; [intros a b K; congruence|]. apply H. now left.
  - intros [a b] K1 K2. apply elem_of_list_In in K1, K2. apply in_map_iff in K1 as (x & [= -> ->] & _). apply arrows_in in K2 as [K2 _]. contradiction.
  - apply NoDup_ListNoDup, IH; [exact N2|]. intros w Hw. apply H. now right.
Qed.

(** Whatever fails while drawing fails at a package without a name. *)
Lemma foldM_err {A S} (f : S -> A -> res S) (P : exn -> Prop) : forall l s e, (forall x s e, In x l -> f s x = Err e -> P e) -> foldM f l s = Err e -> P e.
Proof.
  induction l as [|x l IH]; intros s e H E; cbn [foldM] in E; [discriminate|]. destruct (f s x) as [s1|e1] eqn:F; cbn [bind] in E; [eapply IH; [|exact E]; intros y s2 e2 Hy; apply H; now right|].
  injection E as <-. eapply H; [now left|exact F].
Qed.

Section command.
  Context (s : sys) (it : iter) (r : rarg) (ign : bool) (A : list string).
  Hypothesis Hs : system s.
  Hypothesis Hi : any_order it.
  Hypothesis Hr : r <> RAll.
  Hypothesis HA : List.NoDup A.

  Lemma command_spec :
    match graph_command s it r ign A with
    | Ok text => (exists boxes arrows, text = drawing boxes arrows /\ List.NoDup (map fst boxes) /\ List.NoDup arrows /\
        (forall n, In n (map fst boxes) <-> drawn s r ign A n) /\ (forall n p, In (n, p) boxes -> filed s r n p) /\
        (forall x y, In (x, y) arrows <-> drawn s r ign A x /\ arrow s r ign x y)) /\
        (forall x, drawn s r ign A x -> x <> "" /\ exists p, filed s r x p /\ forall d, In d (p_deps p) -> ign = true -> answerable s d)
    | Err e => (exists x, drawn s r ign A x /\ (forall p, ~ filed s r x p) /\ e = EError) \/
        (exists x p d, ign = true /\ drawn s r ign A x /\ filed s r x p /\ In d (p_deps p) /\ ~ answerable s d /\ e = EValue) \/
        (drawn s r ign A "" /\ e = EType)
    end.
  Proof.
    unfold graph_command. pose proof (graph_spec s it r ign Hs Hi Hr A HA) as G. destruct (package_graph s it r ign A) as [g|e]; cbn [bind]; [|tauto].
    destruct G as (B & V & E & L & An). destruct (proj2 Hi g B) as (I1 & I2 & I3). set (vs := it_vs it g) in *. set (adj := it_adj it g) in *.
    assert (Vd : forall u, In u vs <-> drawn s r ign A u) by (intros u; rewrite I2; apply V).
    assert (Ad : forall u v, In u vs -> (In v (adj u) <-> drawn s r ign A u /\ arrow s r ign u v)).
    { intros u v Hu. rewrite <- E. apply I3, I2, Hu. }
    destruct (in_dec String.string_dec "" vs) as [K|K].
    - assert (X : write_graphviz g vs adj = Err EType).
      { unfold write_graphviz. destruct (foldM (draw_vertex g) vs ("digraph G {" +:+ newline)) as [out|e] eqn:F.
        - exfalso. clear I1 I2 I3 Vd Ad. clearbody vs. revert F. generalize ("digraph G {" +:+ newline)%string. induction vs as [|u vs' IH]; intros o F; [destruct K|]. cbn [foldM] in F.
          destruct (draw_vertex g o u) as [o1|] eqn:F1; [|discriminate]. cbn [bind] in F. destruct K as [->|K]; [discriminate F1|]. eapply IH; [exact K|exact F].
        - cbn [bind]. f_equal. pattern e. eapply foldM_err; [|exact F]. intros u o e1 Hu F1. unfold draw_vertex in F1. rewrite id_str_spec in F1. destruct (String.eqb u ""); cbn [bind] in F1; [congruence|].
          destruct (L u) as (p & _ & D); [now apply I2|]. rewrite D in F1. discriminate. }
      rewrite X. right. right. split; [now apply Vd|reflexivity].
    - assert (Ne : forall u, drawn s r ign A u -> u <> "") by (intros u Hu ->; apply K, Vd, Hu).
      assert (Nx : forall u v, drawn s r ign A u -> arrow s r ign u v -> drawn s r ign A v) by (intros u v (a & Ha & Hu) Hv; exists a; split; [exact Ha|eapply rtc_r; eauto]).
      destruct (draw_vertices g (filed s r) vs) with (out := ("digraph G {" +:+ newline)%string) as (boxes & B1 & B2 & B3).
      { intros u Hu. split; [apply Ne, Vd, Hu|]. apply L, I2, Hu. }
      unfold write_graphviz. rewrite B1. cbn [bind]. rewrite draw_all; [|intros u Hu; split; [apply Ne, Vd, Hu|]; intros v Hv; apply Ad in Hv as [Hv1 Hv2]; [|exact Hu]; apply Ne; eapply Nx; eauto].
      cbn [bind]. split.
      + exists boxes, (arrows_of adj vs). split; [|split; [|split; [|split; [|split]]]].
        * unfold drawing. fold newline. change nl with newline. rewrite !sapp_assoc. reflexivity.
        * rewrite B2. apply NoDup_ListNoDup, I1.
        * apply arrows_nodup; [apply NoDup_ListNoDup, I1|]. intros u Hu. apply NoDup_ListNoDup, I3, I2, Hu.
        * intros n. rewrite B2. apply Vd.
        * intros n p Hb. apply (B3 _ Hb).
        * intros x y. rewrite arrows_in. split; [intros [Hx Hy]; now apply Ad|]. intros [Hx Hy]. split; [now apply Vd|]. apply Ad; [now apply Vd|auto].
      + intros x Hx. split; [now apply Ne|]. destruct (L x) as (p & P1 & _); [now apply V|]. exists p. split; [exact P1|]. intros d Hd Hign. eapply An; eauto.
  Qed.

  Lemma command_ok text : graph_command s it r ign A = Ok text ->
    exists boxes arrows, text = drawing boxes arrows /\ List.NoDup (map fst boxes) /\ List.NoDup arrows /\
      (forall n, In n (map fst boxes) <-> drawn s r ign A n) /\ (forall n p, In (n, p) boxes -> filed s r n p) /\
      (forall x y, In (x, y) arrows <-> drawn s r ign A x /\ arrow s r ign x y).
  Proof. intros E. pose proof command_spec as C. rewrite E in C. apply C. Qed.
  Lemma command_iff : (exists text, graph_command s it r ign A = Ok text) <->
    forall x, drawn s r ign A x -> x <> "" /\ exists p, filed s r x p /\ forall d, In d (p_deps p) -> ign = true -> answerable s d.
  Proof.
    pose proof command_spec as C. destruct (graph_command s it r ign A) as [text|e].
    - split; [intros _; apply C|eauto].
    - split; [intros [t K]; discriminate|]. intros K. exfalso. destruct C as [(x & X1 & X2 & _)|[(x & p & d & X0 & X1 & X2 & X3 & X4 & _)|[X _]]].
      + destruct (K x X1) as (_ & p & P & _). now apply (X2 p).
      + destruct (K x X1) as (_ & q & Q & L). unfold filed in *. rewrite Q in X2. injection X2 as ->. now apply X4, L.
      + now destruct (K "" X).
  Qed.
  Lemma command_fails e : graph_command s it r ign A = Err e ->
    (exists x, drawn s r ign A x /\ (forall p, ~ filed s r x p) /\ e = EError) \/
    (exists x p d, ign = true /\ drawn s r ign A x /\ filed s r x p /\ In d (p_deps p) /\ ~ answerable s d /\ e = EValue) \/
    (drawn s r ign A "" /\ e = EType).
  Proof. intros E. pose proof command_spec as C. now rewrite E in C. Qed.
End command.


(** ** Which packages share a box *)
(** Letters, digits and underscores. *)
Fixpoint wordlike (n : string) : bool :=
  match n with
  | EmptyString => true
  | String c n => (negb (punct c) || Ascii.eqb c "_"%char) && wordlike n
  end.
Lemma ident_wordlike n : wordlike n = true -> ident n = n.
Proof.
  induction n as [|c n IH]; cbn [wordlike ident]; [reflexivity|]. intros H. apply andb_prop in H as [H1 H2]. rewrite (IH H2). f_equal. destruct (punct c); [|reflexivity].
  simpl in H1. now apply Ascii.eqb_eq in H1.
Qed.
Lemma idents_distinct l : List.NoDup l -> (forall n, In n l -> wordlike n = true) -> List.NoDup (map ident l).
Proof.
  intros N H. replace (map ident l) with l; [exact N|]. clear N. induction l as [|n l IH]; [reflexivity|]. cbn [map]. rewrite ident_wordlike, <- IH; [reflexivity| |now apply H; left].
  intros m Hm. apply H. now right.
Qed.
Lemma own_box s it r ign A text : system s -> any_order it -> r <> RAll -> List.NoDup A ->
  graph_command s it r ign A = Ok text -> (forall n, drawn s r ign A n -> wordlike n = true) ->
  exists boxes arrows, text = drawing boxes arrows /\ List.NoDup (map (fun b => ident b.1) boxes) /\
    forall n, In n (map (fun b => ident b.1) boxes) <-> drawn s r ign A n.
Proof.
  intros H1 H2 H3 H4 E W. destruct (command_ok s it r ign A H1 H2 H3 H4 text E) as (boxes & arrows & B1 & B2 & _ & B3 & _). exists boxes, arrows. split; [exact B1|].
  assert (M : map (fun b : string * package => ident b.1) boxes = map fst boxes).
  { assert (W' : forall n, In n (map fst boxes) -> wordlike n = true) by (intros n Hn; apply W, B3, Hn). clear B1 B2 B3. induction boxes as [|b boxes IH]; [reflexivity|]. cbn [map] in *.
    rewrite IH by (intros n Hn; apply W'; now right). now rewrite ident_wordlike by (apply W'; now left). }
  rewrite M. split; [exact B2|exact B3].
Qed.
