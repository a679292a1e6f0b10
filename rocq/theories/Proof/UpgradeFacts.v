(** * Lemmas about planning upgrades *)
From Coq Require Import String List Lia ZArith.
From stdpp Require Import gmap strings relations.
From Verif Require Import Proof.GraphFacts.
From Verif Require Import Model.Py Model.Version Model.ItemByRepo Model.Dependency Model.Package Model.Databases
  Model.InstallDB Model.System Model.Graph Model.Plan
  Spec.VersionSpec Spec.DependencySpec Spec.ItemByRepoSpec Spec.DatabaseSpec Spec.SystemSpec Spec.GraphSpec Spec.PlanSpec
  Proof.VersionFacts Proof.DependencyFacts Proof.DatabaseFacts Proof.SystemFacts Proof.PlanFacts.
Open Scope string_scope.
Open Scope list_scope.

Lemma release_lt r r' :
  match (v <- parse_version r ;; w <- parse_version r' ;; Ok (v_lt v w)) with
  | Ok b => (b = true <-> text_before r r') /\ readable r /\ readable r'
  | Err e => e = EValue /\ ~ text_before r r' /\ (~ readable r \/ ~ readable r')
  end.
Proof.
  destruct (readable_dec r) as [(v & Hv)|[Hv Nv]]; rewrite Hv; cbn [bind].
  - destruct (readable_dec r') as [(w & Hw)|[Hw Nw]]; rewrite Hw; cbn [bind].
    + split.
      * rewrite (proj1 (v_ops v w)). split.
        -- intros K. exists v, w. repeat split; [now apply parse_iff|now apply parse_iff|exact K].
        -- intros (v' & w' & V & W & K). apply parse_iff in V, W. congruence.
      * split; [exists v|exists w]; now apply parse_iff.
    + split; [reflexivity|]. split; [intros (v' & w' & V & W & K); apply Nw; now exists w'|auto].
  - split; [reflexivity|]. split; [intros (v' & w' & V & W & K); apply Nv; now exists v'|auto].
Qed.

Definition by_build_b (ign : bool) (b pb : option Z) : bool :=
  match b, pb with Some x, Some y => negb (ign || Z.eqb x 0 || Z.eqb y 0) | _, _ => false end.
Lemma is_upgradable_spec s n ign : system s ->
  match is_upgradable s n ign with
  | Ok b => (b = true <-> upgrade_due s ign n)
  | Err e => e = EValue /\ ~ upgrade_due s ign n /\ exists v r b p, is_installed (y_inst s) n = true /\ get_version (y_inst s) n = Ok (v, r, b) /\
               offered s n p /\ (~ readable r \/ ~ readable (p_release p))
  end.
Proof.
  intros H. unfold is_upgradable. destruct (is_installed (y_inst s) n) eqn:I; [|split; [discriminate|intros (? & ? & ? & ? & K & _); congruence]].
  assert (V : exists v r b, get_version (y_inst s) n = Ok (v, r, b)).
  { destruct (proj1 (proj1 (system_agrees s n H)) I) as [p Hp]. destruct (proj2 (system_agrees s n H) p Hp) as [_ K]. eauto. }
  destruct V as (v & r & b & V). rewrite V. cbn [bind fst snd]. destruct (get_repo s n) as [p|e] eqn:G.
  2:{ split; [discriminate|]. intros (v' & r' & b' & p' & _ & _ & K & _). unfold offered in K. fold (get_repo s n) in K. congruence. }
  assert (Due : upgrade_due s ign n <-> newer ign r b p).
  { split; [|intros K; exists v, r, b, p; auto]. intros (v' & r' & b' & p' & _ & V' & K & N). unfold offered in K. fold (get_repo s n) in K. congruence. }
  assert (G' : by_build_b ign b (p_build p) = false -> (newer ign r b p <-> text_before r (p_release p))).
  { intros F. unfold newer, by_build_b, build_given in *. split.
    - intros [(x & y & -> & [-> X] & [E Y] & _)|[_ K]]; [|exact K]. rewrite E in F. apply Z.eqb_neq in X, Y. rewrite X, Y in F. discriminate.
    - intros K. right. split; [|exact K]. destruct b as [x|]; [|right; left; intros x [[=] _]]. destruct (p_build p) as [y|]; [|right; right; intros y [[=] _]].
      destruct ign; [auto|]. destruct (Z.eqb x 0) eqn:X; [apply Z.eqb_eq in X as ->; right; left; intros x' [[= <-] N]; auto|].
      destruct (Z.eqb y 0) eqn:Y; [apply Z.eqb_eq in Y as ->; right; right; intros x' [[= <-] N]; auto|]. discriminate. }
  assert (Rel : by_build_b ign b (p_build p) = false -> match (v <- parse_version r ;; w <- parse_version (p_release p) ;; Ok (v_lt v w)) with
    | Ok b => (b = true <-> upgrade_due s ign n)
    | Err e => e = EValue /\ ~ upgrade_due s ign n /\ exists v r b p, true = true /\ Ok (v, r, b) = get_version (y_inst s) n /\
               offered s n p /\ (~ readable r \/ ~ readable (p_release p)) end).
  { intros F. specialize (G' F). pose proof (release_lt r (p_release p)) as L. destruct (_ <- parse_version r ;; _) as [q|e].
    - rewrite Due, G'. tauto.
    - rewrite Due, G'. destruct L as (-> & L1 & L2). split; [reflexivity|]. split; [exact L1|]. exists v, r, b, p. split; [reflexivity|]. split; [now rewrite V|]. split; [exact G|exact L2]. }
  assert (Q : match b, p_build p with
     | Some x, Some y => if ign || Z.eqb x 0 || Z.eqb y 0 then (v <- parse_version r ;; w <- parse_version (p_release p) ;; Ok (v_lt v w)) else Ok (Z.ltb x y)
     | _, _ => (v <- parse_version r ;; w <- parse_version (p_release p) ;; Ok (v_lt v w)) end
     = if by_build_b ign b (p_build p) then match b, p_build p with Some x, Some y => Ok (Z.ltb x y) | _, _ => Ok false end else (v <- parse_version r ;; w <- parse_version (p_release p) ;; Ok (v_lt v w))).
  { unfold by_build_b. destruct b as [x|]; [|reflexivity]. destruct (p_build p) as [y|]; [|reflexivity]. destruct (ign || Z.eqb x 0 || Z.eqb y 0); reflexivity. }
  cbn zeta. rewrite Q. clear Q. destruct (by_build_b ign b (p_build p)) eqn:F.
  - unfold by_build_b in F. destruct b as [x|]; [|discriminate]. destruct (p_build p) as [y|] eqn:Ep; [|discriminate].
    apply negb_true_iff, orb_false_iff in F as [F F3]. apply orb_false_iff in F as [F1 F2]. apply Z.eqb_neq in F2, F3. cbn beta iota. rewrite Due, Z.ltb_lt. unfold newer, build_given. rewrite Ep. split.
    + intros K. left. exists x, y. auto.
    + intros [(x' & y' & _ & [[= <-] _] & [[= <-] _] & K)|[[K|[K|K]] _]]; [exact K|congruence|exfalso; now apply (K x)|exfalso; now apply (K y)].
  - specialize (Rel eq_refl). destruct (_ <- parse_version r ;; _) as [q|e]; [exact Rel|]. destruct Rel as (R1 & R2 & v' & r' & b' & p' & _ & R3 & R4). rewrite V in R3. split; [exact R1|]. split; [exact R2|].
    exists v', r', b', p'. rewrite <- R3. auto.
Qed.

Lemma repo_sat_spec s d : system s ->
  match repo_satisfies_dep s d with
  | Ok b => b = true <-> repo_meets s d
  | Err e => e = EValue /\ ~ repo_meets s d /\ exists p, offered s (dep_package d) p /\ ~ window_readable d (p_version p) (p_release p)
  end.
Proof.
  intros H. destruct (repo_sat s d H) as (R1 & R2 & R3). destruct (repo_satisfies_dep s d) as [[|]|e].
  - split; [intros _; now apply R1|reflexivity].
  - split; [discriminate|]. intros K. apply R1 in K. discriminate.
  - destruct (R3 e eq_refl) as [-> R]. split; [reflexivity|]. split; [intros K; apply R1 in K; discriminate|exact R].
Qed.

Definition upg_c (s : sys) (eager : bool) (dep : dependency) : res bool :=
  b <- repo_satisfies_dep s dep ;;
  if b : bool then
    if is_installed (y_inst s) (dep_package dep) then
      if eager then u <- is_upgradable s (dep_package dep) false ;; Ok (negb u)
      else installed_satisfies_dep s dep
    else Ok false
  else Err EError.
Lemma upgrade_dep_form s eager x gb dep : upgrade_dep s eager x gb dep =
    (skip <- upg_c s eager dep ;;
     if skip : bool then Ok gb
     else let Bp := if bool_decide (dep_package dep ∈ g_v gb.1) then gb.2 else {[dep_package dep]} ∪ gb.2 in
          g <- pg_add_dep (get_repo s) gb.1 x dep ;; Ok (g, Bp)).
Proof. unfold upgrade_dep, upg_c. destruct (repo_satisfies_dep s dep) as [[|]|e]; reflexivity. Qed.

Lemma upg_c_spec s eager d : system s ->
  match upg_c s eager d with
  | Ok b => repo_meets s d /\ (b = true <-> left_alone s eager d)
  | Err e => (e = EError /\ ~ repo_meets s d) \/ e = EValue
  end.
Proof.
  intros H. unfold upg_c. pose proof (repo_sat_spec s d H) as R. destruct (repo_satisfies_dep s d) as [[|]|e]; cbn [bind]; [| |right; tauto].
  - apply proj1 in R. specialize (R eq_refl). destruct (is_installed (y_inst s) (dep_package d)) eqn:I.
    + destruct eager; simpl.
      * pose proof (is_upgradable_spec s (dep_package d) false H) as U. destruct (is_upgradable s (dep_package d) false) as [u|e]; cbn [bind]; [|right; tauto].
        split; [exact R|]. rewrite negb_true_iff. destruct u; split; [discriminate|intros [_ K]; exfalso; apply K, U; reflexivity|intros _; split; [exact I|intros K; apply U in K; discriminate]|reflexivity].
      * pose proof (sat_spec s d H) as S. destruct (installed_satisfies_dep s d) as [[|]|e]; [split; [exact R|tauto]| |right; tauto].
        split; [exact R|]. split; [discriminate|tauto].
    + split; [exact R|]. split; [discriminate|]. destruct eager; simpl; [intros [K _]; congruence|]. intros (p & [K _] & _). congruence.
  - left. split; [reflexivity|]. intros K. apply R in K. discriminate.
Qed.

Definition upg_r (s : sys) (eager : bool) (rd : string * dependency) : res bool :=
  if eager then is_upgradable s rd.1 false
  else
    broken <- (if is_installed (y_inst s) rd.1 then sat <- installed_satisfies_dep s rd.2 ;; Ok (negb sat)
               else Ok false) ;;
    if broken : bool then
      b <- repo_satisfies_dep s rd.2 ;;
      if b : bool then Ok true else Err EError
    else Ok false.
Lemma upgrade_rev_form s eager x gb rd : upgrade_rev s eager x gb rd =
    (take <- upg_r s eager rd ;;
     if take : bool then
       if bool_decide (rd.1 ∈ g_v gb.1) then Ok gb
       else g <- pg_add_plain_dep (get_repo s) gb.1 rd.1 x ;; Ok (g, {[rd.1]} ∪ gb.2)
     else Ok gb).
Proof.
  unfold upgrade_rev, upg_r. destruct eager; [reflexivity|]. destruct (is_installed (y_inst s) rd.1); cbn [bind]; [|reflexivity].
  destruct (installed_satisfies_dep s rd.2) as [[|]|e]; cbn [bind negb]; [reflexivity| |reflexivity]. destruct (repo_satisfies_dep s rd.2) as [[|]|e]; reflexivity.
Qed.
Lemma upg_r_spec s eager y d : system s ->
  match upg_r s eager (y, d) with
  | Ok b => (b = true <-> if eager then upgrade_due s false y else is_installed (y_inst s) y = true /\ ~ met s d) /\
            (b = true -> eager = false -> repo_meets s d)
  | Err e => (e = EError /\ eager = false /\ is_installed (y_inst s) y = true /\ ~ met s d /\ ~ repo_meets s d) \/ e = EValue
  end.
Proof.
  intros H. unfold upg_r. cbn [fst snd]. destruct eager.
  - pose proof (is_upgradable_spec s y false H) as U. destruct (is_upgradable s y false) as [u|e]; [|right; tauto]. split; [exact U|discriminate].
  - destruct (is_installed (y_inst s) y) eqn:I; cbn [bind]; [|split; [split; [discriminate|intros [K _]; congruence]|discriminate]].
    pose proof (sat_spec s d H) as S. destruct (installed_satisfies_dep s d) as [[|]|e]; cbn [bind negb]; [| |right; tauto].
    + split; [|discriminate]. split; [discriminate|]. intros [_ K]. contradiction.
    + pose proof (repo_sat_spec s d H) as R. destruct (repo_satisfies_dep s d) as [[|]|e]; cbn [bind]; [| |right; tauto].
      * split; [split; [intros _; tauto|reflexivity]|]. intros _ _. now apply R.
      * left. split; [reflexivity|]. split; [reflexivity|]. split; [reflexivity|]. split; [tauto|]. intros K. apply R in K. discriminate.
Qed.

Lemma upg_nbr s eager x y : system s -> dnbr (get_repo s) (upg_c s eager) x y -> upgrade_needs s eager x y.
Proof.
  intros H (p & G & d & D1 & D2 & D3). exists p, d. split; [exact G|]. split; [exact D1|]. split; [exact D3|]. pose proof (upg_c_spec s eager d H) as S. rewrite D2 in S. destruct S as [_ S].
  intros K. apply S in K. discriminate.
Qed.
Lemma upg_nbr_good s eager x y : system s -> dgood (get_repo s) (upg_c s eager) x -> upgrade_needs s eager x y -> dnbr (get_repo s) (upg_c s eager) x y.
Proof.
  intros H (p & G1 & _ & G3) (q & d & N1 & N2 & N3 & N4). unfold offered in N1. fold (get_repo s x) in N1. rewrite G1 in N1. injection N1 as <-.
  exists p. split; [exact G1|]. exists d. split; [exact N2|]. split; [|exact N3]. pose proof (upg_c_spec s eager d H) as S. specialize (G3 d N2).
  destruct (upg_c s eager d) as [[|]|e]; [|reflexivity|discriminate]. exfalso. now apply N4, S.
Qed.

Lemma plan_upgrade_ok s it eager A g order : system s -> any_order it -> NoDup A -> plan_upgrade s it eager A = Ok (g, order) ->
  NoDup order /\
  (forall x, In x A -> In x order) /\
  (forall x p d, upgrade_needed s eager A x -> offered s x p -> In d (p_deps p) ->
     In x order /\ repo_meets s d /\ (left_alone s eager d \/ comes_before order (dep_package d) x)) /\
  (forall x y, In x order -> (In x A \/ ~ upgrade_needed s eager A x) -> taken_along s eager x y -> In y order) /\
  (forall x l y d, In x order -> (In x A \/ ~ upgrade_needed s eager A x) -> eager = false ->
     get_rev_deps (y_db s) x RRepos = Ok l -> In (y, d) l -> is_installed (y_inst s) y = true -> met s d \/ repo_meets s d) /\
  (forall y, In y order -> upgrade_needed s eager A y \/
     exists x, In x order /\ taken_along s eager x y /\ comes_before order x y) /\
  (forall y, In y order -> exists p, offered s y p).
Proof.
  intros H [It Ig] N. unfold plan_upgrade, plan_upgrade_graph.
  pose proof (dep_closure (get_repo s) (upg_c s eager) (upgrade_dep s eager) (upgrade_dep_form s eager) it (dom (db_pkg (y_db s))) (enough s) 0 It (fun y p => get_package_dom _ y _ p) (enough_spec s) A N) as C.
  change (upgrade_step s eager) with (dstep (get_repo s) (upgrade_dep s eager)).
  change (upgrade_rev_step s eager) with (rstep (get_repo s) (fun x => get_rev_deps (y_db s) x RRepos) (upgrade_rev s eager)).
  set (revs := fun x => get_rev_deps (y_db s) x RRepos).
  destruct (add_packages (get_repo s) A empty_graph) as [ga|]; cbn [bind] in *; [|discriminate].
  destruct (rounds (enough s) 0 it (dstep (get_repo s) (upgrade_dep s eager)) ga A) as [g1|] eqn:E1; cbn [bind]; [|discriminate].
  destruct C as (C1 & C2 & C3 & C4 & C5).
  assert (Va : forall x, In x A -> x ∈ g_v g1) by (intros x Hx; apply C3; exists x; split; [exact Hx|apply rtc_refl]).
  assert (Nd : forall x, x ∈ g_v g1 <-> upgrade_needed s eager A x).
  { intros x. split; [intros Hx; apply C3 in Hx as (a & Ha & Hx); exists a; split; [exact Ha|]; eapply rtc_mono; [|exact Hx]; intros; now apply upg_nbr|].
    intros (a & Ha & Hx). apply Va in Ha. revert Ha. induction Hx as [|a b x K _ IH]; intros Vx; [exact Vx|]. apply IH. apply (upg_nbr_good s eager a b H (C5 a Vx)) in K. apply C3 in Vx as (a0 & Ha0 & Vx). apply C3.
    exists a0. split; [exact Ha0|]. eapply rtc_r; eauto. }
  assert (HU : forall y p, get_repo s y = Ok p -> y ∈ dom (db_pkg (y_db s))) by (intros y p; apply get_package_dom).
  pose proof (rev_closure (get_repo s) revs (upg_r s eager) (upgrade_rev s eager) (upgrade_rev_form s eager) it (dom (db_pkg (y_db s))) (enough s) (enough s) It HU (enough_spec s) g1 A N C1 C2 Va) as R.
  destruct (rounds (enough s) (enough s) it (rstep (get_repo s) revs (upgrade_rev s eager)) g1 A) as [g2|] eqn:E2; cbn [bind]; [|discriminate].
  destruct R as (dn & [E _ Re Rk Rv _ Rs Rg] & R2 & R3 & R4 & R5). destruct E as [B _].
  destruct (topological_sort (it_vs it g2) (it_adj it g2)) as [l|] eqn:T; cbn [bind]; [|discriminate]. intros [= <- <-].
  destruct (sort_ok g2 _ _ (built_gwf g2 B) (Ig g2 B) l T) as (S1 & S2 & S3).
  assert (Or : forall x, In x (rev l) <-> x ∈ g_v g2) by (intros x; rewrite <- in_rev; apply S2).
  assert (Dn : forall x, In x (rev l) -> (In x A \/ ~ upgrade_needed s eager A x) -> x ∈ dn).
  { intros x Hx [K|K]; [now apply R2|]. apply Or, R3 in Hx as [Hx|Hx]; [|exact Hx]. exfalso. apply K, Nd, Hx. }
  assert (Tk : forall x y, x ∈ dn -> (rnbr revs (upg_r s eager) x y <-> taken_along s eager x y)).
  { intros x y Hx. unfold rnbr, taken, taken_along. destruct (Rg x Hx) as (p & rl & _ & G2 & G3). split.
    - intros (l' & L1 & d & L2 & L3). exists l', d. split; [exact L1|]. split; [exact L2|]. pose proof (upg_r_spec s eager y d H) as S. rewrite L3 in S. apply S. reflexivity.
    - intros (l' & d & L1 & L2 & L3). exists l'. split; [exact L1|]. exists d. split; [exact L2|]. unfold revs in G2. rewrite G2 in L1. injection L1 as <-. specialize (G3 _ L2).
      pose proof (upg_r_spec s eager y d H) as S. destruct (upg_r s eager (y, d)) as [b|e]; [|discriminate]. f_equal. apply S, L3. }
  split; [now apply nodup_rev|]. split; [intros x Hx; apply Or, Rs, Va, Hx|]. split; [|split; [|split; [|split]]].
  - intros x p d Hx Hp Hd. assert (Vx : x ∈ g_v g1) by now apply Nd. split; [apply Or, Rs, Vx|]. destruct (C5 x Vx) as (q & G1 & _ & G3). unfold offered in Hp. fold (get_repo s x) in Hp. rewrite G1 in Hp. injection Hp as ->.
    specialize (G3 d Hd). pose proof (upg_c_spec s eager d H) as S. destruct (upg_c s eager d) as [[|]|e] eqn:Ec; [| |discriminate].
    + split; [apply S|]. left. now apply S.
    + split; [apply S|]. right. apply comes_before_rev, S3, Rk, C4. split; [exact Vx|]. exists p. split; [exact G1|]. exists d. auto.
  - intros x y Hx Ha K. apply Or. pose proof (Dn x Hx Ha) as Hd. eapply R5; [exact Hd|]. now apply Tk.
  - intros x rl y d Hx Ha -> L1 L2 Hi. pose proof (Dn x Hx Ha) as Hd. destruct (Rg x Hd) as (p & rl' & _ & G2 & G3). unfold revs in G2. rewrite L1 in G2. injection G2 as <-. specialize (G3 _ L2).
    pose proof (upg_r_spec s false y d H) as S. destruct (upg_r s false (y, d)) as [b|e] eqn:Eb; [|discriminate]. destruct b; [right; now apply S|]. left. unfold upg_r in Eb. cbn [fst snd] in Eb. rewrite Hi in Eb.
    apply (sat_true s d H). destruct (installed_satisfies_dep s d) as [[|]|e]; [reflexivity| |discriminate]. cbn [bind negb] in Eb. destruct (repo_satisfies_dep s d) as [[|]|]; discriminate.
  - intros y Hy. apply Or in Hy. destruct (Rv y Hy) as [K|(v & K1 & K2)]; [left; now apply Nd|].
    destruct (decide (y ∈ g_v g1)) as [D|D]; [left; now apply Nd|]. right. exists v.
    assert (Hv : v ∈ dn). { destruct (Re y v K1) as [Q|(Q & _)]; [|exact Q]. apply C4 in Q as [Q _]. contradiction. }
    split; [apply Or, R3; auto|]. split; [now apply Tk|]. apply comes_before_rev, S3, K1.
  - intros y Hy. apply Or, R3 in Hy as [Hy|Hy]; [destruct (C5 y Hy) as (p & Hp & _); exists p; exact Hp|]. destruct (Rg y Hy) as (p & rl & Hp & _). exists p. exact Hp.
Qed.
