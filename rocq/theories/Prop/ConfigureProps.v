(** * C17: configuring pending packages *)
From Coq Require Import String List ZArith.
From stdpp Require Import gmap strings relations.
From Verif Require Import Proof.GraphFacts.
From Verif Require Import Model.Py Model.ItemByRepo Model.Dependency Model.Package Model.ComponentDB Model.Databases
  Model.InstallDB Model.System Model.Graph Model.Plan Model.Path Model.Fs Model.Ops
  Spec.ItemByRepoSpec Spec.DependencySpec Spec.DatabaseSpec Spec.SystemSpec Spec.GraphSpec Spec.PlanSpec Spec.PathSpec Spec.FsSpec Spec.OpsSpec
  Proof.RevDepFacts Proof.InstallDBFacts Proof.SystemFacts Proof.PlanTop Proof.OpsFacts Proof.OpsTop Proof.OpsSteps Proof.Configure.
Require Import Verif.Prop.PlanProps Verif.Prop.OpsProps.
Open Scope string_scope.

(** Whatever happens, scripts run once each, for installed packages, each after those of the
    pending packages it depends on; a package stops being listed only after its script ran,
    and nothing else changes.  [tried]: the scripts started, in order; [done]: those that
    succeeded; [rest]: what is still pending. *)
Theorem C17_any_outcome h o w w' r l : fair h -> system (w_sys w) -> list_pending (y_inst (w_sys w)) = Ok l -> configure_pending h o w = (w', r) ->
  exists done rest tried, NoDup (done ++ rest) /\ (forall x, In x (done ++ rest)%list <-> In x (map fst l)) /\
    (tried = done \/ exists x rest', rest = x :: rest' /\ tried = (done ++ [x])%list) /\
    w_log w' = (rev (map EvPostInstall tried) ++ w_log w)%list /\
    (forall x, In x tried -> has_pkg (w_sys w) x) /\
    (forall x y, In x tried -> waits_for (w_sys w) (map fst l) x y -> comes_before tried y x) /\
    (exists l', list_pending (y_inst (w_sys w')) = Ok l' /\ forall x, In x (map fst l') <-> In x rest) /\
    w_fs w' = w_fs w /\ same_but_marks (w_sys w) (w_sys w') /\ system (w_sys w') /\ (r = Ok tt -> rest = []).
Proof. exact (fun F => configure_outcome h o F w w' r l). Qed.
Print Assumptions C17_any_outcome.

(** With comar at hand and scripts that succeed, it works exactly if every package listed is
    really awaiting configuration and they do not depend on each other in a circle (nor on
    components). *)
Theorem C17_works_iff h o w l : fair h -> system (w_sys w) -> list_pending (y_inst (w_sys w)) = Ok l ->
  o_comar o = true -> (forall log x, h_hook h log x = None) ->
  ((exists w', configure_pending h o w = (w', Ok tt)) <->
   (forall x i, In (x, i) l -> i_state i = StIP) /\ (forall x p, In x (map fst l) -> present (w_sys w) x p -> p_compdeps p = []) /\ no_circle (w_sys w) (map fst l)).
Proof. exact (fun F => configure_works h o F w l). Qed.
Print Assumptions C17_works_iff.

(** It works after every history in which no pending package was removed, or replaced by a
    version configured at once.  Missing: the other histories, and circles. *)
Theorem C17_works_partial h o w : fair h -> lived patient (w_sys w) -> o_comar o = true -> (forall log x, h_hook h log x = None) ->
  (forall x p, listed_pending (w_sys w) x -> present (w_sys w) x p -> p_compdeps p = []) ->
  (forall L, (forall x, In x L -> listed_pending (w_sys w) x) -> no_circle (w_sys w) L) ->
  exists w', configure_pending h o w = (w', Ok tt).
Proof. exact (configure_patient h o w). Qed.
Print Assumptions C17_works_partial.

(** ** Samples *)
Definition with_comar : opts := mkOpts false false false false false false true "/".
Definition deferred (deps : list (string * list dependency)) : sys := with_repo [] (map (fun nd => YInstall (v_pkg nd.1 "1" "1" nd.2) [] true) deps).
Lemma deferred_patient deps : lived patient (deferred deps).
Proof.
  unfold deferred, with_repo, apply_all. cbn [fold_left].
  match goal with |- lived patient (fold_left _ _ ?s) => assert (G : lived patient s) end.
  { assert (St : forall s c, repo_command c -> lived patient s -> lived patient (match apply_yop s (YRepo c) with Ok s' => s' | Err _ => s end)).
    { intros s c C L. destruct (apply_yop s (YRepo c)) as [s'|e] eqn:E; [|exact L]. refine (lived_step patient s (YRepo c) s' L _ Logic.I E). intros d [= <-]. exact C. }
    apply St; [exact Logic.I|]. apply St; [exact Logic.I|]. constructor. }
  revert G. match goal with |- lived patient ?s -> _ => generalize s end.
  induction deps as [|[n ds] deps IH]; intros s G; simpl; [exact G|]. apply IH. destruct (record_install s (v_pkg n "1" "1" ds) [] true) as [s'|e] eqn:E; [|exact G].
  refine (lived_step patient s (YInstall (v_pkg n "1" "1" ds) [] true) s' G _ _ E); [discriminate|simpl; discriminate].
Qed.
Definition fresh_image : sys := deferred [("app", [dep_on "lib"; dep_on "core"]); ("core", []); ("lib", [dep_on "core"]); ("docs", [dep_on "nothing"])].
Lemma fresh_pending : map fst (match list_pending (y_inst fresh_image) with Ok l => l | Err _ => [] end) = ["docs"; "lib"; "app"; "core"].
Proof. vm_compute. reflexivity. Qed.
Definition rank (x : string) : nat := if String.eqb x "app" then 2 else if String.eqb x "lib" || String.eqb x "docs" then 1 else 0.
Lemma fresh_no_circle L : (forall x, In x L -> listed_pending fresh_image x) -> no_circle fresh_image L.
Proof.
  intros H x K. assert (G : forall a b, tc (waits_for fresh_image L) a b -> rank b < rank a).
  { assert (G1 : forall a b, waits_for fresh_image L a b -> rank b < rank a).
    { intros a b (A & B & p & d & [_ P] & D & E). specialize (H a A). destruct H as (l & Hl & H). pose proof fresh_pending as Fp. rewrite Hl in Fp. rewrite Fp in H.
      destruct H as [<-|[<-|[<-|[<-|[]]]]]; (match type of P with ?g = _ => let v := eval vm_compute in g in assert (V : g = v) by (vm_compute; reflexivity); rewrite V in P; clear V end);
        injection P as <-; simpl in D.
      all: repeat (destruct D as [<-|D]; [subst b; vm_compute; repeat constructor|]); destruct D. }
    induction 1 as [a b E|a b c E _ IH]; [auto|]. specialize (G1 a b E). etransitivity; eauto. }
  specialize (G x x K). exact (Nat.lt_irrefl _ G).
Qed.

Definition configured : world := (configure_pending plain with_comar (start fresh_image ∅)).1.
Example C17_nontrivial : fair plain /\ lived patient fresh_image /\ (forall log x, h_hook plain log x = None) /\
  (forall L, (forall x, In x L -> listed_pending fresh_image x) -> no_circle fresh_image L) /\
  map fst (match list_pending (y_inst fresh_image) with Ok l => l | Err _ => [] end) = ["docs"; "lib"; "app"; "core"] /\
  (configure_pending plain with_comar (start fresh_image ∅)).2 = Ok tt /\
  w_log configured = [EvPostInstall "app"; EvPostInstall "lib"; EvPostInstall "core"; EvPostInstall "docs"] /\
  list_pending (y_inst (w_sys configured)) = Ok [].
Proof.
  split; [apply host_fair|]. split; [apply deferred_patient|]. split; [reflexivity|]. split; [apply fresh_no_circle|]. split; [apply fresh_pending|].
  split; [vm_compute; reflexivity|]. split; vm_compute; reflexivity.
Qed.

(** As stated it is false.  A pending package that is removed stays listed, and configuring
    fails for all packages, for good. *)
Definition regretted : sys := with_repo [] [YInstall (v_pkg "app" "1" "1" []) [] true; YInstall (v_pkg "game" "1" "1" []) [] true; YRemove "game"].
Lemma regretted_system : system regretted.
Proof. apply with_repo_system. intros d K. repeat (destruct K as [K|K]; [discriminate K|]). destruct K. Qed.
Theorem C17_removed_refuted : exists h o w, fair h /\ system (w_sys w) /\ o_comar o = true /\ (forall log x, h_hook h log x = None) /\
  configure_pending h o w = (w, Err EError).
Proof.
  exists plain, with_comar, (start regretted ∅). split; [apply host_fair|]. split; [apply regretted_system|]. split; [reflexivity|]. split; [reflexivity|].
  unfold configure_pending, bindM, look. cbn [w_sys start].
  match goal with |- context [list_pending ?d] => let v := eval vm_compute in (list_pending d) in assert (V : list_pending d = v) by (vm_compute; reflexivity); rewrite V; clear V end.
  cbn [bind map fst].
  match goal with |- context [plan_configure ?s ?i ?a] => assert (V : plan_configure s i a = Err EError) by (vm_compute; reflexivity); rewrite V; clear V end.
  reflexivity.
Qed.
Print Assumptions C17_removed_refuted.
(** A pending package that is upgraded with comar at hand, and so configured at once, stays
    listed; configuring runs its script again and fails on an assertion. *)
Definition hasty : sys := with_repo [] [YInstall (v_pkg "app" "1" "1" []) [] true; YInstall (v_pkg "app" "2" "2" []) [] false].
Lemma hasty_system : system hasty.
Proof. apply with_repo_system. intros d K. repeat (destruct K as [K|K]; [discriminate K|]). destruct K. Qed.
Theorem C17_upgraded_refuted : exists h o w w', fair h /\ system (w_sys w) /\ o_comar o = true /\ (forall log x, h_hook h log x = None) /\
  configure_pending h o w = (w', Err EAssert) /\ w_log w' = [EvPostInstall "app"] /\ listed_pending (w_sys w') "app".
Proof.
  exists plain, with_comar, (start hasty ∅), (configure_pending plain with_comar (start hasty ∅)).1. split; [apply host_fair|]. split; [apply hasty_system|]. split; [reflexivity|]. split; [reflexivity|].
  split; [|split; [vm_compute; reflexivity|]].
  - assert (E : (configure_pending plain with_comar (start hasty ∅)).2 = Err EAssert) by (vm_compute; reflexivity). rewrite <- E. apply surjective_pairing.
  - eexists. split; [vm_compute; reflexivity|]. simpl. auto.
Qed.
Print Assumptions C17_upgraded_refuted.
(** Two pending packages that depend on each other. *)
Definition mutual : sys := deferred [("tick", [dep_on "tock"]); ("tock", [dep_on "tick"])].
Theorem C17_circle_refuted : exists h o w c, fair h /\ lived patient (w_sys w) /\ o_comar o = true /\ (forall log x, h_hook h log x = None) /\
  (configure_pending h o w).2 = Err (ECycle c).
Proof.
  exists plain, with_comar, (start mutual ∅). eexists. split; [apply host_fair|]. split; [apply deferred_patient|]. split; [reflexivity|]. split; [reflexivity|].
  vm_compute. reflexivity.
Qed.
Print Assumptions C17_circle_refuted.
