(** * C83: security upgrades *)
From Coq Require Import String Ascii List ZArith.
From stdpp Require Import gmap strings.
From Verif Require Import Proof.GraphFacts.
From Verif Require Import Model.Py Model.ItemByRepo Model.Dependency Model.Package Model.Databases
  Model.InstallDB Model.System Model.Graph Model.Plan Model.Path Model.Fs Model.Ops Model.Security
  Spec.ItemByRepoSpec Spec.DependencySpec Spec.DatabaseSpec Spec.SystemSpec Spec.PlanSpec Spec.OpsSpec Spec.SecuritySpec
  Proof.PyFacts Proof.RevDepFacts Proof.SystemFacts Proof.Consent Proof.SecurityTop.
Require Import Verif.Prop.PlanProps Verif.Prop.OpsProps.
Open Scope string_scope.

(** As stated it is false, always: upgrade --security installs nothing, whatever is due.  If a
    security update is due it fails; it succeeds only if none is, and then does nothing. *)
Theorem C83_security_refuted h o history A w w' r : fair h -> system (w_sys w) -> plain_names (w_sys w) ->
  upgrade_security h o history A w = (w', r) ->
  let asked := requested (w_sys w) (match A with [] => list_installed (y_inst (w_sys w)) | _ => A end) in
  (forall x, ~ installed_now w w' x) /\ (refuses h QConflicts -> untouched w w') /\
  match r with
  | Ok b => b = true /\ w' = w /\ forall x, asked x -> ~ security_due (w_sys w) history (o_ignore_build o) x
  | Err e => (exists x, asked x /\ security_due (w_sys w) history (o_ignore_build o) x) \/
             (e = EValue /\ w' = w /\ exists x, asked x /\ bad_release (w_sys w) history x)
  end.
Proof. exact (fun F => security_run h o F history A w w' r). Qed.
Print Assumptions C83_security_refuted.
(** Where nothing is due and every release can be read, it does nothing and says so. *)
Theorem C83_nothing_due_partial h o history A w w' r : fair h -> system (w_sys w) -> plain_names (w_sys w) ->
  upgrade_security h o history A w = (w', r) ->
  let asked := requested (w_sys w) (match A with [] => list_installed (y_inst (w_sys w)) | _ => A end) in
  (forall x, asked x -> ~ security_due (w_sys w) history (o_ignore_build o) x /\ ~ bad_release (w_sys w) history x) -> r = Ok true /\ w' = w.
Proof.
  exact (fun F S P H N => match r as r return upgrade_security h o history A w = (w', r) -> r = Ok true /\ w' = w with
    | Ok b => fun H => let K := security_run h o F history A w w' (Ok b) S P H in
        match proj2 (proj2 K) with conj E (conj W _) => conj (f_equal Ok E) W end
    | Err e => fun H => match proj2 (proj2 (security_run h o F history A w w' (Err e) S P H)) with
        | or_introl (ex_intro _ x (conj a d)) => match proj1 (N x a) d with end
        | or_intror (conj _ (conj _ (ex_intro _ x (conj a d)))) => match proj2 (N x a) d with end end
    end H).
Qed.
Print Assumptions C83_nothing_due_partial.
(** A dry run changes nothing. *)
Theorem C83_dry_run h o history A w : o_dry_run o = true -> untouched w (upgrade_security h o history A w).1.
Proof. exact (fun D => dry_security h o D history A w). Qed.
Print Assumptions C83_dry_run.

(** lib, at release 1, is due for the security update of release 2; core has none later than what is offered, and is not installed *)
Definition tale (p : package) : list update :=
  if String.eqb (p_name p) "lib" then [mkUpdate "2006-02-01" "2" "2" (Some "security"); mkUpdate "2006-01-01" "1" "1" None]
  else if String.eqb (p_name p) "core" then [mkUpdate "2006-02-01" "1" "1" (Some "security")] else [].
Definition no_comma (s : sys) : bool :=
  forallb (fun nm => negb (existsb (Ascii.eqb ",") (list_ascii_of_string nm.1))) (map_to_list (db_pkg (y_db s))).
Lemma no_comma_plain s : no_comma s = true -> plain_names s.
Proof.
  intros H n p O (a & b & ->). unfold offered, get_package, get_item, get_item_repo in O. destruct (db_pkg (y_db s) !! (a ++ ", ver=" ++ b)) as [m|] eqn:E; [|discriminate O].
  apply elem_of_map_to_list, elem_of_list_In in E. unfold no_comma in H. rewrite forallb_forall in H. specialize (H _ E). cbn [fst] in H. apply negb_true_iff in H.
  enough (K : existsb (Ascii.eqb ",") (list_ascii_of_string (a ++ ", ver=" ++ b)) = true) by congruence. apply existsb_exists. exists ","%char. split; [|reflexivity].
  rewrite los_app. apply in_or_app. right. now left.
Qed.
Example C83_nontrivial : fair plain /\ system shop /\ plain_names shop /\ security_due shop tale false "lib" /\
  (exists e, (upgrade_security plain usual tale [] (start shop ∅)).2 = Err e) /\
  (upgrade_security plain usual tale ["core"] (start shop ∅)).2 = Ok true /\
  (upgrade_pkg_names plain usual ["lib"] (start shop ∅)).2 = Ok true.
Proof.
  split; [exact (host_fair _ _ _)|]. split; [exact shop_system|]. split; [apply no_comma_plain; vm_compute; reflexivity|]. split.
  { pose proof (due_security_spec usual tale shop "lib" shop_system) as D. destruct (due_security usual tale shop "lib") as [[t|]|e] eqn:E; [exact (proj1 D)|vm_compute in E; discriminate E|vm_compute in E; discriminate E]. }
  split; [eexists; vm_compute; reflexivity|]. split; vm_compute; reflexivity.
Qed.
