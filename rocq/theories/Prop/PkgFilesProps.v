(** * C67: installing package files *)
From Coq Require Import String List ZArith.
From stdpp Require Import gmap strings relations.
From Verif Require Import Proof.GraphFacts.
From Verif Require Import Model.Py Model.ItemByRepo Model.Dependency Model.Package Model.ComponentDB Model.Databases
  Model.InstallDB Model.System Model.Graph Model.Plan Model.Path Model.Fs Model.Ops
  Spec.ItemByRepoSpec Spec.DependencySpec Spec.DatabaseSpec Spec.SystemSpec Spec.GraphSpec Spec.PlanSpec Spec.PathSpec Spec.FsSpec Spec.OpsSpec Spec.PkgFilesSpec
  Proof.DependencyFacts Proof.RevDepFacts Proof.InstallDBFacts Proof.SystemFacts Proof.PlanFacts Proof.UpgradeFacts Proof.PlanTop Proof.OpsFacts Proof.OpsTop Proof.OpsSteps Proof.PkgFiles.
Require Import Verif.Prop.PlanProps Verif.Prop.OpsProps.
Open Scope string_scope.

(** The last thing the command does is to install what the files hold, each package once, after
    the packages among them it needs. *)
Theorem C67_order h o uris w w' u : fair h -> system (w_sys w) -> o_ignore_dependency o = false -> o_dry_run o = false ->
  install_pkg_files h o uris w = (w', Ok u) ->
  exists order before last, in_need_order h uris order /\ w_log w' = (last ++ before ++ w_log w)%list /\ installations last = order /\
    forall n k, holds h uris n k -> present (w_sys w') n (k_pkg k).
Proof. exact (fun F => files_order h o F uris w w' u). Qed.
Print Assumptions C67_order.

(** If what the files need is settled, they are installed and nothing else changes, and in the
    end they have what they need. *)
Theorem C67_met_partial h o uris w w' u : fair h -> system (w_sys w) -> o_ignore_dependency o = false -> o_dry_run o = false ->
  o_ignore_file_conflicts o = true \/ refuses h QConflicts -> settled h (w_sys w) uris ->
  install_pkg_files h o uris w = (w', Ok u) ->
  (forall y q, present (w_sys w') y q <-> (exists k, holds h uris y k /\ k_pkg k = q) \/ ((forall k, ~ holds h uris y k) /\ present (w_sys w) y q)) /\
  forall n k d, holds h uris n k -> In d (p_deps (k_pkg k)) -> met (w_sys w') d.
Proof. exact (fun F => files_met h o F uris w w' u). Qed.
Print Assumptions C67_met_partial.

(** ... and if they are not all installed, then nothing happened at all, or the installation of
    one of them failed although it had what it needs. *)
Theorem C67_ready_partial h o uris w w' e : fair h -> system (w_sys w) -> o_ignore_dependency o = false -> o_dry_run o = false ->
  o_ignore_file_conflicts o = true \/ refuses h QConflicts -> settled h (w_sys w) uris ->
  install_pkg_files h o uris w = (w', Err e) ->
  untouched w w' \/
  exists w1 x k, system (w_sys w1) /\ holds h uris x k /\ (forall d, In d (p_deps (k_pkg k)) -> met (w_sys w1) d) /\
    install_package h o k (o_ignore_file_conflicts o) true w1 = (w', Err e).
Proof.
  intros F S NI ND NC St H. destruct (files_ready h o F uris w w' _ S NI ND NC St H) as [[K _]|(order & done & rest & w1 & _ & _ & S1 & _ & x & k & _ & _ & K)]; [now left|right; exists w1, x, k; tauto].
Qed.
Print Assumptions C67_ready_partial.

(** Three files that need each other in a row, and what is installed already *)
Definition shelf (u : string) : res pkgfile :=
  if String.eqb u "top.pisi" then bare (v_pkg "top" "1" "1" [dep_on "mid"; dep_on "base"])
  else if String.eqb u "mid.pisi" then bare (v_pkg "mid" "1" "1" [exactly "low" "2"])
  else if String.eqb u "low.pisi" then bare (v_pkg "low" "2" "2" [dep_on "base"])
  else if String.eqb u "app.pisi" then bare (v_pkg "app" "1" "1" [exactly "low" "1"])
  else if String.eqb u "loop.pisi" then bare (v_pkg "loop" "1" "1" [dep_on "loop"])
  else Err EError.
Definition shelves : host := host_with (fun _ _ => false) bare shelf.
Definition before_files : sys := with_repo [] [YInstall (v_pkg "base" "1" "1" []) [] false; YInstall (v_pkg "low" "1" "1" []) [] false].
Lemma before_files_system : system before_files.
Proof. apply with_repo_system. intros d K. cbn in K. intuition discriminate. Qed.
Definition three : list string := ["top.pisi"; "low.pisi"; "mid.pisi"].
Lemma holds_three n k : holds shelves three n k -> exists u, In u three /\ shelf u = Ok k /\ p_name (k_pkg k) = n.
Proof. apply holds_in. Qed.
Lemma three_top : holds shelves three "top" (mkPkgfile (v_pkg "top" "1" "1" [dep_on "mid"; dep_on "base"]) [] []).
Proof. exists [], "top.pisi", ["low.pisi"; "mid.pisi"]. split; [reflexivity|]. split; [reflexivity|]. split; [reflexivity|]. intros v k' [<-|[<-|[]]] [= <-]; discriminate. Qed.
Lemma three_low : holds shelves three "low" (mkPkgfile (v_pkg "low" "2" "2" [dep_on "base"]) [] []).
Proof. exists ["top.pisi"], "low.pisi", ["mid.pisi"]. split; [reflexivity|]. split; [reflexivity|]. split; [reflexivity|]. intros v k' [<-|[]] [= <-]; discriminate. Qed.
Lemma three_mid : holds shelves three "mid" (mkPkgfile (v_pkg "mid" "1" "1" [exactly "low" "2"]) [] []).
Proof. exists ["top.pisi"; "low.pisi"], "mid.pisi", []. split; [reflexivity|]. split; [reflexivity|]. split; [reflexivity|]. intros v k' []. Qed.
Lemma three_settled : settled shelves before_files three.
Proof.
  assert (B : met before_files (dep_on "base") /\ forall k', ~ holds shelves three "base" k').
  { split; [apply (sat_true _ _ before_files_system); vm_compute; reflexivity|]. intros k' K. apply holds_three in K as (u & [<-|[<-|[<-|[]]]] & [= <-] & K); discriminate. }
  intros n k d K Hd. apply holds_three in K as (u & [<-|[<-|[<-|[]]]] & [= <-] & _); cbn in Hd.
  - destruct Hd as [<-|[<-|[]]]; [left|now right]. eexists. split; [exact three_mid|]. apply (satisfies_true _ "mid"). vm_compute. reflexivity.
  - destruct Hd as [<-|[]]. now right.
  - destruct Hd as [<-|[]]. left. eexists. split; [exact three_low|]. apply (satisfies_true _ "low"). vm_compute. reflexivity.
Qed.
Example C67_nontrivial : fair shelves /\ system before_files /\ settled shelves before_files three /\ refuses shelves QConflicts /\
  (let w' := (install_pkg_files shelves usual three (start before_files ∅)) in
   w'.2 = Ok tt /\ w_log w'.1 = [EvInstalled "top"; EvInstalled "mid"; EvInstalled "low"]) /\
  file_needs shelves three "top" "mid" /\
  (* a circle *)
  (install_pkg_files shelves usual ["loop.pisi"] (start before_files ∅)).2 = Err (ECycle ["loop"]).
Proof.
  split; [apply host_fair|]. split; [apply before_files_system|]. split; [apply three_settled|]. split; [intros past; reflexivity|].
  split; [split; vm_compute; reflexivity|]. split; [|vm_compute; reflexivity].
  exists (mkPkgfile (v_pkg "top" "1" "1" [dep_on "mid"; dep_on "base"]) [] []), (dep_on "mid"). split; [exact three_top|]. split; [now left|]. split; [reflexivity|].
  eexists. split; [exact three_mid|]. apply (satisfies_true _ "mid"). vm_compute. reflexivity.
Qed.

(** A file may need a version that is installed and that another of the files replaces.  Nobody is
    asked; depending on the order in which a set is gone through, the first is installed and then
    lacks what it needs, or it is refused after the second has been installed. *)
Definition shelves_back : host := mkHost back (h_list shelves) (h_answer shelves) (h_sha1 shelves) (h_hook shelves) (h_fetch shelves) (h_open shelves) (h_text shelves).
Lemma shelves_back_fair : fair shelves_back.
Proof. split; [apply back_any|]. exact (proj2 (host_fair (fun _ _ => false) bare shelf)). Qed.
Theorem C67_replaced_refuted : exists h1 h2 o uris w w1 w2 n k d, fair h1 /\ fair h2 /\ h_open h1 = h_open h2 /\ system (w_sys w) /\ o_ignore_dependency o = false /\ o_dry_run o = false /\
  install_pkg_files h1 o uris w = (w1, Ok tt) /\ holds h1 uris n k /\ In d (p_deps (k_pkg k)) /\ met (w_sys w) d /\ ~ met (w_sys w1) d /\ (forall q b, ~ asked w w1 q b) /\
  install_pkg_files h2 o uris w = (w2, Err EError) /\ installed_now w w2 (dep_package d) /\ (forall q b, ~ asked w w2 q b).
Proof.
  set (uris := ["app.pisi"; "low.pisi"]). set (w := start before_files ∅).
  exists shelves_back, shelves, usual, uris, w, (install_pkg_files shelves_back usual uris w).1, (install_pkg_files shelves usual uris w).1,
    "app", (mkPkgfile (v_pkg "app" "1" "1" [exactly "low" "1"]) [] []), (exactly "low" "1").
  assert (R1 : (install_pkg_files shelves_back usual uris w).2 = Ok tt) by (vm_compute; reflexivity).
  assert (R2 : (install_pkg_files shelves usual uris w).2 = Err EError) by (vm_compute; reflexivity).
  assert (L1 : w_log (install_pkg_files shelves_back usual uris w).1 = [EvInstalled "low"; EvInstalled "app"]) by (vm_compute; reflexivity).
  assert (L2 : w_log (install_pkg_files shelves usual uris w).1 = [EvInstalled "low"]) by (vm_compute; reflexivity).
  assert (E1 : install_pkg_files shelves_back usual uris w = ((install_pkg_files shelves_back usual uris w).1, Ok tt)) by now apply by_parts.
  split; [apply shelves_back_fair|]. split; [apply host_fair|]. split; [reflexivity|]. split; [apply before_files_system|]. split; [reflexivity|]. split; [reflexivity|]. split; [exact E1|].
  split. { exists [], "app.pisi", ["low.pisi"]. split; [reflexivity|]. split; [reflexivity|]. split; [reflexivity|]. intros v k' [<-|[]] [= <-]; discriminate. }
  split; [now left|]. split; [apply (sat_true _ _ before_files_system); vm_compute; reflexivity|]. split.
  { intros M. apply (sat_true _ _ (run_system shelves_back usual (CInstall uris false) w _ tt before_files_system E1)) in M. revert M. vm_compute. discriminate. }
  split. { intros q b (new & K & I). rewrite L1 in K. cbn [w w_log start] in K. rewrite app_nil_r in K. subst new. cbn in I. intuition discriminate. }
  split; [rewrite <- R2; apply surjective_pairing|]. split.
  { exists [EvInstalled "low"]. split; [exact L2|now left]. }
  intros q b (new & K & I). rewrite L2 in K. cbn [w w_log start] in K. rewrite app_nil_r in K. subst new. cbn in I. intuition discriminate.
Qed.
Print Assumptions C67_replaced_refuted.
