From Coq Require Import String Ascii ZArith List Lia.
From stdpp Require Import gmap strings.
From Verif Require Import Model.Py Model.Version Model.ItemByRepo Model.Dependency Model.Package Model.ComponentDB Model.Databases Model.InstallDB Model.System Model.Build Model.BuildStart.
From Verif Require Import Spec.DependencySpec Spec.DatabaseSpec Spec.SystemSpec Spec.PlanSpec Spec.BuildStartSpec.
From Verif Require Import Proof.PyFacts Proof.ItemByRepoFacts Proof.ItemByRepoMain Proof.DatabaseFacts Proof.SystemFacts Proof.PlanFacts Proof.UpgradeFacts.
Open Scope string_scope.

Lemma key_total {A} (d : shelf A) n r : exists b, has_key d n r = Ok b.
Proof. destruct (place_cases r) as [P|[->| ->]]; [rewrite has_key_place by exact P; eauto|cbn; eauto|cbn; eauto]. Qed.

Lemma tool_iff s c : system s -> get_component (order_of (y_db s)) (db_comp (y_db s)) "system.devel" RRepos = Ok c ->
  forall x, tool s x <-> In x (c_packages c).
Proof.
  intros H E x. unfold get_component in E. apply get_item_repo_get in E as [q E]. apply first_repository in E as (pre & r & post & E1 & -> & E2 & E3). split.
  - intros (b & r' & a & O & (c' & G & I) & F). rewrite E1 in O.
    assert (K : r' = r).
    { clear I. revert b O F E3 G. clear E1. induction pre as [|y pre IH]; intros [|z b] O F E3 G; cbn in O; injection O; intros.
      - congruence.
      - subst z. elim (F r c (or_introl eq_refl)). exact E2.
      - subst y. destruct (E3 r' (or_introl eq_refl)) as [e K]. unfold get_component in G. congruence.
      - apply (IH b); [assumption|intros r0 c0 I0; apply F; now right|intros r0 I0; apply E3; now right|exact G]. }
    subst r'. unfold get_component in G. congruence.
  - intros I. exists pre, r, post. split; [exact E1|]. split; [exists c; split; [exact E2|exact I]|]. intros r' c' I' G. destruct (E3 r' I') as [e K]. unfold get_component in G. congruence.
Qed.

Lemma no_tool s : system s -> has_component (db_comp (y_db s)) "system.devel" RRepos = Ok false -> forall x, ~ tool s x.
Proof.
  intros H K x (b & r & a & O & (c & G & I) & F). pose proof H as Y. apply lived_yinv in Y as [R _ _ _ _]. destruct (reachable_inv _ R) as [_ [_ _ _ _ Hg]].
  assert (T : has_key (db_comp (y_db s)) "system.devel" RRepos = Ok true); [|unfold has_component in K; congruence].
  apply has_key_repos; [apply Hg|]. exists r. unfold get_component in G. apply entry_get in G; [eauto|apply place_name].
Qed.

Section start.
  Context (s : sys) (H : system s) (bo : build_opts) (elems : gset string -> list string) (El : some_order elems) (answer : bool).
  Notation tools := (required_tool s bo).

  Lemma extra_spec deps : exists names, extra_deps s bo elems deps = Ok (map plain_dep names) /\
    forall x, In x names <-> (b_bypass_safety bo = false /\ tool s x) /\ is_installed (y_inst s) x = false /\ ~ In x (map dep_package deps).
  Proof.
    unfold extra_deps. destruct (b_bypass_safety bo); [exists []; split; [reflexivity|]; intros x; split; [intros []|intros [[K _] _]; discriminate K]|].
    destruct (key_total (db_comp (y_db s)) "system.devel" RRepos) as [[] K]; fold (has_component (db_comp (y_db s)) "system.devel" RRepos) in K; rewrite K; cbn [bind].
    - pose proof H as Y. apply lived_yinv in Y as [R _ _ _ _]. destruct (reachable_inv _ R) as [_ [_ _ _ _ Hg]].
      destruct (proj1 (proj1 (good_agree (order_of (y_db s)) _ "system.devel" RRepos Hg)) K) as [c E]. fold (get_component (order_of (y_db s)) (db_comp (y_db s)) "system.devel" RRepos) in E. rewrite E. cbn [bind].
      eexists. split; [reflexivity|]. intros x. rewrite filter_In, (El _ x), elem_of_difference, !elem_of_list_to_set, !elem_of_list_In, negb_true_iff, (tool_iff s c H E). tauto.
    - exists []. split; [reflexivity|]. intros x. split; [intros []|]. intros [[_ T] _]. elim (no_tool s H K x T).
  Qed.

  Lemma unsatis_spec deps : match dep_unsatis s deps with
    | Ok l => (forall d, In d deps -> answerable s d) /\ forall d, In d l <-> In d deps /\ ~ met s d
    | Err e => e = EValue /\ exists d, In d deps /\ ~ answerable s d
    end.
  Proof.
    unfold dep_unsatis. assert (G : forall l acc, match foldM (fun acc dep => b <- installed_satisfies_dep s dep ;; Ok (if b : bool then acc else acc ++ [dep])%list) l acc with
      | Ok m => (forall d, In d l -> answerable s d) /\ forall d, In d m <-> In d acc \/ (In d l /\ ~ met s d)
      | Err e => e = EValue /\ exists d, In d l /\ ~ answerable s d end).
    { clear deps. induction l as [|a l IH]; intros acc; cbn [foldM].
      - split; [intros d []|]. intros d. cbn. tauto.
      - pose proof (sat_spec s a H) as S. destruct (installed_satisfies_dep s a) as [b|e] eqn:E; cbn [bind].
        + assert (A : answerable s a) by (apply (sat_ok s a H); rewrite E; reflexivity). specialize (IH (if b then acc else acc ++ [a])%list). destruct (foldM _ l _) as [m|e].
          * destruct IH as [I1 I2]. split; [intros d [<-|K]; [exact A|now apply I1]|]. intros d. rewrite I2. destruct b.
            -- split; [intros [K|[K1 K2]]; [now left|right; split; [now right|exact K2]]|]. intros [K|[[<-|K1] K2]]; [now left|contradiction|right; now split].
            -- destruct S as [S _]. rewrite in_app_iff. cbn [In]. split; [intros [[K|[<-|[]]]|[K1 K2]]; [now left|right; split; [now left|exact S]|right; split; [now right|exact K2]]|].
               intros [K|[[<-|K1] K2]]; [left; now left|left; right; now left|right; now split].
          * destruct IH as (-> & d & K1 & K2). split; [reflexivity|]. exists d. split; [now right|exact K2].
        + destruct S as (-> & S & _). split; [reflexivity|]. exists a. split; [now left|exact S]. }
    specialize (G deps []). destruct (foldM _ deps []) as [l|e]; [|exact G]. destruct G as [G1 G2]. split; [exact G1|]. intros d. rewrite G2. cbn. tauto.
  Qed.
  Lemma repo_all_ok l u : repo_has_all s l = Ok u <-> forall d, In d l -> repo_meets s d.
  Proof.
    unfold repo_has_all. destruct u. induction l as [|a l IH]; cbn [foldM]; [split; [intros _ d []|reflexivity]|].
    pose proof (repo_sat_spec s a H) as S. destruct (repo_satisfies_dep s a) as [[]|e]; cbn [bind].
    - rewrite IH. split; [intros K d [<-|I]; [now apply S|now apply K]|intros K d I; apply K; now right].
    - split; [discriminate|]. intros K. specialize (K a (or_introl eq_refl)). apply S in K. discriminate K.
    - split; [discriminate|]. intros K. destruct S as (_ & S & _). elim S. apply K. now left.
  Qed.
  Lemma not_installed_unmet x : is_installed (y_inst s) x = false -> ~ met s (plain_dep x) /\ answerable s (plain_dep x).
  Proof. intros K. split; [intros (p & [P _] & _)|intros p [P _]]; cbn in P; congruence. Qed.
  Lemma met_answerable d : met s d -> answerable s d.
  Proof. intros (p & P & W & _) q Q. assert (p = q) by (destruct P, Q; congruence). now subst. Qed.
  Lemma met_installed d : met s d -> is_installed (y_inst s) (dep_package d) = true.
  Proof. now intros (p & [P _] & _). Qed.

  Notation short_of := (wanting s (required_tool s bo)).
  Lemma unsat_all deps : (forall d, In d deps -> answerable s d) -> exists extra l, extra_deps s bo elems deps = Ok extra /\ dep_unsatis s (deps ++ extra)%list = Ok l /\
    forall d, In d l <-> short_of deps d.
  Proof.
    intros A. destruct (extra_spec deps) as (names & E & N). exists (map plain_dep names). pose proof (unsatis_spec (deps ++ map plain_dep names)%list) as U.
    destruct (dep_unsatis s (deps ++ map plain_dep names)%list) as [l|e].
    - exists l. split; [exact E|]. split; [reflexivity|]. destruct U as [_ U]. intros d. rewrite U, in_app_iff, in_map_iff. unfold wanting, required_tool. split.
      + intros [[I|(x & <- & I)] M]; [left; now split|]. right. exists x. split; [reflexivity|]. now apply N.
      + intros [[I M]|(x & -> & K)]; [split; [now left|exact M]|]. split; [right; exists x; split; [reflexivity|now apply N]|]. now apply not_installed_unmet.
    - exfalso. destruct U as (_ & d & I & K). apply in_app_iff in I as [I|I]; [now apply K, A|]. apply in_map_iff in I as (x & <- & I). apply N in I as (_ & I & _). now apply K, not_installed_unmet.
  Qed.
  Lemma equipped_iff deps : equipped s tools deps <-> forall d, ~ short_of deps d.
  Proof.
    split.
    - intros [M T] d [[I K]|(x & _ & Tx & K & _)]; [now apply K, M|]. apply T in Tx. congruence.
    - intros K. assert (M : forall d, In d deps -> met s d).
      { intros d I. destruct (installed_satisfies_dep s d) as [[]|e] eqn:E; pose proof (sat_spec s d H) as S; rewrite E in S; [exact S| |].
        - elim (K d). left. split; [exact I|apply S].
        - elim (K d). left. split; [exact I|apply S]. }
      split; [exact M|]. intros x Tx. destruct (is_installed (y_inst s) x) eqn:E; [reflexivity|]. elim (K (plain_dep x)). right. exists x. split; [reflexivity|]. split; [exact Tx|]. split; [exact E|].
      intros I. apply in_map_iff in I as (d & D & I). apply M, met_installed in I. congruence.
  Qed.
  Lemma equipped_dec deps l : (forall d, In d l <-> short_of deps d) -> equipped s tools deps <-> l = [].
  Proof.
    intros L. rewrite equipped_iff. split; [intros K; destruct l as [|d l]; [reflexivity|elim (K d); apply L; now left]|]. intros -> d D. now apply L in D.
  Qed.
  Lemma unanswerable deps d : In d deps -> ~ answerable s d -> check_build_dependencies s bo elems answer deps = Err EValue.
  Proof.
    intros I K. unfold check_build_dependencies. destruct (extra_spec deps) as (names & E & N). rewrite E. cbn [bind]. pose proof (unsatis_spec (deps ++ map plain_dep names)%list) as U.
    destruct (dep_unsatis s (deps ++ map plain_dep names)%list) as [l|e]; cbn [bind].
    - destruct U as [U _]. elim K. apply U, in_app_iff. now left.
    - destruct U as [-> _]. reflexivity.
  Qed.
  Lemma answerable_dec d : answerable s d \/ ~ answerable s d.
  Proof. destruct (is_ok (installed_satisfies_dep s d)) eqn:E; [left; now apply sat_ok|right; rewrite <- sat_ok, E by exact H; discriminate]. Qed.
  Lemma all_answerable_dec deps : (forall d, In d deps -> answerable s d) \/ exists d, In d deps /\ ~ answerable s d.
  Proof.
    induction deps as [|a l [IH|(d & I & K)]]; [left; intros d []| |right; exists d; split; [now right|exact K]].
    destruct (answerable_dec a) as [A|A]; [left; intros d [<-|I]; auto|right; exists a; split; [now left|exact A]].
  Qed.

  Lemma check_ok deps u : check_build_dependencies s bo elems answer deps = Ok u <->
    equipped s tools deps \/ (b_ignore_dependency bo = true /\ b_no_install bo = false /\ forall d, In d deps -> answerable s d).
  Proof.
    destruct u. destruct (all_answerable_dec deps) as [A|(d & I & K)].
    - destruct (unsat_all deps A) as (extra & l & E1 & E2 & L). unfold check_build_dependencies. rewrite E1. cbn [bind]. rewrite E2. cbn [bind]. rewrite (equipped_dec deps l L). destruct l as [|d l].
      + split; [now left|reflexivity].
      + destruct (b_no_install bo) eqn:Bn; [split; [discriminate|intros [K|(_ & K & _)]; discriminate K]|]. destruct (b_ignore_dependency bo) eqn:Bi; [split; [intros _; right; auto|reflexivity]|].
        split; [|intros [K|(K & _)]; discriminate K]. destruct (repo_has_all s (d :: l)); cbn [bind]; [destruct answer; discriminate|discriminate].
    - rewrite (unanswerable deps d I K). split; [discriminate|]. intros [[M _]|(_ & _ & A)]; elim K; [now apply met_answerable, M|now apply A].
  Qed.
  (** when it would install what is missing, it breaks down *)
  Lemma check_name deps : check_build_dependencies s bo elems answer deps = Err EName <->
    (forall d, In d deps -> answerable s d) /\ ~ equipped s tools deps /\ b_no_install bo = false /\ b_ignore_dependency bo = false /\ answer = true /\
    forall d, short_of deps d -> repo_meets s d.
  Proof.
    destruct (all_answerable_dec deps) as [A|(d & I & K)].
    - destruct (unsat_all deps A) as (extra & l & E1 & E2 & L). unfold check_build_dependencies. rewrite E1. cbn [bind]. rewrite E2. cbn [bind]. rewrite (equipped_dec deps l L).
      assert (R : (forall d, short_of deps d -> repo_meets s d) <-> repo_has_all s l = Ok tt) by (rewrite repo_all_ok; split; intros K d D; apply K, L, D).
      rewrite R. destruct l as [|d l].
      + split; [discriminate|]. intros (_ & K & _). now elim K.
      + destruct (b_no_install bo) eqn:Bn; [split; [discriminate|intros (_ & _ & K & _); discriminate K]|]. destruct (b_ignore_dependency bo) eqn:Bi; [split; [discriminate|intros (_ & _ & _ & K & _); discriminate K]|].
        destruct (repo_has_all s (d :: l)) as [[]|e] eqn:E; cbn [bind].
        * destruct answer; [split; [intros _; split; [exact A|]; split; [discriminate|auto]|reflexivity]|split; [discriminate|intros (_ & _ & _ & _ & K & _); discriminate K]].
        * split; [|intros (_ & _ & _ & _ & _ & K); discriminate K]. intros X. injection X as ->. exfalso. revert E. clear - H. unfold repo_has_all. generalize (d :: l). intros m. induction m as [|a m IH]; cbn [foldM]; [discriminate|].
          pose proof (repo_sat_spec s a H) as S. destruct (repo_satisfies_dep s a) as [[]|e]; cbn [bind]; [exact IH|discriminate|]. destruct S as [-> _]. discriminate.
    - rewrite (unanswerable deps d I K). split; [discriminate|]. intros (A & _). elim K. now apply A.
  Qed.

  Context (script : res unit) (access : string -> bool) (fetched : bool).
  Lemma patches_ok patches u : patch_exists access patches = Ok u <-> forall p, In p patches -> access p = true.
  Proof.
    destruct u. unfold patch_exists. induction patches as [|p l IH]; cbn [foldM]; [split; [intros _ p []|reflexivity]|]. destruct (access p) eqn:E; cbn [bind].
    - rewrite IH. split; [intros K q [<-|I]; auto|intros K q I; apply K; now right].
    - split; [discriminate|]. intros K. rewrite (K p (or_introl eq_refl)) in E. discriminate E.
  Qed.
  Notation ready := (ready s bo script access).
  Lemma may_start_iff patches deps u : may_start s bo elems answer script access patches deps = Ok u <-> ready patches deps.
  Proof.
    unfold may_start, BuildStartSpec.ready. destruct u. rewrite <- (check_ok deps tt), <- (patches_ok patches tt). destruct script as [[]|e]; cbn [bind]; [|split; [discriminate|intros [K _]; discriminate K]].
    destruct (patch_exists access patches) as [[]|e]; cbn [bind]; [|split; [discriminate|intros (_ & K & _); discriminate K]]. tauto.
  Qed.
  Lemma build_starts norootdir autoclean patches packages deps w : fst (build_source s bo elems answer script access fetched norootdir autoclean patches packages deps w) <> [] -> ready patches deps.
  Proof.
    unfold build_source. destruct (may_start s bo elems answer script access patches deps) as [u|e] eqn:E; [|now intros []]. intros _. now apply (may_start_iff patches deps u).
  Qed.
  Lemma build_ready norootdir autoclean patches packages deps w : ready patches deps -> fetched = true ->
    build_source s bo elems answer script access fetched norootdir autoclean patches packages deps w = Build.build norootdir patches packages autoclean w.
  Proof. intros R F. apply (may_start_iff patches deps tt) in R. unfold build_source. now rewrite R, F. Qed.
End start.
