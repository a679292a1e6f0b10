(** * Components list exactly their packages (C39) *)
From Coq Require Import String List ZArith.
From stdpp Require Import gmap strings.
From Verif Require Import Model.Py Model.ItemByRepo Model.Dependency Model.Package Model.ComponentDB Model.Search Model.Databases
  Spec.ItemByRepoSpec Spec.DatabaseSpec Proof.ItemByRepoFacts Proof.ItemByRepoMain Proof.DatabaseFacts Proof.RevDepFacts.
Open Scope string_scope.
Open Scope list_scope.

Definition pkgs_of (d : compdb) (c : string) (q : rarg) : list string :=
  match entry d c q with Some x => c_packages x | None => [] end.
Definition srcs_of (d : compdb) (c : string) (q : rarg) : list string :=
  match entry d c q with Some x => c_sources x | None => [] end.

Lemma append_new_in x l y : In y (append_new x l) <-> In y l \/ y = x.
Proof.
  unfold append_new. destruct (str_in x l) eqn:E.
  - apply str_in_iff in E. split; [auto|]. intros [H| ->]; assumption.
  - rewrite in_app_iff. simpl. intuition.
Qed.
Lemma append_new_nodup x l : NoDup l -> NoDup (append_new x l).
Proof.
  intros N. unfold append_new. destruct (str_in x l) eqn:E; [exact N|].
  assert (~ In x l) by (intros K; apply str_in_iff in K; congruence).
  apply NoDup_app. split; [exact N|]. split; [|apply NoDup_singleton].
  intros y Hy Hy'. apply elem_of_list_singleton in Hy'. subst y. now apply elem_of_list_In in Hy.
Qed.
Lemma remove_first_in x l y : NoDup l -> (In y (remove_first x l) <-> In y l /\ y <> x).
Proof.
  induction l as [|z l IH]; intros N; simpl; [tauto|]. inversion N as [|? ? N1 N2]; subst.
  destruct (String.eqb_spec x z) as [->|Hne].
  - split; [intros H; split; [auto|]|intros [[->|H] K]; [congruence|exact H]].
    intros ->. now apply N1, elem_of_list_In.
  - simpl. rewrite IH by exact N2. split; [intros [->|[H1 H2]]|intros [[->|H1] H2]]; auto.
Qed.
Lemma remove_first_NoDup x l : NoDup l -> NoDup (remove_first x l).
Proof.
  induction l as [|z l IH]; intros N; simpl; [constructor|]. inversion N as [|? ? N1 N2]; subst.
  destruct (String.eqb x z); [exact N2|]. constructor; [|auto]. rewrite elem_of_list_In, remove_first_in by exact N2.
  rewrite <- elem_of_list_In. tauto.
Qed.

Lemma comp_add_package_eff o d c p q d' : place q -> comp_add_package o d c p q = Ok d' ->
  exists cn, c = Some cn /\ cn <> "" /\
  forall c' q', place q' ->
    pkgs_of d' c' q' = (if bool_decide (cn = c' /\ q = q') then append_new p (pkgs_of d c' q') else pkgs_of d c' q') /\
    srcs_of d' c' q' = srcs_of d c' q'.
Proof.
  intros Hp. unfold comp_add_package. destruct c as [cn|]; [|discriminate]. destruct (truthy (Some cn)) eqn:Et; [|discriminate].
  intros H. exists cn. split; [reflexivity|]. split; [intros ->; discriminate Et|].
  unfold has_component, get_component in H. rewrite has_key_place, get_item_place in H by exact Hp. simpl in H. inv_ok H.
  assert (L : c_packages v = pkgs_of d cn q /\ c_sources v = srcs_of d cn q).
  { unfold pkgs_of, srcs_of. destruct (entry d cn q); simpl in E; injection E as <-; auto. }
  destruct L as [L1 L2].
  destruct (add_item_entry d cn (mkComponent (c_name v) (c_info v) (append_new p (c_packages v)) (c_sources v)) q Hp) as (d2 & Ed & S).
  rewrite Ed in H. injection H as <-. intros c' q' Hq'. unfold pkgs_of at 1, srcs_of at 1. rewrite S by exact Hq'.
  destruct (bool_decide (cn = c' /\ q = q')) eqn:B; [|auto]. apply bool_decide_eq_true in B as [<- <-]. simpl. now rewrite L1, L2.
Qed.
Lemma comp_add_spec_eff o d c p q d' : place q -> comp_add_spec o d c p q = Ok d' ->
  exists cn, c = Some cn /\ cn <> "" /\
  forall c' q', place q' ->
    srcs_of d' c' q' = (if bool_decide (cn = c' /\ q = q') then append_new p (srcs_of d c' q') else srcs_of d c' q') /\
    pkgs_of d' c' q' = pkgs_of d c' q'.
Proof.
  intros Hp. unfold comp_add_spec. destruct c as [cn|]; [|discriminate]. destruct (truthy (Some cn)) eqn:Et; [|discriminate].
  intros H. exists cn. split; [reflexivity|]. split; [intros ->; discriminate Et|].
  unfold has_component, get_component in H. rewrite has_key_place, get_item_place in H by exact Hp. simpl in H. inv_ok H.
  assert (L : c_packages v = pkgs_of d cn q /\ c_sources v = srcs_of d cn q).
  { unfold pkgs_of, srcs_of. destruct (entry d cn q); simpl in E; injection E as <-; auto. }
  destruct L as [L1 L2].
  destruct (add_item_entry d cn (mkComponent (c_name v) (c_info v) (c_packages v) (append_new p (c_sources v))) q Hp) as (d2 & Ed & S).
  rewrite Ed in H. injection H as <-. intros c' q' Hq'. unfold pkgs_of at 1, srcs_of at 1. rewrite S by exact Hq'.
  destruct (bool_decide (cn = c' /\ q = q')) eqn:B; [|auto]. apply bool_decide_eq_true in B as [<- <-]. simpl. now rewrite L1, L2.
Qed.
Lemma comp_remove_package_eff o d c p q d' : place q -> comp_remove_package o d c p q = Ok d' ->
  let cn := match c with Some x => x | None => "None" end in
  forall c' q', place q' ->
    pkgs_of d' c' q' = (if bool_decide (cn = c' /\ q = q') then remove_first p (pkgs_of d c' q') else pkgs_of d c' q') /\
    srcs_of d' c' q' = srcs_of d c' q'.
Proof.
  intros Hp. unfold comp_remove_package. set (cn := match c with Some x => x | None => "None" end).
  unfold has_component, get_component. rewrite has_key_place, get_item_place by exact Hp. simpl.
  destruct (entry d cn q) as [x|] eqn:Ex; simpl; [|discriminate]. intros H.
  destruct (add_item_entry d cn (mkComponent (c_name x) (c_info x) (remove_first p (c_packages x)) (c_sources x)) q Hp) as (d2 & Ed & S).
  rewrite Ed in H. injection H as <-. intros c' q' Hq'. unfold pkgs_of, srcs_of. rewrite S by exact Hq'.
  destruct (bool_decide (cn = c' /\ q = q')) eqn:B; [|auto]. apply bool_decide_eq_true in B as [<- <-]. simpl. now rewrite Ex.
Qed.
Lemma update_component_eff o d c q d' : place q -> c_packages c = [] -> c_sources c = [] -> update_component o d c q = Ok d' ->
  forall c' q', place q' ->
    pkgs_of d' c' q' = pkgs_of d c' q' /\
    srcs_of d' c' q' = (if bool_decide (c_name c = c' /\ q = q') then [] else srcs_of d c' q').
Proof.
  intros Hp Hc1 Hc2. unfold update_component, has_component. rewrite has_key_place, get_item_place by exact Hp. simpl.
  destruct (entry d (c_name c) q) as [x|] eqn:Ex; simpl; intros H.
  - destruct (add_item_entry d (c_name c) (mkComponent (c_name c) (c_info c) (c_packages x) (c_sources c)) q Hp) as (d2 & Ed & S).
    rewrite Ed in H. injection H as <-. intros c' q' Hq'. unfold pkgs_of, srcs_of. rewrite S by exact Hq'.
    destruct (bool_decide (c_name c = c' /\ q = q')) eqn:B; [|auto]. apply bool_decide_eq_true in B as [<- <-]. simpl. rewrite Ex. auto.
  - destruct (add_item_entry d (c_name c) c q Hp) as (d2 & Ed & S).
    rewrite Ed in H. injection H as <-. intros c' q' Hq'. unfold pkgs_of, srcs_of. rewrite S by exact Hq'.
    destruct (bool_decide (c_name c = c' /\ q = q')) eqn:B; [|auto]. apply bool_decide_eq_true in B as [<- <-]. simpl. rewrite Ex. auto.
Qed.

(** ** The invariant, in two halves *)
Definition cpk (dp : shelf package) (dc : compdb) : Prop :=
  (forall n q pk, place q -> entry dp n q = Some pk -> p_name pk = n) /\
  forall c q, place q -> NoDup (pkgs_of dc c q) /\
    forall p, In p (pkgs_of dc c q) <-> exists pk, entry dp p q = Some pk /\ p_partOf pk = Some c.
Definition csr (ds : shelf spec) (dc : compdb) : Prop :=
  (forall n q sp, place q -> entry ds n q = Some sp -> sp_name sp = n) /\
  forall c q, place q ->
    forall p, In p (srcs_of dc c q) <-> exists sp, entry ds p q = Some sp /\ sp_partOf sp = Some c.
Definition same_srcs (dc dc' : compdb) : Prop := forall c q, place q -> srcs_of dc' c q = srcs_of dc c q.
Definition same_pkgs (dc dc' : compdb) : Prop := forall c q, place q -> pkgs_of dc' c q = pkgs_of dc c q.

Lemma cpk_ext dp dc dc' : same_pkgs dc dc' -> cpk dp dc -> cpk dp dc'.
Proof. intros E [H1 H2]. split; [exact H1|]. intros c q Hq. rewrite E by exact Hq. auto. Qed.
Lemma csr_ext ds dc dc' : same_srcs dc dc' -> csr ds dc -> csr ds dc'.
Proof. intros E [H1 H2]. split; [exact H1|]. intros c q Hq. rewrite E by exact Hq. auto. Qed.

Lemma add_package_cpk s p q s' : place q -> cpk (db_pkg s) (db_comp s) ->
  (forall old, entry (db_pkg s) (p_name p) q = Some old -> p_partOf old = p_partOf p) ->
  add_package s p q = Ok s' ->
  cpk (db_pkg s') (db_comp s') /\ same_srcs (db_comp s) (db_comp s') /\ db_src s' = db_src s.
Proof.
  intros Hp [I1 I2] Hold H. pose proof (add_package_entries _ _ _ _ Hp H) as S.
  unfold add_package in H. inv_ok H. injection H as <-. simpl in *.
  destruct (comp_add_package_eff _ _ _ _ _ _ Hp E2) as (cn & Hc & Hcn & C).
  split; [|split; [intros c' q' Hq'; now apply C|reflexivity]].
  split.
  - intros n q' pk Hq'. rewrite S by exact Hq'. destruct (bool_decide _) eqn:B; [|apply I1; exact Hq'].
    apply bool_decide_eq_true in B as [<- _]. now intros [= <-].
  - intros c q' Hq'. destruct (C c q' Hq') as [-> _]. destruct (I2 c q' Hq') as [N1 N2]. split.
    + destruct (bool_decide _); [now apply append_new_nodup|exact N1].
    + intros pp. rewrite S by exact Hq'. destruct (bool_decide (p_name p = pp /\ q = q')) eqn:B.
      * apply bool_decide_eq_true in B as [<- <-]. destruct (bool_decide (cn = c /\ q = q)) eqn:B2.
        -- apply bool_decide_eq_true in B2 as [<- _]. rewrite append_new_in. split; [|auto]. intros _. eauto.
        -- apply bool_decide_eq_false in B2. rewrite N2. split.
           ++ intros (old & K1 & K2). exfalso. apply B2. split; [|reflexivity]. rewrite (Hold old K1), Hc in K2. congruence.
           ++ intros (pk & [= <-] & K2). exfalso. apply B2. split; [|reflexivity]. congruence.
      * apply bool_decide_eq_false in B. rewrite <- N2. destruct (bool_decide (cn = c /\ q = q')) eqn:B2; [|reflexivity].
        apply bool_decide_eq_true in B2 as [<- <-]. rewrite append_new_in. split; [|auto]. intros [K| ->]; [exact K|]. exfalso. now apply B.
Qed.

Lemma remove_package_cpk s n q s' : place q -> cpk (db_pkg s) (db_comp s) -> remove_package s n q = Ok s' ->
  cpk (db_pkg s') (db_comp s') /\ same_srcs (db_comp s) (db_comp s') /\ db_src s' = db_src s.
Proof.
  intros Hp [I1 I2] H. unfold remove_package in H. inv_ok H. injection H as <-. simpl in *.
  rename v into pk. apply entry_get in E; [|exact Hp]. pose proof (I1 _ _ _ Hp E) as Hn.
  pose proof (remove_item_entry _ _ _ _ _ Hp E0) as S.
  match goal with K : comp_remove_package _ _ _ _ _ = Ok _ |- _ => pose proof (comp_remove_package_eff _ _ _ _ _ _ Hp K) as C end.
  cbv zeta in C. split; [|split; [intros c' q' Hq'; now apply C|reflexivity]].
  split.
  - intros m q' pk' Hq'. rewrite S by exact Hq'. destruct (bool_decide _); [discriminate|]. apply I1; exact Hq'.
  - intros c q' Hq'. destruct (C c q' Hq') as [-> _]. destruct (I2 c q' Hq') as [N1 N2]. rewrite Hn. split.
    + destruct (bool_decide _); [now apply remove_first_NoDup|exact N1].
    + intros pp. rewrite S by exact Hq'. destruct (bool_decide (n = pp /\ q = q')) eqn:B.
      * apply bool_decide_eq_true in B as [<- <-].
        transitivity False; [|split; [intros []|intros (x & K & _); discriminate K]].
        destruct (bool_decide _) eqn:B2.
        -- rewrite remove_first_in by exact N1. tauto.
        -- rewrite N2. split; [|intros []]. intros (pk' & K1 & K2). assert (pk' = pk) as -> by congruence.
           apply bool_decide_eq_false in B2. apply B2. rewrite K2. auto.
      * apply bool_decide_eq_false in B. rewrite <- N2. destruct (bool_decide _) eqn:B2; [|reflexivity].
        apply bool_decide_eq_true in B2 as [<- <-]. rewrite remove_first_in by exact N1. split; [tauto|].
        intros K. split; [exact K|]. intros ->. now apply B.
Qed.

Lemma add_spec_csr s p q s' : place q -> csr (db_src s) (db_comp s) ->
  (forall old, entry (db_src s) (sp_name p) q = Some old -> sp_partOf old = sp_partOf p) ->
  add_spec s p q = Ok s' ->
  csr (db_src s') (db_comp s') /\ same_pkgs (db_comp s) (db_comp s') /\ db_pkg s' = db_pkg s /\
  (forall n q', place q' -> entry (db_src s') n q' = if bool_decide (sp_name p = n /\ q = q') then Some p else entry (db_src s) n q').
Proof.
  intros Hp [I1 I2] Hold H. unfold add_spec in H. inv_ok H. injection H as <-. simpl in *.
  destruct (add_item_entry (db_src s) (sp_name p) p q Hp) as (d2 & Ed & S). rewrite Ed in E. injection E as <-.
  destruct (comp_add_spec_eff _ _ _ _ _ _ Hp E1) as (cn & Hc & Hcn & C).
  split; [|split; [intros c' q' Hq'; now apply C|split; [reflexivity|exact S]]].
  split.
  - intros n q' pk Hq'. rewrite S by exact Hq'. destruct (bool_decide _) eqn:B; [|apply I1; exact Hq'].
    apply bool_decide_eq_true in B as [<- _]. now intros [= <-].
  - intros c q' Hq'. destruct (C c q' Hq') as [-> _]. pose proof (I2 c q' Hq') as N2.
    intros pp. rewrite S by exact Hq'. destruct (bool_decide (sp_name p = pp /\ q = q')) eqn:B.
    + apply bool_decide_eq_true in B as [<- <-]. destruct (bool_decide (cn = c /\ q = q)) eqn:B2.
      * apply bool_decide_eq_true in B2 as [<- _]. rewrite append_new_in. split; [|auto]. intros _. eauto.
      * apply bool_decide_eq_false in B2. rewrite N2. split.
        -- intros (old & K1 & K2). exfalso. apply B2. split; [|reflexivity]. rewrite (Hold old K1), Hc in K2. congruence.
        -- intros (pk & [= <-] & K2). exfalso. apply B2. split; [|reflexivity]. congruence.
    + apply bool_decide_eq_false in B. rewrite <- N2. destruct (bool_decide (cn = c /\ q = q')) eqn:B2; [|reflexivity].
      apply bool_decide_eq_true in B2 as [<- <-]. rewrite append_new_in. split; [|auto]. intros [K| ->]; [exact K|]. exfalso. now apply B.
Qed.

Lemma cpk_remove_repo dp dp' dc dc' q : place q -> same_but q dp dp' ->
  (forall c q', place q' -> pkgs_of dc' c q' = if bool_decide (q' = q) then [] else pkgs_of dc c q') -> cpk dp dc -> cpk dp' dc'.
Proof.
  intros Hp S1 S2 [I1 I2]. split.
  - intros n q' pk Hq'. rewrite S1 by exact Hq'. destruct (bool_decide _); [discriminate|]. apply I1; exact Hq'.
  - intros c q' Hq'. rewrite S2 by exact Hq'. destruct (bool_decide (q' = q)) eqn:B.
    + split; [constructor|]. intros p. rewrite S1, B by exact Hq'. split; [intros []|intros (x & K & _); discriminate K].
    + destruct (I2 c q' Hq') as [N1 N2]. split; [exact N1|]. intros p. rewrite S1, B by exact Hq'. apply N2.
Qed.
Lemma csr_remove_repo ds ds' dc dc' q : place q -> same_but q ds ds' ->
  (forall c q', place q' -> srcs_of dc' c q' = if bool_decide (q' = q) then [] else srcs_of dc c q') -> csr ds dc -> csr ds' dc'.
Proof.
  intros Hp S1 S2 [I1 I2]. split.
  - intros n q' pk Hq'. rewrite S1 by exact Hq'. destruct (bool_decide _); [discriminate|]. apply I1; exact Hq'.
  - intros c q' Hq' p. rewrite S1, S2 by exact Hq'. destruct (bool_decide (q' = q)) eqn:B.
    + split; [intros []|intros (x & K & _); discriminate K].
    + now apply I2.
Qed.
Lemma same_but_lists q dc dc' : same_but q dc dc' ->
  (forall c q', place q' -> pkgs_of dc' c q' = if bool_decide (q' = q) then [] else pkgs_of dc c q') /\
  (forall c q', place q' -> srcs_of dc' c q' = if bool_decide (q' = q) then [] else srcs_of dc c q').
Proof.
  intros S. split; intros c q' Hq'; unfold pkgs_of, srcs_of; rewrite S by exact Hq'; destruct (bool_decide (q' = q)); reflexivity.
Qed.

(** folding over an index *)
Lemma add_packages_cpk q all : place q ->
  (forall p p', In p all -> In p' all -> p_name p = p_name p' -> p_partOf p = p_partOf p') ->
  forall ps s s', (forall p, In p ps -> In p all) -> cpk (db_pkg s) (db_comp s) ->
  (forall n pk, entry (db_pkg s) n q = Some pk -> In pk all) ->
  foldM (fun s p => add_package s p q) ps s = Ok s' ->
  cpk (db_pkg s') (db_comp s') /\ same_srcs (db_comp s) (db_comp s') /\ db_src s' = db_src s.
Proof.
  intros Hp Hf. induction ps as [|p ps IH]; intros s s' Hsub I Hent; simpl.
  - intros [= <-]. split; [exact I|]. split; [intros c' q' _; reflexivity|reflexivity].
  - rewrite bind_ok. intros (s1 & E & E').
    destruct (add_package_cpk s p q s1 Hp I) as (A1 & A2 & A3); [|exact E|].
    { intros old K. apply Hf; [eauto|apply Hsub; now left|]. destruct I as [I1 _]. now apply (I1 _ _ _ Hp) in K. }
    destruct (IH s1 s') as (B1 & B2 & B3); [intros; apply Hsub; now right|exact A1| |exact E'|].
    { intros n pk. rewrite (add_package_entries _ _ _ _ Hp E) by exact Hp. destruct (bool_decide _); [|apply Hent].
      intros [= <-]. apply Hsub. now left. }
    split; [exact B1|]. split; [|congruence]. intros c' q' Hq'. rewrite B2, A2 by exact Hq'. reflexivity.
Qed.
Lemma add_specs_csr q all : place q ->
  (forall p p', In p all -> In p' all -> sp_name p = sp_name p' -> sp_partOf p = sp_partOf p') ->
  forall ps s s', (forall p, In p ps -> In p all) -> csr (db_src s) (db_comp s) ->
  (forall n pk, entry (db_src s) n q = Some pk -> In pk all) ->
  foldM (fun s p => add_spec s p q) ps s = Ok s' ->
  csr (db_src s') (db_comp s') /\ same_pkgs (db_comp s) (db_comp s') /\ db_pkg s' = db_pkg s.
Proof.
  intros Hp Hf. induction ps as [|p ps IH]; intros s s' Hsub I Hent; simpl.
  - intros [= <-]. split; [exact I|]. split; [intros c' q' _; reflexivity|reflexivity].
  - rewrite bind_ok. intros (s1 & E & E').
    destruct (add_spec_csr s p q s1 Hp I) as (A1 & A2 & A3 & A4); [|exact E|].
    { intros old K. apply Hf; [eauto|apply Hsub; now left|]. destruct I as [I1 _]. now apply (I1 _ _ _ Hp) in K. }
    destruct (IH s1 s') as (B1 & B2 & B3); [intros; apply Hsub; now right|exact A1| |exact E'|].
    { intros n pk. rewrite A4 by exact Hp. destruct (bool_decide _); [|apply Hent].
      intros [= <-]. apply Hsub. now left. }
    split; [exact B1|]. split; [|congruence]. intros c' q' Hq'. rewrite B2, A2 by exact Hq'. reflexivity.
Qed.
Lemma update_components_eff q cs : place q -> (forall c, In c cs -> c_packages c = [] /\ c_sources c = []) ->
  forall s s', (forall c, srcs_of (db_comp s) c q = []) ->
  foldM (fun s c => cd <- update_component (order_of s) (db_comp s) c q ;; Ok (set_comp s cd)) cs s = Ok s' ->
  same_pkgs (db_comp s) (db_comp s') /\ same_srcs (db_comp s) (db_comp s') /\ db_pkg s' = db_pkg s /\ db_src s' = db_src s.
Proof.
  intros Hp Hc. induction cs as [|c cs IH]; intros s s' Hs; simpl.
  - intros [= <-]. repeat split; intros c' q' _; reflexivity.
  - intros H. apply bind_ok in H as (s1 & E & E'). inv_ok E. injection E as <-. destruct (Hc c) as [H1 H2]; [now left|].
    pose proof (update_component_eff _ _ _ _ _ Hp H1 H2 E0) as U.
    assert (Us : same_srcs (db_comp s) v).
    { intros c' q' Hq'. destruct (U c' q' Hq') as [_ ->]. destruct (bool_decide _) eqn:B; [|reflexivity].
      apply bool_decide_eq_true in B as [<- <-]. now rewrite Hs. }
    destruct (IH ltac:(intros; apply Hc; now right) (set_comp s v) s') as (A1 & A2 & A3 & A4); [|exact E'|].
    { intros c'. simpl. now rewrite Us. }
    simpl in *. repeat split; auto.
    + intros c' q' Hq'. rewrite A1 by exact Hq'. now apply U.
    + intros c' q' Hq'. rewrite A2 by exact Hq'. now apply Us.
Qed.

Definition compinv (s : dbs) : Prop := cpk (db_pkg s) (db_comp s) /\ csr (db_src s) (db_comp s).

Lemma apply_op_compinv s o s' : inv s -> component_careful s o -> compinv s -> apply_op s o = Ok s' -> compinv s'.
Proof.
  intros HI C [Ik Is]. pose proof (place_inst) as Pi. pose proof place_third as Pt.
  destruct o as [n u p|n|n ix|p|p|n]; simpl.
  - unfold op_add_repo. destruct (has_repo _ n); [discriminate|]. unfold add_repo. intros H. inv_ok H. injection H as <-. split; assumption.
  - unfold op_remove_repo. destruct (has_repo _ n) eqn:E; [|intros [= <-]; split; assumption].
    intros H. destruct HI as [Hr Hs]. apply has_repo_spec in E. apply (proj2 Hr) in E.
    destruct (repo_remove_ok _ n Hr E) as (rd & E' & R1 & R2).
    destruct (remove_repo_ok _ s n rd Hs E') as (s1 & K & Q1 & Q2 & S1 & S2 & S3 & S4 & S5). rewrite K in H. injection H as <-.
    destruct (same_but_lists _ _ _ S5) as [L1 L2]. pose proof (place_name n) as Hp.
    split; [eapply cpk_remove_repo; eauto|eapply csr_remove_repo; eauto].
  - unfold op_update_repo. destruct (has_repo _ n) eqn:E; [|discriminate]. intros H.
    destruct HI as [Hr Hs]. apply has_repo_spec in E. apply (proj2 Hr) in E. pose proof (place_name n) as Hp.
    destruct C as (C1 & C2 & C3). unfold update_db in H.
    destruct (comp_remove_repo_ok _ s _ Hs Hp) as (s1 & K1 & A1 & _ & A5 & A2 & A3 & A4 & A6 & A7). rewrite K1 in H. simpl in H. inv_ok H.
    destruct (same_but_lists _ _ _ A5) as [L1 L2].
    destruct (update_components_eff (RName n) (ix_components ix) Hp C1 s1 v) as (U1 & U2 & U3 & U4); [|exact E0|].
    { intros c. rewrite L2 by exact Hp. now rewrite bool_decide_true. }
    assert (B2 : shelves_ok (order_of s) v).
    { eapply (foldM_inv (shelves_ok (order_of s))); [|exact A1|exact E0].
      intros t c t' _ [] H'. inv_ok H'. injection H' as <-. constructor; simpl; auto.
      eapply update_component_good; eauto. split; [exact Hp|intros r [= <-]; exact E]. }
    destruct (pkg_remove_repo_ok _ v _ B2 Hp) as (s2 & E' & B3 & _ & _ & S1 & S2 & V1 & V2 & V3 & V4). rewrite E' in E1. injection E1 as <-.
    assert (I2 : cpk (db_pkg s2) (db_comp s2)).
    { eapply (cpk_remove_repo (db_pkg s) _ (db_comp s) _ (RName n) Hp); [| |exact Ik].
      - intros m q' Hq'. rewrite S1 by exact Hq'. now rewrite U3, A3.
      - intros c q' Hq'. rewrite V4, U1 by exact Hq'. now apply L1. }
    destruct (add_packages_cpk (RName n) (ix_packages ix) Hp C2 (ix_packages ix) s2 v1) as (W1 & W2 & W3); [auto|exact I2| |exact E2|].
    { intros m pk K. rewrite S1 in K by exact Hp. rewrite bool_decide_true in K by reflexivity. discriminate K. }
    assert (B4 : shelves_ok (order_of s) v1).
    { eapply (foldM_inv (shelves_ok (order_of s))); [|exact B3|exact E2].
      intros t c t' _ Ht H'. eapply add_package_ok; [exact Ht| |exact H']. split; [exact Hp|intros r [= <-]; exact E]. }
    destruct (src_remove_repo_ok _ v1 _ B4 Hp) as (s3 & E4 & _ & _ & _ & T1 & _ & X1 & X2 & _ & X3). rewrite E4 in E3. injection E3 as <-.
    assert (I3 : csr (db_src s3) (db_comp s3)).
    { eapply (csr_remove_repo (db_src s) _ (db_comp s) _ (RName n) Hp); [| |exact Is].
      - intros m q' Hq'. rewrite T1 by exact Hq'. now rewrite W3, V2, U4, A6.
      - intros c q' Hq'. rewrite X3, W2, V4, U2 by exact Hq'. now apply L2. }
    destruct (add_specs_csr (RName n) (ix_specs ix) Hp C3 (ix_specs ix) s3 s') as (Y1 & Y2 & Y3); [auto|exact I3| |exact H|].
    { intros m pk K. rewrite T1 in K by exact Hp. rewrite bool_decide_true in K by reflexivity. discriminate K. }
    split; [|exact Y1]. rewrite Y3, X2. eapply cpk_ext; [exact Y2|]. rewrite X3. exact W1.
  - intros H. destruct (add_package_cpk s p RInst s' Pi Ik) as (A1 & A2 & A3); [|exact H|].
    { intros old K. apply C. now apply get_package_place. }
    split; [exact A1|]. rewrite A3. eapply csr_ext; eauto.
  - intros H. destruct (add_package_cpk s p RThird s' Pt Ik) as (A1 & A2 & A3); [|exact H|].
    { intros old K. apply C. now apply get_package_place. }
    split; [exact A1|]. rewrite A3. eapply csr_ext; eauto.
  - unfold remove_tracking_package. intros H. inv_ok H.
    assert (G : forall t q t', place q -> compinv t -> remove_package t n q = Ok t' -> compinv t').
    { intros t q t' Hq [T1 T2] K. destruct (remove_package_cpk t n q t' Hq T1 K) as (A1 & A2 & A3).
      split; [exact A1|]. rewrite A3. eapply csr_ext; eauto. }
    assert (I0 : compinv v0).
    { destruct v; [eapply (G s RInst); eauto; split; assumption|]. injection E0 as <-. split; assumption. }
    destruct v1; [eapply (G v0 RThird); eauto|]. injection H as <-. exact I0.
Qed.

Lemma compinv_empty : compinv empty_dbs.
Proof.
  split; split.
  - intros n q pk _ H. discriminate H.
  - intros c q _. split; [constructor|]. intros p. split; [intros []|]. intros (pk & H & _). discriminate H.
  - intros n q pk _ H. discriminate H.
  - intros c q _ p. split; [intros []|]. intros (pk & H & _). discriminate H.
Qed.
Lemma history_compinv s : history_where component_careful s -> compinv s.
Proof.
  induction 1 as [|s o s' H IH C E]; [apply compinv_empty|]. eapply apply_op_compinv; eauto. eapply history_inv; eauto.
Qed.

Lemma lists_package_iff s c q p : place q -> (lists_package s c q p <-> In p (pkgs_of (db_comp s) c q)).
Proof.
  intros Hp. unfold lists_package, get_component, pkgs_of. rewrite get_item_place by exact Hp. destruct (entry (db_comp s) c q); split.
  - intros (x & [= <-] & H). exact H. - eauto. - intros (x & H & _). discriminate H. - intros [].
Qed.
Lemma lists_source_iff s c q p : place q -> (lists_source s c q p <-> In p (srcs_of (db_comp s) c q)).
Proof.
  intros Hp. unfold lists_source, get_component, srcs_of. rewrite get_item_place by exact Hp. destruct (entry (db_comp s) c q); split.
  - intros (x & [= <-] & H). exact H. - eauto. - intros (x & H & _). discriminate H. - intros [].
Qed.

Lemma components_exact_careful s : history_where component_careful s -> components_exact s.
Proof.
  intros H. destruct (history_compinv s H) as [[_ I] [_ J]]. intros c q p Hq. split.
  - rewrite lists_package_iff by exact Hq. destruct (I c q Hq) as [_ I2]. rewrite I2. unfold recorded.
    setoid_rewrite get_package_place; [reflexivity|exact Hq].
  - rewrite lists_source_iff by exact Hq. rewrite (J c q Hq). setoid_rewrite (entry_get (order_of s) (db_src s) p q); [reflexivity|exact Hq].
Qed.

(** ** the union component *)
Lemma union_fold d c order : forall acc : gset string * gset string,
  forall s, d !! c = Some s ->
  let r := fold_left (fun acc k => match s !! k with
                     | Some c => (acc.1 ∪ list_to_set (c_packages c), acc.2 ∪ list_to_set (c_sources c))
                     | None => acc end) (map pkey (map RName order)) acc in
  (forall p, p ∈ r.1 <-> p ∈ acc.1 \/ exists r, In r order /\ In p (pkgs_of d c (RName r))) /\
  (forall p, p ∈ r.2 <-> p ∈ acc.2 \/ exists r, In r order /\ In p (srcs_of d c (RName r))).
Proof.
  induction order as [|o order IH]; intros acc s Es; simpl.
  - split; intros p; (split; [auto|]; intros [H|(r & [] & _)]; exact H).
  - cbv zeta in IH. unfold pkgs_of, srcs_of, entry in *. rewrite Es in *. simpl in *.
    destruct (s !! ("repo-" +:+ o)) as [x|] eqn:Eo.
    + destruct (IH (acc.1 ∪ list_to_set (c_packages x), acc.2 ∪ list_to_set (c_sources x)) s eq_refl) as [H1 H2]. clear IH.
      split; intros p; rewrite ?H1, ?H2; simpl; rewrite elem_of_union, elem_of_list_to_set, elem_of_list_In; split.
      * intros [[K|K]|(r & K1 & K2)]; [auto| |]; right; [exists o|exists r]; [rewrite Eo|]; auto.
      * intros [K|(r & [<-|K1] & K2)]; [auto|rewrite Eo in K2; auto|]. right. eauto.
      * intros [[K|K]|(r & K1 & K2)]; [auto| |]; right; [exists o|exists r]; [rewrite Eo|]; auto.
      * intros [K|(r & [<-|K1] & K2)]; [auto|rewrite Eo in K2; auto|]. right. eauto.
    + destruct (IH acc s eq_refl) as [H1 H2]. clear IH. split; intros p; rewrite ?H1, ?H2; split.
      * intros [K|(r & K1 & K2)]; [auto|right; exists r; auto].
      * intros [K|(r & [<-|K1] & K2)]; [auto|rewrite Eo in K2; destruct K2|right; eauto].
      * intros [K|(r & K1 & K2)]; [auto|right; exists r; auto].
      * intros [K|(r & [<-|K1] & K2)]; [auto|rewrite Eo in K2; destruct K2|right; eauto].
Qed.

Lemma get_union_comp_spec s c comp : get_union_comp (order_of s) (db_comp s) c = Ok comp ->
  (forall p, In p (c_packages comp) <-> exists r, In r (order_of s) /\ lists_package s c (RName r) p) /\
  (forall p, In p (c_sources comp) <-> exists r, In r (order_of s) /\ lists_source s c (RName r) p) /\
  NoDup (c_packages comp) /\ NoDup (c_sources comp).
Proof.
  unfold get_union_comp. rewrite repo_order_cands by (unfold place; intuition congruence). simpl.
  destruct (db_comp s !! c) as [m|] eqn:Em; [|destruct (order_of s); simpl; [|discriminate]].
  - intros H. inv_ok H. injection H as <-. simpl.
    destruct (union_fold (db_comp s) c (order_of s) (∅, ∅) m Em) as [H1 H2].
    assert (PL : forall r p, lists_package s c (RName r) p <-> In p (pkgs_of (db_comp s) c (RName r))) by (intros; apply lists_package_iff, place_name).
    assert (SL : forall r p, lists_source s c (RName r) p <-> In p (srcs_of (db_comp s) c (RName r))) by (intros; apply lists_source_iff, place_name).
    split; [|split; [|split; apply NoDup_elements]].
    + intros p. rewrite <- elem_of_list_In, elem_of_elements, H1. simpl. setoid_rewrite PL. split; [intros [K|K]; [set_solver|exact K]|auto].
    + intros p. rewrite <- elem_of_list_In, elem_of_elements, H2. simpl. setoid_rewrite SL. split; [intros [K|K]; [set_solver|exact K]|auto].
  - unfold get_component, get_item, get_item_repo. rewrite Em. discriminate.
Qed.
Lemma get_union_comp_ok s c : reachable s -> has_component (db_comp s) c RRepos = Ok true ->
  exists comp, get_union_comp (order_of s) (db_comp s) c = Ok comp.
Proof.
  intros H Hc. destruct (system_agree s c RRepos H) as (_ & _ & _ & A & _). destruct (proj1 (proj1 A) Hc) as [x Hx].
  unfold get_union_comp. rewrite repo_order_cands by (unfold place; intuition congruence). simpl.
  destruct (db_comp s !! c) as [m|] eqn:Em.
  - rewrite Hx. simpl. eauto.
  - unfold get_component, get_item, get_item_repo in Hx. rewrite Em in Hx. discriminate Hx.
Qed.

Lemma foldM_total {A S} (f : S -> A -> res S) l : (forall s x, In x l -> exists s', f s x = Ok s') -> forall s, exists s', foldM f l s = Ok s'.
Proof.
  induction l as [|x l IH]; intros H s; simpl; [eauto|]. destruct (H s x) as [s1 ->]; [now left|]. simpl. apply IH. intros. apply H. now right.
Qed.

(** A name stands for itself unless it is a component some repository knows. *)
Lemma expand_gen s (sel : component -> list string) (L : string -> string -> Prop) A : reachable s ->
  (forall c comp, get_union_comp (order_of s) (db_comp s) c = Ok comp -> forall p, In p (sel comp) <-> L c p) ->
  exists R, foldM (fun (Ap : gset string) x =>
           b <- has_component (db_comp s) x RRepos ;;
           if b : bool then comp <- get_union_comp (order_of s) (db_comp s) x ;; Ok (Ap ∪ list_to_set (sel comp))
           else Ok (Ap ∪ {[x]})) A ∅ = Ok R /\
  forall p, p ∈ R <-> exists x, In x A /\
    ((has_component (db_comp s) x RRepos = Ok false /\ p = x) \/
     (has_component (db_comp s) x RRepos = Ok true /\ L x p)).
Proof.
  intros H HL.
  assert (G : forall acc, exists R, foldM (fun (Ap : gset string) x =>
           b <- has_component (db_comp s) x RRepos ;;
           if b : bool then comp <- get_union_comp (order_of s) (db_comp s) x ;; Ok (Ap ∪ list_to_set (sel comp))
           else Ok (Ap ∪ {[x]})) A acc = Ok R /\
    forall p, p ∈ R <-> p ∈ acc \/ exists x, In x A /\
    ((has_component (db_comp s) x RRepos = Ok false /\ p = x) \/
     (has_component (db_comp s) x RRepos = Ok true /\ L x p))).
  { induction A as [|x A IH]; intros acc; cbn [foldM In].
    - exists acc. split; [reflexivity|]. intros p. split; [auto|]. intros [K|(x & [] & _)]; exact K.
    - destruct (has_component (db_comp s) x RRepos) as [b|] eqn:Eb; [|discriminate Eb]. cbn [bind]. destruct b.
      + destruct (get_union_comp_ok s x H Eb) as [comp Ec]. rewrite Ec. cbn [bind].
        pose proof (HL x comp Ec) as U.
        destruct (IH (acc ∪ list_to_set (sel comp))) as (R & ER & HR). exists R. split; [exact ER|].
        intros p. rewrite HR, elem_of_union, elem_of_list_to_set, elem_of_list_In, U. split.
        * intros [[K|K]|(y & K1 & K2)]; [auto| |]; right; [exists x|exists y]; auto.
        * intros [K|(y & [<-|K1] & K2)]; [auto| |right; eauto]. destruct K2 as [[K2 _]|[_ K2]]; [congruence|auto].
      + destruct (IH (acc ∪ {[x]})) as (R & ER & HR). exists R. split; [exact ER|].
        intros p. rewrite HR, elem_of_union, elem_of_singleton. split.
        * intros [[K|K]|(y & K1 & K2)]; [auto| |]; right; [exists x|exists y]; auto.
        * intros [K|(y & [<-|K1] & K2)]; [auto| |right; eauto]. destruct K2 as [[_ K2]|[K2 _]]; [auto|congruence]. }
  destruct (G ∅) as (R & E & HR). exists R. split; [exact E|]. intros p. rewrite HR. split; [intros [K|K]; [set_solver|exact K]|auto].
Qed.
Lemma expand_spec s A : reachable s -> exists R, expand_components (order_of s) (db_comp s) A = Ok R /\
  forall p, p ∈ R <-> exists x, In x A /\
    ((has_component (db_comp s) x RRepos = Ok false /\ p = x) \/
     (has_component (db_comp s) x RRepos = Ok true /\ exists r, In r (order_of s) /\ lists_package s x (RName r) p)).
Proof. intros H. apply (expand_gen s c_packages _ A H). intros c comp Hc. now apply get_union_comp_spec. Qed.
Lemma expand_src_spec s A : reachable s -> exists R, expand_src_components (order_of s) (db_comp s) A = Ok R /\
  forall p, p ∈ R <-> exists x, In x A /\
    ((has_component (db_comp s) x RRepos = Ok false /\ p = x) \/
     (has_component (db_comp s) x RRepos = Ok true /\ exists r, In r (order_of s) /\ lists_source s x (RName r) p)).
Proof. intros H. apply (expand_gen s c_sources _ A H). intros c comp Hc. now apply get_union_comp_spec. Qed.

(** ** without care *)
Definition pkg_in (name c : string) : package :=
  mkPackage name "1" "1" None [] [] [] (Some c) [] [] [] false "".
(** A third-party package installed again after it moved to another component. *)
Definition moved : dbs := run_ops [OThirdParty (pkg_in "nano" "editor"); OThirdParty (pkg_in "nano" "system.base")].
Lemma moved_inexact : reachable moved /\ ~ components_exact moved.
Proof.
  split; [apply run_ops_reachable|]. intros H. destruct (H "editor" RThird "nano" place_third) as [[K _] _].
  destruct K as (pk & K1 & K2).
  - exists (mkComponent "editor" "" ["nano"] []). split; [vm_compute; reflexivity|now left].
  - assert (E : get_package moved "nano" RThird = Ok (pkg_in "nano" "system.base")) by (vm_compute; reflexivity).
    unfold recorded in K1. rewrite E in K1. injection K1 as <-. discriminate K2.
Qed.
