From Coq Require Import String List ZArith.
From stdpp Require Import gmap strings.
From Verif Require Import Model.Py Model.ItemByRepo Model.Dependency Model.Package Model.Databases Model.InstallDB Model.System
  Spec.ItemByRepoSpec Spec.DependencySpec Spec.DatabaseSpec Spec.SystemSpec
  Proof.ItemByRepoFacts Proof.ItemByRepoMain Proof.DependencyFacts Proof.DatabaseFacts Proof.RevDepFacts Proof.SearchSystem Proof.InstallDBFacts.
Open Scope string_scope.

(** ** Files *)
Lemma remove_files_lookup files path : forall db : filesdb,
  (In path (map f_path files) -> remove_files db files !! path = None) /\
  (~ In path (map f_path files) -> remove_files db files !! path = db !! path).
Proof.
  induction files as [|f files IH]; intros db; simpl; [split; [intros []|reflexivity]|].
  destruct (IH (delete (f_path f) db)) as [I1 I2]. destruct (in_dec string_dec path (map f_path files)) as [K|K].
  - split; [intros _; now apply I1|intros N; exfalso; apply N; auto].
  - unfold remove_files in *. split.
    + intros [E|E]; [|contradiction]. rewrite I2 by exact K. rewrite E. apply lookup_delete.
    + intros N. rewrite I2 by exact K. rewrite lookup_delete_ne; [reflexivity|]. intros E. apply N. auto.
Qed.
Lemma add_files_lookup files n path : forall db : filesdb,
  (In path (map f_path files) -> exists f, In f files /\ f_path f = path /\ add_files db n files !! path = Some (n, f)) /\
  (~ In path (map f_path files) -> add_files db n files !! path = db !! path).
Proof.
  induction files as [|f files IH]; intros db; simpl; [split; [intros []|reflexivity]|].
  destruct (IH (<[f_path f := (n, f)]> db)) as [I1 I2]. destruct (in_dec string_dec path (map f_path files)) as [K|K].
  - split; [intros _|intros N; exfalso; apply N; auto]. destruct (I1 K) as (g & G1 & G2 & G3). exists g. auto.
  - unfold add_files in *. split.
    + intros [E|E]; [|contradiction]. exists f. rewrite I2 by exact K. rewrite <- E, lookup_insert. auto.
    + intros N. rewrite I2 by exact K. rewrite lookup_insert_ne; [reflexivity|]. intros E. apply N. auto.
Qed.

(** ** The invariant *)
Record yinv (s : sys) : Prop := mkYinv {
  yi_reach : reachable (y_db s);
  yi_agree : forall n, is_installed (y_inst s) n = true <-> is_Some (entry (db_pkg (y_db s)) n RInst);
  yi_info : forall n pk, entry (db_pkg (y_db s)) n RInst = Some pk -> p_name pk = n /\
     exists st, id_d (y_inst s) !! n = Some (mkInfo st (p_version pk) (p_release pk) (p_build pk) (p_distribution pk));
  yi_lists : forall n info, is_installed (y_inst s) n = true -> id_d (y_inst s) !! n = Some info ->
     exists l, y_lists s !! (n, i_version info, i_release info) = Some l;
  yi_files : forall path n f, y_files s !! path = Some (n, f) -> is_installed (y_inst s) n = true /\
     exists files, list_of s n = Ok files /\ In f files /\ f_path f = path
}.

Lemma decide_agree {A} (P Q : Prop) `{Decision P, Decision Q} (x y : A) : (P <-> Q) ->
  (if bool_decide P then x else y) = if bool_decide Q then x else y.
Proof. intros E. destruct (bool_decide P) eqn:EP; destruct (bool_decide Q) eqn:EQ; try reflexivity.
  - apply bool_decide_eq_true in EP. apply bool_decide_eq_false in EQ. tauto.
  - apply bool_decide_eq_false in EP. apply bool_decide_eq_true in EQ. tauto.
Qed.
Lemma forget_entries d n d' : remove_tracking_package d n = Ok d' ->
  forall m q, place q -> entry (db_pkg d') m q = if bool_decide (m = n /\ (q = RInst \/ q = RThird)) then None else entry (db_pkg d) m q.
Proof.
  intros H m q Hq. unfold remove_tracking_package, has_package in H. inv_ok H.
  rewrite has_key_place in E by apply place_inst. injection E as <-.
  assert (A : forall m q, place q -> entry (db_pkg v0) m q = if bool_decide (m = n /\ q = RInst) then None else entry (db_pkg d) m q).
  { clear m q Hq. intros m q Hq. destruct (entry (db_pkg d) n RInst) eqn:X; simpl in E0.
    - destruct (remove_package_idx _ _ _ _ place_inst E0) as (p' & _ & _ & B & _). rewrite B by exact Hq.
      apply decide_agree. intuition congruence.
    - injection E0 as <-. destruct (decide (m = n /\ q = RInst)) as [[-> ->]|K]; [rewrite bool_decide_true by auto; exact X|now rewrite bool_decide_false]. }
  rewrite has_key_place in E1 by apply place_third. injection E1 as <-.
  assert (B : forall m q, place q -> entry (db_pkg d') m q = if bool_decide (m = n /\ q = RThird) then None else entry (db_pkg v0) m q).
  { clear m q Hq. intros m q Hq. destruct (entry (db_pkg v0) n RThird) eqn:X; simpl in H.
    - destruct (remove_package_idx _ _ _ _ place_third H) as (p' & _ & _ & B & _). rewrite B by exact Hq.
      apply decide_agree. intuition congruence.
    - injection H as <-. destruct (decide (m = n /\ q = RThird)) as [[-> ->]|K]; [rewrite bool_decide_true by auto; exact X|now rewrite bool_decide_false]. }
  rewrite B, A by exact Hq. destruct (decide (m = n)) as [->|N].
  - destruct (decide (q = RInst)) as [->|N1]; [rewrite (bool_decide_true (n = n /\ RInst = RInst)), (bool_decide_true (n = n /\ (RInst = RInst \/ RInst = RThird))) by auto; now destruct (bool_decide (n = n /\ RInst = RThird))|].
    rewrite (bool_decide_false (n = n /\ q = RInst)) by tauto. apply decide_agree. tauto.
  - rewrite !bool_decide_false by tauto. reflexivity.
Qed.

Lemma repo_command_inst d o d' : inv d -> repo_command o -> apply_op d o = Ok d' ->
  forall m, entry (db_pkg d') m RInst = entry (db_pkg d) m RInst.
Proof.
  intros HI C H m. destruct o as [n u p|n|n ix|p|p|n]; simpl in *; try contradiction.
  - apply op_add_repo_eff in H as (_ & E & _). now rewrite E.
  - destruct (op_remove_repo_eff _ _ _ HI H) as [->|(_ & S & _)]; [reflexivity|]. rewrite S by apply place_inst.
    rewrite bool_decide_false by congruence. reflexivity.
  - destruct (op_update_eff _ _ _ _ HI H) as (_ & _ & E & _). apply E; [apply place_inst|congruence].
  - rewrite (add_package_entries _ _ _ _ place_third H) by apply place_inst. rewrite bool_decide_false by (intros [_ [=]]). reflexivity.
Qed.

Lemma yinv_empty : yinv empty_sys.
Proof.
  constructor; simpl.
  - constructor.
  - intros n. unfold is_installed. simpl. rewrite lookup_empty. split; [discriminate|intros [? [=]]].
  - intros n pk [=].
  - intros n info. unfold is_installed. simpl. rewrite lookup_empty. discriminate.
  - intros path n f. rewrite lookup_empty. discriminate.
Qed.

Lemma is_installed_eq db db' n : id_d db' !! n = id_d db !! n -> is_installed db' n = is_installed db n.
Proof. unfold is_installed. now intros ->. Qed.
Lemma list_of_eq s s' n : id_d (y_inst s') !! n = id_d (y_inst s) !! n -> (forall v r, y_lists s' !! (n, v, r) = y_lists s !! (n, v, r)) ->
  list_of s' n = list_of s n.
Proof. intros E1 E2. unfold list_of, get_info. rewrite E1. destruct (id_d (y_inst s) !! n) as [i|]; simpl; [|reflexivity]. now rewrite E2. Qed.

Lemma remove_db_yinv s n files s' : yinv s -> list_of s n = Ok files -> is_installed (y_inst s) n = true -> remove_db s n files = Ok s' ->
  yinv s' /\ is_installed (y_inst s') n = false /\ y_lists s' = y_lists s /\
  (forall m, m <> n -> id_d (y_inst s') !! m = id_d (y_inst s) !! m) /\
  y_files s' = remove_files (y_files s) files.
Proof.
  intros [R A I L F] HL HI H. unfold remove_db in H. inv_ok H. injection H as <-. unfold db_remove in E.
  destruct (id_d (y_inst s) !! n) as [info|] eqn:Q; [|discriminate]. injection E as <-. simpl.
  pose proof (forget_entries _ _ _ E0) as FE.
  assert (Inn : is_installed (mkInst (<[n:=with_state StR info]> (id_d (y_inst s))) (id_dp (y_inst s))) n = false).
  { unfold is_installed. simpl. now rewrite lookup_insert. }
  assert (Ine : forall m, m <> n -> is_installed (mkInst (<[n:=with_state StR info]> (id_d (y_inst s))) (id_dp (y_inst s))) m = is_installed (y_inst s) m).
  { intros m N. apply is_installed_eq. simpl. now rewrite lookup_insert_ne by congruence. }
  split; [|split; [exact Inn|split; [reflexivity|split; [|reflexivity]]]].
  - constructor; simpl.
    + eapply h_step with (o := OForget n); [exact R|exact Logic.I|exact E0].
    + intros m. rewrite FE by apply place_inst. destruct (decide (m = n)) as [->|N].
      * rewrite Inn, (bool_decide_true (n = n /\ (RInst = RInst \/ RInst = RThird))) by auto. split; [discriminate|intros [? [=]]].
      * rewrite Ine by exact N. rewrite bool_decide_false by tauto. apply A.
    + intros m pk. rewrite FE by apply place_inst. case_bool_decide as K; [discriminate|]. intros E.
      assert (N : m <> n) by (intros ->; apply K; auto). rewrite lookup_insert_ne by congruence. now apply I.
    + intros m i Hm. destruct (decide (m = n)) as [->|N]; [congruence|]. rewrite lookup_insert_ne by congruence. apply L. now rewrite <- Ine.
    + intros path m f Hf. destruct (in_dec string_dec path (map f_path files)) as [K|K].
      { rewrite (proj1 (remove_files_lookup files path _) K) in Hf. discriminate. }
      rewrite (proj2 (remove_files_lookup files path _) K) in Hf. destruct (F _ _ _ Hf) as (F1 & l & F2 & F3 & F4).
      destruct (decide (m = n)) as [->|N].
      { exfalso. apply K. rewrite HL in F2. injection F2 as <-. rewrite <- F4. now apply in_map. }
      rewrite Ine by exact N. split; [exact F1|]. exists l. split; [|auto]. rewrite <- F2. apply list_of_eq; simpl; [|reflexivity]. now rewrite lookup_insert_ne by congruence.
  - intros m N. now rewrite lookup_insert_ne by congruence.
Qed.

(** what installing leaves behind *)
Lemma fresh_install_yinv s p files later s' : yinv s -> is_installed (y_inst s) (p_name p) = false ->
  y_lists s !! (p_name p, p_version p, p_release p) = Some files ->
  update_databases s p files later None = Ok s' ->
  yinv s' /\ y_lists s' = y_lists s /\
  (forall m, m <> p_name p -> id_d (y_inst s') !! m = id_d (y_inst s) !! m) /\
  is_installed (y_inst s') (p_name p) = true /\ list_of s' (p_name p) = Ok files /\
  y_files s' = add_files (y_files s) (p_name p) files.
Proof.
  intros [R A I L F] Hn HL H. unfold update_databases in H. cbn [bind] in H. inv_ok H. injection H as <-.
  unfold db_install in E. rewrite Hn in E. injection E as <-. simpl.
  set (n := p_name p) in *. set (i := mkInst _ _).
  pose proof (add_package_entries _ _ _ _ place_inst E0) as AE.
  assert (Inn : is_installed i n = true) by (unfold is_installed, i; simpl; rewrite lookup_insert; now destruct later).
  assert (Ide : forall m, m <> n -> id_d i !! m = id_d (y_inst s) !! m) by (intros m N; unfold i; simpl; now rewrite lookup_insert_ne by congruence).
  assert (Ine : forall m, m <> n -> is_installed i m = is_installed (y_inst s) m) by (intros m N; apply is_installed_eq; auto).
  assert (LO : list_of (mkSys v0 i (add_files (y_files s) n files) (y_lists s)) n = Ok files).
  { unfold list_of, get_info, i. simpl. rewrite lookup_insert. simpl. now rewrite HL. }
  split; [|auto]. constructor; simpl.
  - eapply h_step with (o := OInstalled p); [exact R|exact Logic.I|exact E0].
  - intros m. rewrite AE by apply place_inst. destruct (decide (m = n)) as [->|N].
    + rewrite Inn, bool_decide_true by auto. split; eauto.
    + rewrite Ine by exact N. rewrite bool_decide_false by (unfold n in *; intros [<- _]; congruence). apply A.
  - intros m pk. rewrite AE by apply place_inst. case_bool_decide as K.
    + destruct K as [<- _]. intros [= <-]. fold n. split; [reflexivity|]. unfold i. simpl. rewrite lookup_insert. destruct later; eauto.
    + intros E. assert (N : m <> n) by (intros ->; apply K; auto). rewrite Ide by exact N. now apply I.
  - intros m info Hm. destruct (decide (m = n)) as [->|N].
    + unfold i. simpl. rewrite lookup_insert. intros [= <-]. simpl. eauto.
    + rewrite Ide by exact N. apply L. now rewrite <- Ine.
  - intros path m f Hf. destruct (in_dec string_dec path (map f_path files)) as [K|K].
    + destruct (proj1 (add_files_lookup files n path (y_files s)) K) as (g & G1 & G2 & G3). rewrite G3 in Hf. injection Hf as <- <-. eauto.
    + rewrite (proj2 (add_files_lookup files n path _) K) in Hf. destruct (F _ _ _ Hf) as (F1 & l & F2 & F3 & F4).
      destruct (decide (m = n)) as [->|N]; [congruence|]. rewrite Ine by exact N. split; [exact F1|].
      exists l. split; [|auto]. rewrite <- F2. apply list_of_eq; simpl; auto.
Qed.

Lemma set_lists_yinv s n v r x : yinv s -> is_installed (y_inst s) n = false ->
  yinv (set_lists s (partial_alter (fun _ => x) (n, v, r) (y_lists s))).
Proof.
  intros [R A I L F] Hn. constructor; simpl; auto.
  - intros m info Hm Hi. destruct (decide (m = n)) as [->|N]; [congruence|].
    rewrite lookup_partial_alter_ne by congruence. auto.
  - intros path m f Hf. destruct (F _ _ _ Hf) as (F1 & l & F2 & F3 & F4). split; [exact F1|]. exists l. split; [|auto].
    rewrite <- F2. apply list_of_eq; [reflexivity|]. intros v' r'. simpl. rewrite lookup_partial_alter_ne; [reflexivity|].
    intros [= <- _ _]. congruence.
Qed.

Lemma update_databases_split s p files later old s' : update_databases s p files later (Some old) = Ok s' ->
  exists s1, remove_db s (p_name p) old = Ok s1 /\ update_databases s1 p files later None = Ok s'.
Proof. unfold update_databases. cbn [bind]. intros H. apply bind_ok in H as (s1 & E & H). eauto. Qed.
Lemma remove_db_lists s n old s1 l : remove_db s n old = Ok s1 -> remove_db (set_lists s l) n old = Ok (set_lists s1 l).
Proof. unfold remove_db. simpl. intros H. inv_ok H. injection H as <-. rewrite E. cbn [bind]. rewrite E0. reflexivity. Qed.

Lemma record_install_facts s p files later s' : yinv s -> record_install s p files later = Ok s' ->
  yinv s' /\
  (forall m, m <> p_name p -> id_d (y_inst s') !! m = id_d (y_inst s) !! m /\ forall v r, y_lists s' !! (m, v, r) = y_lists s !! (m, v, r)) /\
  is_installed (y_inst s') (p_name p) = true /\ list_of s' (p_name p) = Ok files /\
  exists old, (old = [] \/ list_of s (p_name p) = Ok old /\ is_installed (y_inst s) (p_name p) = true) /\
    y_files s' = add_files (remove_files (y_files s) old) (p_name p) files.
Proof.
  intros Hy H. unfold record_install in H. destruct (is_installed (y_inst s) (p_name p)) eqn:HI.
  - apply bind_ok in H as (info & E1 & H). apply bind_ok in H as (old & E2 & H). apply bind_ok in H as (pk & E3 & H).
    cbn zeta in H. apply update_databases_split in H as (s1 & D & U).
    assert (X : exists s0, remove_db s (p_name p) old = Ok s0).
    { unfold remove_db in *. simpl in D. inv_ok D. rewrite E. cbn [bind]. rewrite E0. simpl. eauto. }
    destruct X as [s0 D0]. pose proof (remove_db_lists _ _ _ _ (<[(p_name p, p_version p, p_release p):=files]> (delete (p_name p, i_version info, i_release info) (y_lists s))) D0) as D1.
    rewrite D1 in D. injection D as <-.
    destruct (remove_db_yinv _ _ _ _ Hy E2 HI D0) as (Y0 & N0 & L0 & F0 & G0).
    rewrite <- L0 in U.
    assert (Y1 : yinv (set_lists s0 (<[(p_name p, p_version p, p_release p):=files]> (delete (p_name p, i_version info, i_release info) (y_lists s0))))).
    { assert (Y1 := set_lists_yinv _ _ (i_version info) (i_release info) None Y0 N0).
      exact (set_lists_yinv _ _ (p_version p) (p_release p) (Some files) Y1 N0). }
    destruct (fresh_install_yinv _ _ _ _ _ Y1 N0 (lookup_insert _ _ _) U) as (Y2 & L2 & F2 & I2 & LO & G2).
    split; [exact Y2|]. split.
    { intros m N. rewrite F2 by exact N. simpl. split; [now apply F0|]. intros v r. rewrite L2. simpl.
      rewrite lookup_insert_ne by congruence. rewrite lookup_delete_ne by congruence. now rewrite L0. }
    split; [exact I2|]. split; [exact LO|]. exists old. split; [auto|]. rewrite G2. simpl. now rewrite G0.
  - cbn zeta in H. assert (Y1 := set_lists_yinv _ _ (p_version p) (p_release p) (Some files) Hy HI).
    destruct (fresh_install_yinv _ _ _ _ _ Y1 HI (lookup_insert _ _ _) H) as (Y2 & L2 & F2 & I2 & LO & G2).
    split; [exact Y2|]. split.
    { intros m N. rewrite F2 by exact N. split; [reflexivity|]. intros v r. rewrite L2. simpl.
      exact (lookup_insert_ne (y_lists s) (p_name p, p_version p, p_release p) (m, v, r) files ltac:(congruence)). }
    split; [exact I2|]. split; [exact LO|]. exists []. split; [auto|]. rewrite G2. reflexivity.
Qed.

Lemma record_remove_facts s n s' : yinv s -> record_remove s n = Ok s' ->
  yinv s' /\ is_installed (y_inst s') n = false /\
  (forall m, m <> n -> id_d (y_inst s') !! m = id_d (y_inst s) !! m /\ forall v r, y_lists s' !! (m, v, r) = y_lists s !! (m, v, r)) /\
  exists old, list_of s n = Ok old /\ is_installed (y_inst s) n = true /\ y_files s' = remove_files (y_files s) old.
Proof.
  intros Hy H. unfold record_remove in H. apply bind_ok in H as (p & E1 & H). apply bind_ok in H as (old & E2 & H).
  destruct (is_installed (y_inst s) n) eqn:HI; [|discriminate]. apply bind_ok in H as (s1 & D & [= <-]).
  destruct (remove_db_yinv _ _ _ _ Hy E2 HI D) as (Y0 & N0 & L0 & F0 & G0).
  split; [exact (set_lists_yinv _ _ (p_version p) (p_release p) None Y0 N0)|]. split; [exact N0|]. split.
  - intros m N. simpl. split; [now apply F0|]. intros v r. rewrite lookup_delete_ne by congruence. now rewrite L0.
  - simpl. eauto.
Qed.

Lemma record_configured_facts s n s' : yinv s -> record_configured s n = Ok s' ->
  yinv s' /\ (forall m, is_installed (y_inst s') m = is_installed (y_inst s) m /\ list_of s' m = list_of s m) /\ y_files s' = y_files s.
Proof.
  intros [R A I L F] H. unfold record_configured in H. apply bind_ok in H as (i & E & [= <-]). unfold clear_pending in E.
  destruct (id_d (y_inst s) !! n) as [info|] eqn:Q; [|discriminate]. inv_ok E. destruct (id_dp (y_inst s) !! n); [|discriminate].
  injection E as <-. unfold is_installed in E0. rewrite Q in E0.
  assert (V : counts_installed v = counts_installed info /\ exists st, v = with_state st info).
  { destruct (counts_installed info) eqn:C.
    - destruct (i_state info); try discriminate. injection E0 as <-. split; [reflexivity|]. eauto.
    - injection E0 as <-. split; [exact C|]. exists (i_state info). now destruct info. }
  destruct V as [V1 (st & V2)].
  assert (Im : forall m, is_installed (mkInst (<[n:=v]> (id_d (y_inst s))) (delete n (id_dp (y_inst s)))) m = is_installed (y_inst s) m).
  { intros m. unfold is_installed. simpl. destruct (decide (m = n)) as [->|N]; [rewrite lookup_insert, Q; exact V1|now rewrite lookup_insert_ne by congruence]. }
  assert (Lm : forall m, list_of (set_inst s (mkInst (<[n:=v]> (id_d (y_inst s))) (delete n (id_dp (y_inst s))))) m = list_of s m).
  { intros m. unfold list_of, get_info. simpl. destruct (decide (m = n)) as [->|N]; [|now rewrite lookup_insert_ne by congruence].
    rewrite lookup_insert, Q, V2. reflexivity. }
  split; [|split; [|reflexivity]].
  - constructor; simpl; auto.
    + intros m. rewrite Im. apply A.
    + intros m pk Hm. destruct (I _ _ Hm) as (I1 & st' & I2). split; [exact I1|].
      destruct (decide (m = n)) as [->|N]; [|rewrite lookup_insert_ne by congruence; eauto].
      rewrite lookup_insert, V2. rewrite Q in I2. injection I2 as ->. unfold with_state. simpl. eauto.
    + intros m i. rewrite Im. intros Hm. destruct (decide (m = n)) as [->|N]; [|rewrite lookup_insert_ne by congruence; auto].
      rewrite lookup_insert, V2. intros [= <-]. simpl. eauto.
    + intros path m f Hf. rewrite Im, Lm. eauto.
  - intros m. split; [apply Im|apply Lm].
Qed.

Lemma apply_yop_yinv s o s' : yinv s -> (forall d, o = YRepo d -> repo_command d) -> apply_yop s o = Ok s' -> yinv s'.
Proof.
  intros Hy C H. destruct o as [d|p files later|n|n]; simpl in H.
  - specialize (C d eq_refl). apply bind_ok in H as (d' & E & [= <-]). destruct Hy as [R A I L F].
    pose proof (repo_command_inst _ _ _ (reachable_inv _ R) C E) as EI.
    constructor; simpl; auto.
    + eapply h_step; [exact R|exact Logic.I|exact E].
    + intros n. rewrite EI. apply A.
    + intros n pk. rewrite EI. apply I.
  - now apply record_install_facts in H.
  - now apply record_remove_facts in H.
  - now apply record_configured_facts in H.
Qed.
Lemma lived_yinv P s : lived P s -> yinv s.
Proof. induction 1; [apply yinv_empty|]. eapply apply_yop_yinv; eauto. Qed.

(** ** C60 *)
Lemma system_agrees s n : system s ->
  (is_installed (y_inst s) n = true <-> exists pk, get_package (y_db s) n RInst = Ok pk) /\
  (forall pk, get_package (y_db s) n RInst = Ok pk ->
     p_name pk = n /\ get_version (y_inst s) n = Ok (p_version pk, p_release pk, p_build pk)).
Proof.
  intros H. apply lived_yinv in H as [R A I L F]. split.
  - rewrite A. split; intros [pk K]; exists pk; apply get_package_place in K || apply get_package_place; eauto using place_inst.
  - intros pk K. apply get_package_place in K; [|apply place_inst]. destruct (I _ _ K) as (I1 & st & I2). split; [exact I1|].
    unfold get_version, get_info. now rewrite I2.
Qed.

(** ** C31 *)
Lemma owner_lists s path n f : system s -> get_file (y_files s) path = Some (n, f) ->
  is_installed (y_inst s) n = true /\ exists files, list_of s n = Ok files /\ In f files /\ f_path f = path.
Proof. intros H. apply lived_yinv in H. apply H. Qed.

Lemma no_shared_owner s : lived no_shared_paths s -> forall n path, lists s n path -> owner s path n.
Proof.
  induction 1 as [|s o s' H IH C P E]; intros n path HL.
  { destruct HL as [HL _]. unfold is_installed in HL. simpl in HL. rewrite lookup_empty in HL. discriminate. }
  pose proof (lived_yinv _ _ H) as Hy. destruct o as [d|p files later|m|m]; simpl in E.
  - apply bind_ok in E as (d' & E & [= <-]). apply IH in HL. exact HL.
  - destruct (record_install_facts _ _ _ _ _ Hy E) as (Y & Fr & HI & LO & old & Hold & G).
    unfold owner, get_file. rewrite G. destruct (decide (n = p_name p)) as [->|N].
    + destruct HL as (_ & fl & L1 & L2). rewrite LO in L1. injection L1 as <-.
      destruct (proj1 (add_files_lookup files (p_name p) path (remove_files (y_files s) old)) L2) as (f & _ & _ & K). eauto.
    + destruct (Fr n N) as [F1 F2].
      assert (HL' : lists s n path).
      { destruct HL as (A & fl & B & D). split; [rewrite <- A; symmetry; now apply is_installed_eq|]. exists fl. split; [|exact D].
        rewrite <- B. symmetry. now apply list_of_eq. }
      rewrite (proj2 (add_files_lookup files (p_name p) path _)).
      2: { intros K. apply in_map_iff in K as (f & <- & K). apply N. now apply (P f n K). }
      destruct (IH _ _ HL') as [f Hf]. unfold get_file in Hf.
      rewrite (proj2 (remove_files_lookup old path _)); [eauto|]. intros K.
      destruct Hold as [->|[Ho Hi]]; [destruct K|].
      assert (O : owner s path (p_name p)) by (apply IH; split; [exact Hi|eauto]). destruct O as [f' O]. unfold get_file in O. congruence.
  - destruct (record_remove_facts _ _ _ Hy E) as (Y & HI & Fr & old & Ho & Hi & G).
    destruct (decide (n = m)) as [->|N]; [destruct HL; congruence|]. destruct (Fr n N) as [F1 F2].
    assert (HL' : lists s n path).
    { destruct HL as (A & fl & B & D). split; [rewrite <- A; symmetry; now apply is_installed_eq|]. exists fl. split; [|exact D].
      rewrite <- B. symmetry. now apply list_of_eq. }
    destruct (IH _ _ HL') as [f Hf]. unfold owner, get_file in *. rewrite G.
    rewrite (proj2 (remove_files_lookup old path _)); [eauto|]. intros K.
    assert (O : owner s path m) by (apply IH; split; [exact Hi|eauto]). destruct O as [f' O]. unfold get_file in O. congruence.
  - destruct (record_configured_facts _ _ _ Hy E) as (Y & Fr & G). unfold owner. rewrite G. apply IH.
    destruct HL as (A & fl & B & D). destruct (Fr n) as [F1 F2]. split; [congruence|]. exists fl. split; [congruence|exact D].
Qed.
Lemma no_shared_exact s n path : lived no_shared_paths s -> (owner s path n <-> lists s n path).
Proof.
  intros H. split; [|now apply no_shared_owner]. intros [f Hf]. apply lived_yinv in H. destruct (yi_files _ H _ _ _ Hf) as (A & l & B & D & E).
  split; [exact A|]. exists l. split; [exact B|]. rewrite <- E. now apply in_map.
Qed.

(** ** C06 *)
Definition apply_all (l : list yop) : sys := fold_left (fun s o => match apply_yop s o with Ok s' => s' | Err _ => s end) l empty_sys.
Lemma apply_all_system l : (forall d, In (YRepo d) l -> repo_command d) -> system (apply_all l).
Proof.
  intros C. unfold apply_all. assert (G : forall s, system s -> system (fold_left (fun s o => match apply_yop s o with Ok s' => s' | Err _ => s end) l s)).
  { induction l as [|o l IH]; intros s H; simpl; [exact H|]. apply IH; [intros d Hd; apply C; now right|].
    destruct (apply_yop s o) eqn:E; [|exact H]. eapply lived_step; [exact H| |exact Logic.I|exact E]. intros d ->. apply C. now left. }
  apply G. constructor.
Qed.

Lemma installed_sat s d : system s ->
  (installed_satisfies_dep s d = Ok true <-> is_installed (y_inst s) (dep_package d) = true /\
     exists v r b, get_version (y_inst s) (dep_package d) = Ok (v, r, b) /\ window_readable d v r /\ in_window d v r) /\
  (installed_satisfies_dep s d = Ok false <-> is_installed (y_inst s) (dep_package d) = false \/
     is_installed (y_inst s) (dep_package d) = true /\
     exists v r b, get_version (y_inst s) (dep_package d) = Ok (v, r, b) /\ window_readable d v r /\ ~ in_window d v r) /\
  (forall e, installed_satisfies_dep s d = Err e <-> e = EValue /\ is_installed (y_inst s) (dep_package d) = true /\
     exists v r b, get_version (y_inst s) (dep_package d) = Ok (v, r, b) /\ ~ window_readable d v r).
Proof.
  intros H. destruct (system_agrees s (dep_package d) H) as [A V]. unfold installed_satisfies_dep.
  destruct (is_installed (y_inst s) (dep_package d)) eqn:E.
  - destruct (proj1 A eq_refl) as [pk Hp]. rewrite Hp. cbn [bind]. destruct (V _ Hp) as [_ ->]. repeat split.
    + apply satisfies_true in H0. eauto 8.
    + intros (_ & v & r & b & [= <- <- <-] & K). now apply satisfies_true.
    + intros K. apply satisfies_false in K. right. eauto 8.
    + intros [[=]|(_ & v & r & b & [= <- <- <-] & K)]. now apply satisfies_false.
    + now apply satisfies_err in H0 as [-> _].
    + apply satisfies_err in H0. destruct H0 as [_ K]. eauto 8.
    + intros (-> & _ & v & r & b & [= <- <- <-] & K). now apply satisfies_err.
  - repeat split; try discriminate; try tauto.
    + intros ([=] & _).
    + intros (_ & [=] & _).
Qed.

Lemma repo_sat s d : system s ->
  (repo_satisfies_dep s d = Ok true <-> exists p, get_package (y_db s) (dep_package d) RRepos = Ok p /\ within d p) /\
  (repo_satisfies_dep s d = Ok false <-> missing (get_package (y_db s) (dep_package d) RRepos) \/
     exists p, get_package (y_db s) (dep_package d) RRepos = Ok p /\
       window_readable d (p_version p) (p_release p) /\ ~ in_window d (p_version p) (p_release p)) /\
  (forall e, repo_satisfies_dep s d = Err e -> e = EValue /\
     exists p, get_package (y_db s) (dep_package d) RRepos = Ok p /\ ~ window_readable d (p_version p) (p_release p)).
Proof.
  intros H. apply lived_yinv in H as [R _ _ _ _]. destruct (system_agree _ (dep_package d) RRepos R) as [[A1 A2] _].
  unfold repo_satisfies_dep, within. destruct (has_package (y_db s) (dep_package d) RRepos) as [[|]|e0] eqn:Eb; cbn [bind].
  - destruct (proj1 A1 eq_refl) as [p Hp]. rewrite Hp. cbn [bind]. split; [|split].
    + rewrite satisfies_true. split; [eauto|]. intros (p' & [= <-] & K). exact K.
    + rewrite satisfies_false. split; [eauto|]. intros [[e [=]]|(p' & [= <-] & K)]. exact K.
    + intros e. rewrite satisfies_err. intros [-> K]. eauto.
  - destruct (proj1 A2 eq_refl) as [e Hp]. rewrite Hp. split; [|split].
    + split; [discriminate|]. intros (p & [=] & _).
    + split; [|reflexivity]. intros _. left. eexists. reflexivity.
    + discriminate.
  - unfold has_package in Eb. cbn [has_key] in Eb. discriminate.
Qed.

Lemma satisfies_dependencies_spec sat deps :
  (satisfies_dependencies sat deps = Ok true <-> forall d, In d deps -> sat d = Ok true) /\
  (satisfies_dependencies sat deps = Ok false <-> exists pre d post, deps = (pre ++ d :: post)%list /\ sat d = Ok false /\ forall d', In d' pre -> sat d' = Ok true) /\
  (forall e, satisfies_dependencies sat deps = Err e <-> exists pre d post, deps = (pre ++ d :: post)%list /\ sat d = Err e /\ forall d', In d' pre -> sat d' = Ok true).
Proof.
  assert (nil_split : forall (pre : list dependency) d post, [] = (pre ++ d :: post)%list -> False) by (intros [|? ?] ? ? [=]).
  induction deps as [|d deps (I1 & I2 & I3)]; simpl.
  - repeat split; try discriminate; try (intros (pre & d & post & E & _); exfalso; eauto; fail). intros _ d [].
  - destruct (sat d) as [[|]|e0] eqn:E; cbn [bind].
    + repeat split.
      * intros K d' [<-|Hd]; [exact E|]. now apply I1.
      * intros K. apply I1. auto.
      * intros K. apply I2 in K as (pre & d0 & post & -> & K1 & K2). exists (d :: pre), d0, post. split; [reflexivity|]. split; [exact K1|]. intros d' [<-|Hd]; auto.
      * intros (pre & d0 & post & X & K1 & K2). destruct pre as [|d1 pre]; injection X as -> ->; [congruence|]. apply I2. exists pre, d0, post. split; [reflexivity|]. split; [exact K1|]. intros d' Hd. apply K2. now right.
      * intros K. apply I3 in K as (pre & d0 & post & -> & K1 & K2). exists (d :: pre), d0, post. split; [reflexivity|]. split; [exact K1|]. intros d' [<-|Hd]; auto.
      * intros (pre & d0 & post & X & K1 & K2). destruct pre as [|d1 pre]; injection X as -> ->; [congruence|]. apply I3. exists pre, d0, post. split; [reflexivity|]. split; [exact K1|]. intros d' Hd. apply K2. now right.
    + repeat split; try discriminate.
      * intros K. specialize (K d (or_introl eq_refl)). congruence.
      * intros _. exists [], d, deps. split; [reflexivity|]. split; [exact E|]. intros ? [].
      * intros (pre & d0 & post & X & K1 & K2). destruct pre as [|d1 pre]; injection X as -> ->; [congruence|]. specialize (K2 d1 (or_introl eq_refl)). congruence.
    + repeat split; try discriminate.
      * intros K. specialize (K d (or_introl eq_refl)). congruence.
      * intros (pre & d0 & post & X & K1 & K2). destruct pre as [|d1 pre]; injection X as -> ->; [congruence|]. specialize (K2 d1 (or_introl eq_refl)). congruence.
      * intros [= <-]. exists [], d, deps. split; [reflexivity|]. split; [exact E|]. intros ? [].
      * intros (pre & d0 & post & X & K1 & K2). destruct pre as [|d1 pre]; injection X as -> ->; [congruence|]. specialize (K2 d1 (or_introl eq_refl)). congruence.
Qed.

Lemma installable_spec s n : system s ->
  (installable s n = Ok true <-> exists p, get_package (y_db s) n RRepos = Ok p /\ p_compdeps p = [] /\
     forall d, In d (p_deps p) -> installed_satisfies_dep s d = Ok true) /\
  (installable s n = Ok false <-> missing (get_package (y_db s) n RRepos) \/
     exists p pre d post, get_package (y_db s) n RRepos = Ok p /\ p_compdeps p = [] /\ p_deps p = (pre ++ d :: post)%list /\
       installed_satisfies_dep s d = Ok false /\ forall d', In d' pre -> installed_satisfies_dep s d' = Ok true).
Proof.
  intros H. apply lived_yinv in H as [R _ _ _ _]. destruct (system_agree _ n RRepos R) as [[A1 A2] _].
  unfold installable, satisfies_runtime_deps. destruct (has_package (y_db s) n RRepos) as [[|]|e0] eqn:Eb; cbn [bind].
  - destruct (proj1 A1 eq_refl) as [p Hp]. rewrite Hp. cbn [bind]. unfold runtimeDependencies. destruct (p_compdeps p) eqn:Ec; cbn [bind].
    + destruct (satisfies_dependencies_spec (installed_satisfies_dep s) (p_deps p)) as (S1 & S2 & _). rewrite S1, S2. split; split.
      * eauto.
      * intros (p' & [= <-] & _ & K). exact K.
      * intros (pre & d & post & K1 & K2 & K3). right. exists p, pre, d, post. auto.
      * intros [[e [=]]|(p' & pre & d & post & [= <-] & _ & K)]. eauto.
    + split; (split; [discriminate|]).
      * intros (p' & [= <-] & K & _). congruence.
      * intros [[e [=]]|(p' & pre & d & post & [= <-] & K & _)]. congruence.
  - destruct (proj1 A2 eq_refl) as [e Hp]. rewrite Hp. split.
    + split; [discriminate|]. intros (p & [=] & _).
    + split; [|reflexivity]. intros _. left. eexists. reflexivity.
  - unfold has_package in Eb. cbn [has_key] in Eb. discriminate.
Qed.
