(** * What the listing commands print *)
From Coq Require Import String Ascii List Sorted Lia ZArith.
From stdpp Require Import gmap strings.
From Verif Require Import Proof.GraphFacts.
From Verif Require Import Model.Py Model.ItemByRepo Model.Dependency Model.Package Model.ComponentDB Model.Databases
  Model.InstallDB Model.System Model.Path Model.Plan Model.Ops Model.Build Model.Lists
  Spec.ItemByRepoSpec Spec.DatabaseSpec Spec.SystemSpec Spec.PlanSpec Spec.ListsSpec
  Proof.PyFacts Proof.ItemByRepoFacts Proof.ItemByRepoMain Proof.DatabaseFacts Proof.RevDepFacts Proof.InstallDBFacts Proof.SystemFacts
  Proof.BuildNumber Proof.PlanFacts Proof.UpgradeFacts Proof.PlanTop Proof.EmergeFacts Proof.ComponentFacts Proof.ListsFacts.
Open Scope string_scope.
Open Scope list_scope.

(** ** Components are kept under their own names *)
Definition comp_named (d : compdb) : Prop := forall n q c, place q -> entry d n q = Some c -> c_name c = n.
Lemma comp_named_add d n x q d' : place q -> comp_named d -> c_name x = n -> add_item d n x q = Ok d' -> comp_named d'.
Proof.
  intros Hp I E H m q' c Hq'. destruct (add_item_entry d n x q Hp) as (d2 & Ed & S). rewrite Ed in H. injection H as <-.
  rewrite S by exact Hq'. destruct (bool_decide _) eqn:B; [|apply I, Hq']. intros [= <-]. apply bool_decide_eq_true in B as [<- _]. exact E.
Qed.
Lemma comp_named_same d d' q : same_but q d d' -> comp_named d -> comp_named d'.
Proof. intros S I n q' c Hq'. rewrite S by exact Hq'. destruct (bool_decide _); [discriminate|]. apply I, Hq'. Qed.
Lemma comp_found order d n q c : place q -> comp_named d -> get_component order d n q = Ok c -> c_name c = n.
Proof. intros Hp I H. unfold get_component in H. apply (I n q); [exact Hp|]. now apply (entry_get order). Qed.
Lemma comp_add_package_named o d c p q d' : place q -> comp_named d -> comp_add_package o d c p q = Ok d' -> comp_named d'.
Proof.
  intros Hp I. unfold comp_add_package. destruct c as [cn|]; [|discriminate]. destruct (truthy _); [|discriminate]. intros H. inv_ok H.
  eapply comp_named_add; [exact Hp|exact I| |exact H]. cbn. destruct v; [eapply comp_found; eassumption|]. injection E0 as <-. reflexivity.
Qed.
Lemma comp_add_spec_named o d c p q d' : place q -> comp_named d -> comp_add_spec o d c p q = Ok d' -> comp_named d'.
Proof.
  intros Hp I. unfold comp_add_spec. destruct c as [cn|]; [|discriminate]. destruct (truthy _); [|discriminate]. intros H. inv_ok H.
  eapply comp_named_add; [exact Hp|exact I| |exact H]. cbn. destruct v; [eapply comp_found; eassumption|]. injection E0 as <-. reflexivity.
Qed.
Lemma comp_remove_package_named o d c p q d' : place q -> comp_named d -> comp_remove_package o d c p q = Ok d' -> comp_named d'.
Proof.
  intros Hp I. unfold comp_remove_package. intros H. inv_ok H. destruct v; [|discriminate]. inv_ok H.
  eapply comp_named_add; [exact Hp|exact I| |exact H]. cbn. eapply comp_found; eassumption.
Qed.
Lemma update_component_named o d c q d' : place q -> comp_named d -> update_component o d c q = Ok d' -> comp_named d'.
Proof.
  intros Hp I. unfold update_component. intros H. inv_ok H. destruct v; inv_ok H; (eapply comp_named_add; [exact Hp|exact I| |exact H]); reflexivity.
Qed.
Lemma add_package_named s p q s' : place q -> comp_named (db_comp s) -> add_package s p q = Ok s' -> comp_named (db_comp s').
Proof. intros Hp I H. unfold add_package in H. inv_ok H. injection H as <-. cbn. eapply comp_add_package_named; eassumption. Qed.
Lemma remove_package_named s n q s' : place q -> comp_named (db_comp s) -> remove_package s n q = Ok s' -> comp_named (db_comp s').
Proof. intros Hp I H. unfold remove_package in H. inv_ok H. injection H as <-. cbn. eapply comp_remove_package_named; eassumption. Qed.
Lemma add_spec_named s p q s' : place q -> comp_named (db_comp s) -> add_spec s p q = Ok s' -> comp_named (db_comp s').
Proof. intros Hp I H. unfold add_spec in H. inv_ok H. injection H as <-. cbn. eapply comp_add_spec_named; eassumption. Qed.
Lemma apply_op_named s o s' : inv s -> comp_named (db_comp s) -> apply_op s o = Ok s' -> comp_named (db_comp s').
Proof.
  intros HI I. destruct o as [n u p|n|n ix|p|p|n]; simpl.
  - unfold op_add_repo. destruct (has_repo _ n); [discriminate|]. unfold add_repo. intros H. inv_ok H. injection H as <-. exact I.
  - unfold op_remove_repo. destruct (has_repo _ n) eqn:E; [|intros [= <-]; exact I].
    intros H. destruct HI as [Hr Hs]. apply has_repo_spec in E. apply (proj2 Hr) in E. destruct (repo_remove_ok _ n Hr E) as (rd & E' & _).
    destruct (remove_repo_ok _ s n rd Hs E') as (s1 & K & _ & _ & _ & _ & _ & _ & S1). rewrite K in H. injection H as <-. eapply comp_named_same; [exact S1|exact I].
  - unfold op_update_repo. destruct (has_repo _ n) eqn:E; [|discriminate]. intros H.
    destruct HI as [Hr Hs]. apply has_repo_spec in E. apply (proj2 Hr) in E. pose proof (place_name n) as Hp. unfold update_db in H. inv_ok H.
    assert (B0 : comp_named (db_comp v)).
    { unfold comp_remove_repo in E0. inv_ok E0. injection E0 as <-. cbn. destruct (good_remove_repo _ _ (RName n) (ok_comp _ _ Hs) Hp) as (d1 & X1 & _ & _ & X2). match goal with X : remove_repo_items _ _ = Ok _ |- _ => rewrite X1 in X; injection X as <- end.
      eapply comp_named_same; [exact X2|exact I]. }
    assert (B1 : comp_named (db_comp v0)).
    { eapply (foldM_inv (fun t => comp_named (db_comp t))); [|exact B0|exact E1]. intros t c t' _ Pt K. cbv beta in K. inv_ok K. injection K as <-. cbn. eapply update_component_named; [exact Hp|exact Pt|eassumption]. }
    assert (B2 : comp_named (db_comp v1)) by (unfold pkg_remove_repo in E2; inv_ok E2; injection E2 as <-; exact B1).
    assert (B3 : comp_named (db_comp v2)).
    { eapply (foldM_inv (fun t => comp_named (db_comp t))); [|exact B2|exact E3]. intros t c t' _ Pt K. eapply add_package_named; [exact Hp|exact Pt|exact K]. }
    assert (B4 : comp_named (db_comp v3)) by (unfold src_remove_repo in E4; inv_ok E4; injection E4 as <-; exact B3).
    eapply (foldM_inv (fun t => comp_named (db_comp t))); [|exact B4|exact H]. intros t c t' _ Pt K. eapply add_spec_named; [exact Hp|exact Pt|exact K].
  - intros H. eapply add_package_named; [apply place_inst|exact I|exact H].
  - intros H. eapply add_package_named; [apply place_third|exact I|exact H].
  - unfold remove_tracking_package. intros H. inv_ok H.
    assert (I0 : comp_named (db_comp v0)) by (destruct v; [eapply remove_package_named; [apply place_inst|exact I|exact E0]|injection E0 as <-; exact I]).
    destruct v1; [eapply remove_package_named; [apply place_third|exact I0|exact H]|injection H as <-; exact I0].
Qed.
Lemma reachable_named s : reachable s -> comp_named (db_comp s).
Proof.
  induction 1 as [|s o s' H IH C E]; [intros n q pk _ K; discriminate K|]. eapply apply_op_named; eauto. eapply reachable_inv; eauto.
Qed.

(** ** Listings *)
Lemma mapM_total {A B} (f : A -> res B) l : (forall x, In x l -> exists y, f x = Ok y) -> exists l', Py.mapM f l = Ok l' /\ Forall2 (fun x y => f x = Ok y) l l'.
Proof.
  intros H. enough (E : exists l', Forall2 (fun x y => f x = Ok y) l l') by (destruct E as [l' E]; exists l'; split; [now apply mapM_ok|exact E]).
  induction l as [|a l IH]; [exists []; constructor|]. destruct (H a) as [y E]; [now left|]. destruct IH as [l' F]; [intros x K; apply H; now right|].
  exists (y :: l'). now constructor.
Qed.
Lemma forall2_impl {A B} (P Q : A -> B -> Prop) l l' : (forall x y, In x l -> P x y -> Q x y) -> Forall2 P l l' -> Forall2 Q l l'.
Proof. intros H F. induction F as [|x y l l' E F IH]; constructor; [apply H; [now left|exact E]|]. apply IH. intros a b K. apply H. now right. Qed.

(** what [mapM] over a roll prints *)
Lemma blocks_of (P : string -> Prop) (shows : string -> list string -> Prop) (f : string -> res (list string)) l : NoDup l -> (forall n, In n l <-> P n) ->
  (forall n, P n -> exists b, f n = Ok b /\ shows n b) ->
  exists blocks, Py.mapM f (sort_names l) = Ok blocks /\ listing_blocks P shows (concat blocks).
Proof.
  intros N I H. pose proof (sort_names_roll l P N I) as R. destruct (mapM_total f (sort_names l)) as (bs & E & F).
  { intros x K. apply R in K. destruct (H x K) as (b & E & _). eauto. }
  exists bs. split; [exact E|]. exists (sort_names l), bs. split; [exact R|]. split; [|reflexivity].
  eapply forall2_impl; [|exact F]. cbn. intros x y K Ey. apply R in K. destruct (H x K) as (b & E' & S). assert (b = y) by congruence. now subst.
Qed.
Lemma lines_of (P : string -> Prop) (shows : string -> string -> Prop) (f : string -> res string) l : NoDup l -> (forall n, In n l <-> P n) ->
  (forall n, P n -> exists b, f n = Ok b /\ shows n b) ->
  exists out, Py.mapM f (sort_names l) = Ok out /\ listing P shows out.
Proof.
  intros N I H. pose proof (sort_names_roll l P N I) as R. destruct (mapM_total f (sort_names l)) as (bs & E & F).
  { intros x K. apply R in K. destruct (H x K) as (b & E & _). eauto. }
  exists bs. split; [exact E|]. exists (sort_names l). split; [exact R|].
  eapply forall2_impl; [|exact F]. cbn. intros x y K Ey. apply R in K. destruct (H x K) as (b & E' & S). assert (b = y) by congruence. now subst.
Qed.
(** one line each *)
Lemma blocks_lines P (shows : string -> string -> Prop) out :
  listing_blocks P (fun n b => exists x, b = [x] /\ shows n x) out -> listing P shows out.
Proof.
  intros (ns & bs & R & F & ->). exists ns. split; [exact R|]. clear R. induction F as [|n b ns bs (x & -> & S) F IH]; cbn; [constructor|]. now constructor.
Qed.

Section top.
  Context (lang : string) (full : package -> string) (info_text : iinfo -> string) (time : string -> string)
    (about_source source_text : spec -> string) (about_component component_text : component -> string).

  Lemma inst_found s n : system s -> installed s n -> exists p i, get_package (y_db s) n RInst = Ok p /\ p_name p = n /\ get_info (y_inst s) n = Ok i /\
    i_version i = p_version p /\ i_release i = p_release p /\ i_build i = p_build p /\ i_distribution i = p_distribution p /\
    id_d (y_inst s) !! n = Some i.
  Proof.
    intros H I. apply lived_yinv in H as [R Ag In_ _ _]. apply Ag in I as [p Ep]. destruct (In_ n p Ep) as (Np & st & Ei).
    exists p, (mkInfo st (p_version p) (p_release p) (p_build p) (p_distribution p)). unfold get_package, get_info. rewrite get_item_place by apply place_inst. rewrite Ep, Ei. cbn. auto 10.
  Qed.

  (** the short line of an installed package *)
  Lemma installed_short s : system s -> exists out, cmd_list_installed lang full info_text time s false false = Ok out /\ listing (installed s) (short_line lang s) out.
  Proof.
    intros H. unfold cmd_list_installed. cbv iota. destruct (blocks_of (installed s) (fun n b => exists x, b = [x] /\ short_line lang s n x)
      (fun pkg => package <- get_package (y_db s) pkg RInst ;; inst_info <- get_info (y_inst s) pkg ;;
                  Ok [(right_in 15 (p_name package) ++ " - " ++ local_text lang (p_summary package))%string]) (list_installed (y_inst s))) as (bs & E & L).
    - apply list_installed_nodup.
    - intros n. apply list_installed_spec.
    - intros n K. destruct (inst_found s n H K) as (p & i & Ep & Np & Ei & _). rewrite Ep. cbn. rewrite Ei. cbn. eexists. split; [reflexivity|].
      eexists. split; [reflexivity|]. exists p, (right_in 15 n), (local_text lang (p_summary p)). rewrite Np. repeat split; [exact Ep|apply right_in_flush|apply local_text_ok].
    - rewrite E. cbn. eexists. split; [reflexivity|]. now apply blocks_lines.
  Qed.

  (** the line of an installed package in the table *)
  Lemma installed_table s : system s -> exists out, cmd_list_installed lang full info_text time s false true = Ok (table_head ++ out) /\ listing (installed s) (table_line time s) out.
  Proof.
    intros H. unfold cmd_list_installed. cbv iota. destruct (blocks_of (installed s) (fun n b => exists x, b = [x] /\ table_line time s n x)
      (fun pkg => package <- get_package (y_db s) pkg RInst ;; inst_info <- get_info (y_inst s) pkg ;;
                  Ok [(left_in 15 (p_name package) ++ "  |" ++ one_liner inst_info (time pkg))%string]) (list_installed (y_inst s))) as (bs & E & L).
    - apply list_installed_nodup.
    - intros n. apply list_installed_spec.
    - intros n K. destruct (inst_found s n H K) as (p & i & Ep & Np & Ei & Iv & Ir & Ib & Id & Ed). rewrite Ep. cbn [bind]. rewrite Ei. cbn [bind]. eexists. split; [reflexivity|].
      eexists. split; [reflexivity|]. exists p, i. do 7 eexists. rewrite Np. split; [exact Ep|]. split; [exact Ei|]. split; [apply left_in_flush|].
      split; [apply right_in_flush|]. split.
      { intros X. unfold installed, is_installed in K. rewrite Ed in K. unfold counts_installed in K. rewrite X in K. discriminate K. }
      rewrite <- Iv, <- Ir, <- Ib, <- Id. do 5 (split; [apply right_in_flush|]). reflexivity.
    - rewrite E. cbn [bind]. exists (concat bs). split; [reflexivity|]. now apply blocks_lines.
  Qed.

  Lemma installed_long s : system s -> exists out, cmd_list_installed lang full info_text time s true false = Ok out /\ listing_blocks (installed s) (full_lines full info_text s) out.
  Proof.
    intros H. unfold cmd_list_installed. cbv iota. destruct (blocks_of (installed s) (full_lines full info_text s)
      (fun pkg => package <- get_package (y_db s) pkg RInst ;; inst_info <- get_info (y_inst s) pkg ;;
                  Ok [full package; info_text inst_info]) (list_installed (y_inst s))) as (bs & E & L).
    - apply list_installed_nodup.
    - intros n. apply list_installed_spec.
    - intros n K. destruct (inst_found s n H K) as (p & i & Ep & Np & Ei & _). rewrite Ep. cbn [bind]. rewrite Ei. cbn [bind]. eexists. split; [reflexivity|]. exists p, i. auto.
    - rewrite E. cbn [bind]. eexists. split; [reflexivity|]. exact L.
  Qed.

  Lemma repo_first s n p : system s -> (get_package (y_db s) n RRepos = Ok p <-> exists first, first_with s n first /\ carries s first n p).
  Proof.
    intros H. unfold get_package, get_item, first_with, carries. split.
    - destruct (get_item_repo (order_of (y_db s)) (db_pkg (y_db s)) n RRepos) as [[x q]|] eqn:E; [|discriminate]. cbn. intros [= ->].
      apply first_repository in E as (pre & r & post & E1 & -> & E2 & E3). exists r. split; [|exact E2]. exists pre, post, p. split; [exact E1|]. split; [exact E2|].
      intros r' q I K. destruct (E3 r' I) as [e E4]. unfold get_package in K. congruence.
    - intros (first & (pre & post & q & E1 & E2 & E3) & E4). assert (q = p) by (unfold get_package in *; congruence). subst q.
      assert (X : get_item_repo (order_of (y_db s)) (db_pkg (y_db s)) n RRepos = Ok (p, RName first)).
      { apply first_repository. exists pre, first, post. split; [exact E1|]. split; [reflexivity|]. split; [exact E2|].
        intros r' I. unfold missing. destruct (get_item (order_of (y_db s)) (db_pkg (y_db s)) n (RName r')) as [y|e] eqn:Ey; [|eauto]. elim (E3 r' y I). exact Ey. }
      rewrite X. reflexivity.
  Qed.
  Lemma some_repo s repo n p : system s -> carries s repo n p -> exists first q, first_with s n first /\ carries s first n q /\ get_package (y_db s) n RRepos = Ok q.
  Proof.
    intros H C. pose proof H as Y. apply lived_yinv in Y as [R _ _ _ _]. destruct (reachable_inv _ R) as [_ [Hg _ _ _ _]].
    assert (K : has_key (db_pkg (y_db s)) n RRepos = Ok true).
    { apply has_key_repos; [apply Hg|]. exists repo. unfold carries, get_package in C. apply entry_get in C; [eauto|apply place_name]. }
    apply (proj1 (good_agree (order_of (y_db s)) _ n RRepos Hg)) in K as [q K]. fold (get_package (y_db s) n RRepos) in K.
    pose proof K as K'. apply (repo_first s n q H) in K' as (first & F & Cq). eauto.
  Qed.

  (** what is printed for a package of a repository *)
  Lemma available_one s long uninstalled no_color repo : system s -> exists out, print_packages lang full s long uninstalled no_color repo = Ok out /\
    listing_blocks (fun n => exists p, carries s repo n p) (available_lines lang full s long uninstalled no_color) out.
  Proof.
    intros H. pose proof H as Y. apply lived_yinv in Y as [R _ _ _ _]. destruct (reachable_inv _ R) as [_ [Hg _ _ _ _]].
    destruct (list_wf (order_of (y_db s)) (db_pkg (y_db s)) (RName repo) (proj1 Hg) (good_listed _ _ Hg)) as (l & El & Nl & Il); [discriminate|].
    unfold print_packages. rewrite El. cbn [bind]. destruct (blocks_of (fun n => exists p, carries s repo n p) (available_lines lang full s long uninstalled no_color)
      (fun p => package <- get_package (y_db s) p RRepos ;;
        Ok (if long then [full package]
            else if is_installed (y_inst s) p && uninstalled then []
            else [((if is_installed (y_inst s) p then green no_color p else p) ++ spaces (15 - String.length p) ++
                  " - " ++ local_text lang (p_summary package) ++ " ")%string])) l) as (bs & E & L).
    - exact Nl.
    - exact Il.
    - intros n [p0 C]. destruct (some_repo s repo n p0 H C) as (first & p & F & Cp & G). rewrite G. cbn [bind]. eexists. split; [reflexivity|].
      exists first, p. split; [exact F|]. split; [exact Cp|]. destruct long; [reflexivity|]. unfold installed. destruct (is_installed (y_inst s) n) eqn:Ei; cbn [andb].
      + destruct uninstalled; [left; auto|]. right. exists (green no_color n), (spaces (15 - String.length n)), (local_text lang (p_summary p)).
        split; [left; split; [reflexivity|split; [reflexivity|]]; unfold coloured, green; now destruct no_color|].
        split; [apply spaces_blank|]. split; [rewrite spaces_length; lia|]. split; [apply local_text_ok|]. reflexivity.
      + right. exists n, (spaces (15 - String.length n)), (local_text lang (p_summary p)).
        split; [right; split; [discriminate|reflexivity]|].
        split; [apply spaces_blank|]. split; [rewrite spaces_length; lia|]. split; [apply local_text_ok|]. reflexivity.
    - rewrite E. cbn [bind]. eexists. split; [reflexivity|]. exact L.
  Qed.
  Lemma available_named s long uninstalled no_color repos : system s -> repos <> [] ->
    exists head parts, cmd_list_available lang full s long uninstalled no_color repos = Ok (head ++ concat parts) /\ key_line no_color uninstalled head /\
      Forall2 (fun repo part => listing_blocks (fun n => exists p, carries s repo n p) (available_lines lang full s long uninstalled no_color) part) repos parts.
  Proof.
    intros H N. unfold cmd_list_available. destruct repos as [|r0 rs]; [congruence|]. set (repos := r0 :: rs).
    destruct (mapM_total (print_packages lang full s long uninstalled no_color) repos) as (parts & E & F).
    { intros x _. destruct (available_one s long uninstalled no_color x H) as (o & Eo & _). eauto. }
    rewrite E. cbn [bind]. eexists _, parts. split; [reflexivity|]. split.
    - unfold key_line. destruct no_color, uninstalled; cbn; try reflexivity. eexists. split; [|reflexivity]. reflexivity.
    - eapply forall2_impl; [|exact F]. cbv beta. intros r o _ Eo. destruct (available_one s long uninstalled no_color r H) as (o' & Eo' & L). rewrite Eo' in Eo. injection Eo as <-. exact L.
  Qed.
  Lemma available_all s long uninstalled no_color : system s ->
    exists head parts, cmd_list_available lang full s long uninstalled no_color [] = Ok (head ++ concat parts) /\ key_line no_color uninstalled head /\
      Forall2 (fun repo part => exists ls, part = ("Repository : " ++ repo)%string :: "" :: ls /\ listing_blocks (fun n => exists p, carries s repo n p) (available_lines lang full s long uninstalled no_color) ls)
        (order_of (y_db s)) parts.
  Proof.
    intros H. unfold cmd_list_available.
    set (f := fun repo => l <- print_packages lang full s long uninstalled no_color repo ;; Ok (("Repository : " ++ repo)%string :: "" :: l)).
    destruct (mapM_total f (order_of (y_db s))) as (parts & E & F).
    { intros x _. unfold f. destruct (available_one s long uninstalled no_color x H) as (o & Eo & _). rewrite Eo. cbn. eauto. }
    rewrite E. cbn [bind]. eexists _, parts. split; [reflexivity|]. split.
    - unfold key_line. destruct no_color, uninstalled; cbn; try reflexivity. eexists. split; [|reflexivity]. reflexivity.
    - eapply forall2_impl; [|exact F]. cbv beta. intros r o _ Eo. unfold f in Eo. destruct (available_one s long uninstalled no_color r H) as (o' & Eo' & L). rewrite Eo' in Eo. cbn in Eo. injection Eo as <-. eauto.
  Qed.

  (** ** Components, sources, repositories *)
  Lemma components_listed s long : system s -> exists out, cmd_list_components about_component component_text s long = Ok out /\
    listing (fun n => exists repo c, get_component (order_of (y_db s)) (db_comp (y_db s)) n (RName repo) = Ok c) (component_line about_component component_text s long) out.
  Proof.
    intros H. apply lived_yinv in H as [R _ _ _ _]. destruct (reachable_inv _ R) as [_ [_ _ _ _ Hg]]. pose proof (reachable_named _ R) as Nm.
    destruct (list_wf (order_of (y_db s)) (db_comp (y_db s)) RRepos (proj1 Hg) (good_listed _ _ Hg)) as (l & El & Nl & Il); [discriminate|].
    unfold cmd_list_components. rewrite El. cbn [bind]. apply lines_of; [exact Nl| |].
    - intros n. rewrite Il, <- (proj1 (good_agree (order_of (y_db s)) _ n RRepos Hg)), has_key_repos by apply Hg. unfold get_component. split.
      + intros [r [x E]]. exists r, x. apply entry_get; [apply place_name|exact E].
      + intros (r & x & E). exists r. apply entry_get in E; [eauto|apply place_name].
    - intros n (r & x & E). assert (G : exists c, get_item (order_of (y_db s)) (db_comp (y_db s)) n RRepos = Ok c).
      { apply (proj1 (good_agree (order_of (y_db s)) _ n RRepos Hg)), has_key_repos; [apply Hg|]. exists r. apply entry_get in E; [eauto|apply place_name]. }
      destruct G as [c G]. unfold get_component. rewrite G. cbn [bind]. eexists. split; [reflexivity|]. exists c. split; [exact G|].
      assert (c_name c = n) as ->.
      { unfold get_item in G. destruct (get_item_repo (order_of (y_db s)) (db_comp (y_db s)) n RRepos) as [[y q]|] eqn:E'; [|discriminate]. cbn in G. injection G as <-.
        apply first_repository in E' as (pre & r' & post & _ & -> & E2 & _). eapply Nm; [apply (place_name r')|]. apply (entry_get (order_of (y_db s))); [apply place_name|]. exact E2. }
      reflexivity.
  Qed.

  Lemma sources_listed s long : system s -> exists out, cmd_list_sources about_source source_text s long = Ok out /\
    listing_blocks (fun n => exists repo sp, get_item (order_of (y_db s)) (db_src (y_db s)) n (RName repo) = Ok sp) (source_lines about_source source_text s long) out.
  Proof.
    intros H. apply lived_yinv in H as [R _ _ _ _]. destruct (reachable_inv _ R) as [_ [_ _ Hg _ _]]. pose proof (reachable_sourced _ R) as Nm.
    destruct (list_wf (order_of (y_db s)) (db_src (y_db s)) RRepos (proj1 Hg) (good_listed _ _ Hg)) as (l & El & Nl & Il); [discriminate|].
    unfold cmd_list_sources. rewrite El. cbn [bind].
    destruct (blocks_of (fun n => exists repo sp, get_item (order_of (y_db s)) (db_src (y_db s)) n (RName repo) = Ok sp) (source_lines about_source source_text s long)
      (fun p => sr <- get_item_repo (order_of (y_db s)) (db_src (y_db s)) p RRepos ;;
        if long then
          match sr.2 with
          | RName repo => Ok [("[Repository: " ++ repo ++ "]")%string; source_text sr.1]
          | _ => Err EType
          end
        else Ok [(sp_name sr.1 ++ " - " ++ about_source sr.1)%string]) l) as (bs & E & L).
    - exact Nl.
    - intros n. rewrite Il, <- (proj1 (good_agree (order_of (y_db s)) _ n RRepos Hg)), has_key_repos by apply Hg. split.
      + intros [r [x E]]. exists r, x. apply entry_get; [apply place_name|exact E].
      + intros (r & x & E). exists r. apply entry_get in E; [eauto|apply place_name].
    - intros n (r & x & E). assert (G : exists c, get_item (order_of (y_db s)) (db_src (y_db s)) n RRepos = Ok c).
      { apply (proj1 (good_agree (order_of (y_db s)) _ n RRepos Hg)), has_key_repos; [apply Hg|]. exists r. apply entry_get in E; [eauto|apply place_name]. }
      destruct G as [c G]. unfold get_item in G. destruct (get_item_repo (order_of (y_db s)) (db_src (y_db s)) n RRepos) as [[y q]|] eqn:E'; [|discriminate]. cbn in G. injection G as <-.
      pose proof E' as E1. apply first_repository in E' as (pre & r' & post & _ & -> & E2 & _).
      assert (Ny : sp_name y = n) by (eapply Nm; [apply (place_name r')|]; apply (entry_get (order_of (y_db s))); [apply place_name|exact E2]).
      cbn [bind fst snd]. rewrite Ny. destruct long; (eexists; split; [reflexivity|]; exists y, r'; split; [exact E1|reflexivity]).
    - rewrite E. cbn [bind]. eexists. split; [reflexivity|]. exact L.
  Qed.

  (** every repository, in priority order, with its address *)
  Lemma repos_listed s : system s -> exists uris, cmd_list_repo s = Ok (concat (map (fun ru : string * string => [fst ru; ("   " ++ snd ru)%string]) (combine (order_of (y_db s)) uris))) /\
    Forall2 (fun repo uri => rd_infos (db_repo (y_db s)) !! repo = Some uri) (order_of (y_db s)) uris /\ NoDup (order_of (y_db s)) /\
    forall repo, In repo (order_of (y_db s)) <-> has_repo (db_repo (y_db s)) repo = true.
  Proof.
    intros H. apply lived_yinv in H as [R _ _ _ _]. destruct (reachable_inv _ R) as [[Nd Hr] _].
    assert (F : exists uris, Forall2 (fun repo uri => rd_infos (db_repo (y_db s)) !! repo = Some uri) (order_of (y_db s)) uris).
    { assert (K : forall r, In r (order_of (y_db s)) -> is_Some (rd_infos (db_repo (y_db s)) !! r)) by (intros r K; now apply Hr).
      induction (order_of (y_db s)) as [|r l IH]; [exists []; constructor|]. destruct (K r) as [u U]; [now left|]. destruct IH as [us F]; [intros x X; apply K; now right|]. exists (u :: us). now constructor. }
    destruct F as [uris F]. exists uris. split; [|split; [exact F|split; [exact Nd|]]].
    - unfold cmd_list_repo. set (f := fun repo => match rd_infos (db_repo (y_db s)) !! repo with Some uri => Ok [repo; ("   " ++ uri)%string] | None => Err EKey end).
      replace (Py.mapM f (order_of (y_db s))) with (Ok (map (fun ru : string * string => [fst ru; ("   " ++ snd ru)%string]) (combine (order_of (y_db s)) uris)) : res _); [reflexivity|].
      symmetry. apply mapM_ok. clear Nd Hr R. induction F as [|r u rs us E F IH]; cbn; [constructor|]. constructor; [|exact IH]. unfold f. now rewrite E.
    - intros repo. rewrite has_repo_spec. symmetry. apply Hr.
  Qed.

  Lemma pending_printed s out : cmd_list_pending s = Ok out -> NoDup out /\ forall n, In n out <-> listed_pending s n.
  Proof.
    unfold cmd_list_pending, listed_pending. intros H. apply bind_ok in H as (l & E & [= <-]). split.
    - rewrite (list_pending_names _ _ E). apply nodup_keys.
    - intros n. split; [eauto|]. intros (l' & E' & K). assert (l' = l) by congruence. now subst.
  Qed.
End top.

(** ** Upgrades *)
Lemma filter_res_spec (f : string -> res bool) l :
  match filter_res f l with
  | Ok m => (NoDup l -> NoDup m) /\ forall x, In x m <-> In x l /\ f x = Ok true
  | Err e => exists x, In x l /\ f x = Err e
  end.
Proof.
  unfold filter_res.
  assert (G : forall l acc, match foldM (fun acc x => b <- f x ;; Ok (if b : bool then acc ++ [x] else acc)%list) l acc with
    | Ok m => (NoDup (acc ++ l) -> NoDup m) /\ forall x, In x m <-> In x acc \/ (In x l /\ f x = Ok true)
    | Err e => exists x, In x l /\ f x = Err e end).
  { clear l. induction l as [|a l IH]; intros acc; cbn [foldM].
    - split; [now rewrite app_nil_r|]. intros x. cbn. tauto.
    - destruct (f a) as [b|e] eqn:E; cbn [bind]; [|exists a; split; [now left|exact E]].
      specialize (IH (if b then acc ++ [a] else acc)). destruct (foldM _ l _) as [m|e].
      + destruct IH as [N I]. split.
        * intros H. apply N. destruct b; [now rewrite <- app_assoc|]. apply NoDup_app in H as (H1 & H2 & H3). apply NoDup_cons in H3 as [_ H3].
          apply NoDup_app. split; [exact H1|]. split; [|exact H3]. intros x K1 K2. apply (H2 x K1). now right.
        * intros x. rewrite I. destruct b.
          -- rewrite in_app_iff. cbn. split; [intros [[K|[<-|[]]]|[K1 K2]]; auto|intros [K|[[<-|K1] K2]]; auto].
          -- cbn. split; [intros [K|[K1 K2]]; auto|intros [K|[[<-|K1] K2]]; auto; congruence].
      + destruct IH as (x & K1 & K2). exists x. split; [now right|exact K2]. }
  specialize (G l []). destruct (foldM _ l []) as [m|e]; [|exact G]. destruct G as [G1 G2]. split; [exact G1|]. intros x. rewrite G2. cbn. tauto.
Qed.
Lemma upgradable_listed s : system s ->
  match list_upgradable s with
  | Ok l => NoDup l /\ forall n, In n l <-> upgrade_due s false n
  | Err e => e = EValue /\ exists n v r b p, is_installed (y_inst s) n = true /\ get_version (y_inst s) n = Ok (v, r, b) /\ offered s n p /\
      (~ DependencySpec.readable r \/ ~ DependencySpec.readable (p_release p))
  end.
Proof.
  intros H. pose proof (filter_res_spec (fun x => is_upgradable s x false) (list_installed (y_inst s))) as F. unfold list_upgradable.
  destruct (filter_res _ _) as [l|e].
  - destruct F as [N I]. split; [apply N, list_installed_nodup|]. intros n. rewrite I. pose proof (is_upgradable_spec s n false H) as U. split.
    + intros [_ E]. rewrite E in U. now apply U.
    + intros D. split.
      * apply list_installed_spec. destruct D as (v & r & b & p & D & _). exact D.
      * destruct (is_upgradable s n false) as [x|e]; [f_equal; now apply U|]. destruct U as (_ & U & _). now elim U.
  - destruct F as (n & _ & E). pose proof (is_upgradable_spec s n false H) as U. rewrite E in U. destruct U as (-> & _ & v & r & b & p & U). split; [reflexivity|]. eauto 10.
Qed.

(** ** info *)
Section info.
  Context (lang : string) (full : package -> string) (about_component component_text : component -> string) (package_in : string -> res package).
  Notation info := (cmd_info lang full about_component component_text package_in).
  Notation one := (info_one lang full about_component component_text package_in).


  Lemma component_known s n : system s -> (has_component (db_comp (y_db s)) n RRepos = Ok true <-> a_component s n).
  Proof.
    intros H. apply lived_yinv in H as [R _ _ _ _]. destruct (reachable_inv _ R) as [_ [_ _ _ _ Hg]]. unfold has_component. rewrite has_key_repos by apply Hg. unfold a_component, get_component. split.
    - intros [r [x E]]. exists r, x. apply entry_get; [apply place_name|exact E].
    - intros (r & x & E). exists r. apply entry_get in E; [eauto|apply place_name].
  Qed.
  Lemma has_key_total {A} (d : shelf A) n r : exists b, has_key d n r = Ok b.
  Proof. destruct (place_cases r) as [P|[->| ->]]; [rewrite has_key_place by exact P; eauto|cbn; eauto|cbn; eauto]. Qed.
  Lemma component_unknown s n : system s -> ~ a_component s n -> has_component (db_comp (y_db s)) n RRepos = Ok false.
  Proof.
    intros H N. unfold has_component. destruct (has_key_total (db_comp (y_db s)) n RRepos) as [[] E]; [|exact E]. elim N. now apply component_known.
  Qed.


  Lemma info_component s short n : system s -> a_component s n ->
    exists c, get_union_comp (order_of (y_db s)) (db_comp (y_db s)) n = Ok c /\
      one s short n = Ok [if short then (c_name c ++ " - " ++ about_component c)%string else component_text c].
  Proof.
    intros H C. apply (component_known s n H) in C. pose proof H as Y. apply lived_yinv in Y as [R _ _ _ _].
    destruct (get_union_comp_ok _ n R C) as [c E]. exists c. split; [exact E|]. unfold info_one. rewrite C. cbn [bind]. rewrite E. reflexivity.
  Qed.
  Lemma info_file s short n : system s -> ~ a_component s n -> package_file n ->
    match package_in n with
    | Ok p => exists ls, one s short n = Ok (("Package file: " ++ n)%string :: ls) /\ short_text lang full short p ls
    | Err e => one s short n = Err e
    end.
  Proof.
    intros H N F. unfold info_one. rewrite (component_unknown s n H N). cbn [bind]. replace (py_endswith n package_suffix) with true.
    2:{ symmetry. apply endswith_iff. destruct F as [x ->]. now exists x. }
    destruct (package_in n) as [p|e]; [|reflexivity]. cbn [bind]. eexists. split; [reflexivity|]. unfold short_text. destruct short; [|reflexivity].
    eexists _, _. split; [apply right_in_flush|]. split; [apply local_text_ok|]. reflexivity.
  Qed.
  Lemma info_name s short n : system s -> ~ a_component s n -> ~ package_file n ->
    (installed s n \/ (exists p, offered s n p) -> one s short n = Err EAttribute) /\
    (~ installed s n -> (forall p, ~ offered s n p) -> one s short n = Ok []).
  Proof.
    intros H N F. unfold info_one. rewrite (component_unknown s n H N). cbn [bind]. replace (py_endswith n package_suffix) with false.
    2:{ symmetry. destruct (py_endswith n package_suffix) eqn:E; [|reflexivity]. elim F. apply endswith_iff in E as [x ->]. now exists x. }
    unfold installed, offered. pose proof H as Y. apply lived_yinv in Y as [R _ _ _ _]. destruct (reachable_inv _ R) as [_ [Hg _ _ _ _]].
    pose proof (good_agree (order_of (y_db s)) _ n RRepos Hg) as [A1 A2]. unfold has_package, get_package. split.
    - intros K. destruct (is_installed (y_inst s) n); [reflexivity|]. destruct K as [K|K]; [discriminate K|]. apply A1 in K. rewrite K. reflexivity.
    - intros K1 K2. destruct (is_installed (y_inst s) n); [now elim K1|]. destruct (has_key_total (db_pkg (y_db s)) n RRepos) as [[] E]; rewrite E; [|reflexivity].
      apply A1 in E as [p E]. now elim (K2 p).
  Qed.
  (** the arguments one after the other *)
  Lemma info_all s short args : match info s short args with
    | Ok out => exists parts, Forall2 (fun n part => one s short n = Ok part) args parts /\ out = concat parts
    | Err e => exists before n after, args = before ++ n :: after /\ one s short n = Err e /\ forall m, In m before -> exists part, one s short m = Ok part
    end.
  Proof.
    unfold cmd_info. assert (G : match Py.mapM (one s short) args with
      | Ok parts => Forall2 (fun n part => one s short n = Ok part) args parts
      | Err e => exists before n after, args = before ++ n :: after /\ one s short n = Err e /\ forall m, In m before -> exists part, one s short m = Ok part end).
    { induction args as [|a args IH]; [constructor|]. cbn [Py.mapM]. destruct (one s short a) as [l|e] eqn:E; cbn [bind].
      - destruct (Py.mapM (one s short) args) as [ls|e]; cbn [bind]; [now constructor|].
        destruct IH as (b & n & c & -> & E1 & I). exists (a :: b), n, c. split; [reflexivity|]. split; [exact E1|]. intros m [<-|K]; [eauto|auto].
      - exists [], a, args. split; [reflexivity|]. split; [exact E|]. intros m []. }
    destruct (Py.mapM (one s short) args) as [parts|e]; cbn [bind]; [exists parts; now split|exact G].
  Qed.
End info.

(** ** As the properties say it *)
Lemma first_listed s repo n p first : system s -> carries s repo n p -> first_with s n first ->
  (forall before after, order_of (y_db s) = before ++ repo :: after -> forall r q, In r before -> ~ carries s r n q) -> first = repo.
Proof.
  intros H C (b & a & q & E & C1 & B) O. destruct (string_eq_dec first repo) as [D|D]; [exact D|]. exfalso.
  assert (I : In repo (order_of (y_db s))).
  { destruct (some_repo s repo n p H C) as (f & x & F & Cx & G). apply lived_yinv in H as [R _ _ _ _]. destruct (reachable_inv _ R) as [_ [Hg _ _ _ _]].
    unfold carries, get_package in C. apply entry_get in C; [|apply place_name]. apply (proj2 Hg n repo). eauto. }
  apply in_split in I as (b2 & a2 & E2). rewrite E in E2.
  assert (K : In first b2 \/ In repo b).
  { clear - E2 D. revert b2 E2. induction b as [|x b IH]; intros [|y b2] E2; cbn in E2; injection E2; intros.
    - now elim D. - subst. left. now left. - subst. right. now left. - subst. destruct (IH b2 H) as [K|K]; [left|right]; now right. }
  destruct K as [K|K]; [|exact (B _ _ K C)]. rewrite <- E in E2. exact (O _ _ E2 _ _ K C1).
Qed.
Lemma repos_listed_std s : system s -> exists uris, cmd_list_repo s = Ok (concat (map (fun ru : string * string => [fst ru; ("   " ++ snd ru)%string]) (combine (order_of (y_db s)) uris))) /\
    Forall2 (fun repo uri => rd_infos (db_repo (y_db s)) !! repo = Some uri) (order_of (y_db s)) uris /\ List.NoDup (order_of (y_db s)) /\
    forall repo, In repo (order_of (y_db s)) <-> has_repo (db_repo (y_db s)) repo = true.
Proof. intros H. destruct (repos_listed s H) as (u & A & B & C & D). exists u. split; [exact A|]. split; [exact B|]. split; [now apply NoDup_ListNoDup|exact D]. Qed.
Lemma pending_printed_std s out : cmd_list_pending s = Ok out -> List.NoDup out /\ forall n, In n out <-> listed_pending s n.
Proof. intros H. destruct (pending_printed s out H) as [A B]. split; [now apply NoDup_ListNoDup|exact B]. Qed.
Lemma upgradable_listed_std s : system s ->
  match list_upgradable s with
  | Ok l => List.NoDup l /\ forall n, In n l <-> upgrade_due s false n
  | Err e => e = EValue /\ exists n v r b p, installed s n /\ get_version (y_inst s) n = Ok (v, r, b) /\ offered s n p /\
      (~ DependencySpec.readable r \/ ~ DependencySpec.readable (p_release p))
  end.
Proof. intros H. pose proof (upgradable_listed s H) as U. destruct (list_upgradable s); [|exact U]. destruct U as [A B]. split; [now apply NoDup_ListNoDup|exact B]. Qed.
Lemma info_component_std lang full about_component component_text package_in s short n : system s -> a_component s n ->
  exists c, info_one lang full about_component component_text package_in s short n =
      Ok [if short then (c_name c ++ " - " ++ about_component c)%string else component_text c] /\
    (forall p, In p (c_packages c) <-> exists r, In r (order_of (y_db s)) /\ lists_package (y_db s) n (RName r) p) /\
    (forall p, In p (c_sources c) <-> exists r, In r (order_of (y_db s)) /\ lists_source (y_db s) n (RName r) p) /\
    List.NoDup (c_packages c) /\ List.NoDup (c_sources c).
Proof.
  intros H C. destruct (info_component lang full about_component component_text package_in s short n H C) as (c & E & I). exists c. split; [exact I|].
  apply get_union_comp_spec in E as (A & B & N1 & N2). split; [exact A|]. split; [exact B|]. split; now apply NoDup_ListNoDup.
Qed.
