(** * The database properties, in terms of the lookups *)
From stdpp Require Import gmap strings.
From Verif Require Import Model.Py Model.ItemByRepo Spec.ItemByRepoSpec Proof.PyFacts Proof.ItemByRepoFacts.
Open Scope string_scope.
Open Scope list_scope.

Section main.
  Context {A : Type}.
  Implicit Types (d : shelf A) (n : string) (order : list string).

  Lemma entry_get order d n q x : place q -> (get_item order d n q = Ok x <-> entry d n q = Some x).
  Proof. intros H. rewrite get_item_place by exact H. destruct (entry d n q); split; congruence. Qed.
  Lemma entry_missing order d n q : place q -> (missing (get_item order d n q) <-> entry d n q = None).
  Proof.
    intros H. rewrite get_item_place by exact H. unfold missing. destruct (entry d n q); split; try congruence; eauto.
    intros [e He]. discriminate He.
  Qed.

  Lemma map_split_inv {X Y} (f : X -> Y) l pre y post :
    map f l = pre ++ y :: post -> exists p x q, l = p ++ x :: q /\ map f p = pre /\ f x = y /\ map f q = post.
  Proof.
    intros H. apply map_eq_app in H as (p & l2 & -> & H1 & H2).
    destruct l2 as [|x q]; [discriminate H2|]. injection H2 as H2 H3. exists p, x, q. auto.
  Qed.

  Lemma first_repository order d n x q :
    get_item_repo order d n RRepos = Ok (x, q) <->
    exists pre r post, order = pre ++ r :: post /\ q = RName r /\ get_item order d n (RName r) = Ok x /\
      forall r', In r' pre -> missing (get_item order d n (RName r')).
  Proof.
    rewrite get_item_repo_cands. simpl. split.
    - intros (pre & post & H & He & Hn). apply map_split_inv in H as (p & r & q' & -> & <- & <- & <-).
      exists p, r, q'. repeat split; [apply entry_get; [apply place_name|exact He]|].
      intros r' Hr'. apply entry_missing; [apply place_name|]. apply Hn. apply in_map_iff. eauto.
    - intros (pre & r & post & -> & -> & He & Hn). exists (map RName pre), (map RName post).
      split; [now rewrite map_app|]. split; [now apply entry_get in He; [|apply place_name]|].
      intros q' Hq. apply in_map_iff in Hq as (r' & <- & Hr'). apply (entry_missing (pre ++ r :: post)); [apply place_name|]. auto.
  Qed.

  Lemma lookup_fails order d n :
    missing (get_item order d n RRepos) <-> forall r, In r order -> missing (get_item order d n (RName r)).
  Proof.
    assert (E : missing (get_item order d n RRepos) <-> get_item_repo order d n RRepos = Err EError).
    { unfold get_item. destruct (get_item_repo_err order d n RRepos) as [->|[x ->]]; simpl; unfold missing; split; intros H; eauto.
      - destruct H; discriminate. - discriminate H. }
    rewrite E, get_item_repo_none. simpl. split; intros H.
    - intros r Hr. apply entry_missing; [apply place_name|]. apply H. apply in_map_iff. eauto.
    - intros q Hq. apply in_map_iff in Hq as (r & <- & Hr). apply (entry_missing order); [apply place_name|auto].
  Qed.

  Lemma which_repo_is order d n q :
    which_repo order d n = Ok q <-> exists x, get_item_repo order d n RRepos = Ok (x, q).
  Proof.
    unfold which_repo. destruct (get_item_repo order d n RRepos) as [[x q']|e]; simpl; split.
    - intros [= <-]. eauto. - intros (y & [= -> ->]). reflexivity. - discriminate. - intros (y & H). discriminate H.
  Qed.

  Lemma get_item_repo_get order d n r x :
    get_item order d n r = Ok x <-> exists q, get_item_repo order d n r = Ok (x, q).
  Proof.
    unfold get_item. destruct (get_item_repo order d n r) as [[y q]|e]; simpl; split.
    - intros [= <-]. eauto. - intros (q' & [= -> _]). reflexivity. - discriminate. - intros (q & H). discriminate H.
  Qed.

  (** any place: the repositories in order, then third party, then installed *)
  Lemma any_place order d n x :
    get_item order d n RAll = Ok x <->
    get_item order d n RRepos = Ok x \/
    missing (get_item order d n RRepos) /\ get_item order d n RThird = Ok x \/
    missing (get_item order d n RRepos) /\ missing (get_item order d n RThird) /\ get_item order d n RInst = Ok x.
  Proof.
    rewrite lookup_fails. rewrite (entry_missing order d n RThird place_third).
    rewrite (entry_get order d n RThird x place_third), (entry_get order d n RInst x place_inst).
    rewrite (get_item_repo_get order d n RAll), (get_item_repo_get order d n RRepos).
    assert (EM : forall r, missing (get_item order d n (RName r)) <-> entry d n (RName r) = None)
      by (intros r; apply entry_missing, place_name).
    setoid_rewrite EM.
    setoid_rewrite get_item_repo_cands. simpl. split.
    - intros (q & pre & post & H & He & Hn).
      assert (C : (exists p r s, order = p ++ r :: s /\ q = RName r /\ pre = map RName p) \/
                  (q = RThird /\ pre = map RName order) \/ (q = RInst /\ pre = map RName order ++ [RThird])).
      { clear He Hn EM. revert pre H. induction order as [|o order IH]; intros pre H; simpl in H.
        - destruct pre as [|p1 [|p2 [|p3 pre]]]; simpl in H; try discriminate H.
          + injection H as <- _. right. left. auto.
          + injection H as <- <- _. right. right. auto.
        - destruct pre as [|p1 pre]; simpl in H.
          + injection H as <- _. left. exists [], o, order. auto.
          + injection H as <- H. destruct (IH pre H) as [(p & r & s & -> & -> & ->)|[[-> ->]|[-> ->]]].
            * left. exists (o :: p), r, s. auto. * right. left. auto. * right. right. auto. }
      destruct C as [(p & r & s & -> & -> & ->)|[[-> ->]|[-> ->]]].
      + left. exists (RName r), (map RName p), (map RName s). split; [now rewrite map_app|]. auto.
      + right. left. split; [|exact He]. intros r Hr. apply Hn. apply in_map_iff. eauto.
      + right. right. split; [|split; [|exact He]].
        * intros r Hr. apply Hn. apply in_or_app. left. apply in_map_iff. eauto.
        * apply Hn. apply in_or_app. right. left. reflexivity.
    - intros [(q & pre & post & H & He & Hn)|[[H He]|(H & H3 & He)]].
      + exists q, pre, (post ++ [RThird; RInst]). split; [rewrite H, <- app_assoc; reflexivity|auto].
      + exists RThird, (map RName order), [RInst]. split; [reflexivity|]. split; [exact He|].
        intros q Hq. apply in_map_iff in Hq as (r & <- & Hr). auto.
      + exists RInst, (map RName order ++ [RThird]), []. split; [rewrite <- app_assoc; reflexivity|]. split; [exact He|].
        intros q Hq. apply in_app_or in Hq as [Hq|[<-|[]]]; [|exact H3]. apply in_map_iff in Hq as (r & <- & Hr). auto.
  Qed.

  (** ** histories *)
  Lemma wf_remove_item order d n r d' : wf d -> remove_item order d n r = Ok d' -> wf d'.
  Proof.
    intros Hw. unfold remove_item. destruct (is_wildcard r); [|apply wf_remove; exact Hw].
    unfold remove_item_only. destruct (which_repo order d n); simpl; [apply wf_remove; exact Hw|discriminate].
  Qed.
  Lemma wf_remove_repo d r d' : wf d -> remove_repo_items d r = Ok d' -> wf d'.
  Proof.
    intros Hw H. destruct (place_cases r) as [Hp|Hw'].
    - destruct (remove_repo_spec d r Hp Hw) as (d2 & E & Hd2 & _). rewrite H in E. injection E as ->. exact Hd2.
    - assert (~ place r) as Hn by (unfold place; intuition congruence).
      destruct (remove_repo_wild d r Hn) as [E|E]; rewrite H in E; [discriminate E|injection E as ->; exact Hw].
  Qed.
  Lemma history_wf d : history d -> wf d.
  Proof.
    induction 1 as [|order d c d' H IH E]; [apply wf_empty|].
    destruct c; simpl in E; eauto using wf_add, wf_remove_item, wf_remove_repo.
  Qed.

  Lemma listed_entry order d : listed order d <-> forall n r, is_Some (entry d n (RName r)) -> In r order.
  Proof.
    unfold listed. setoid_rewrite has_key_place; [|apply place_name].
    split; intros H n r Hr; apply (H n r).
    - f_equal. now apply bool_decide_eq_true.
    - injection Hr as Hr. now apply bool_decide_eq_true in Hr.
  Qed.

  Lemma has_get order d n r : wf d -> listed order d ->
    (has_key d n r = Ok true <-> exists x, get_item order d n r = Ok x) /\
    (has_key d n r = Ok false <-> missing (get_item order d n r)).
  Proof.
    intros Hw Hl. rewrite listed_entry in Hl.
    assert (T : has_key d n r = Ok true <-> exists x, get_item order d n r = Ok x).
    { destruct (place_cases r) as [Hp|[->| ->]].
      - rewrite has_key_place by exact Hp. setoid_rewrite (entry_get order d n r); [|exact Hp].
        split; intros H.
        + injection H as H. apply bool_decide_eq_true in H. destruct H as [x Hx]. eauto.
        + f_equal. apply bool_decide_eq_true. destruct H as [x Hx]. eauto.
      - rewrite has_key_repos by exact Hw. split.
        + intros (nm & Hnm). destruct (get_item order d n RRepos) as [x|e] eqn:E; [eauto|].
          assert (M : missing (get_item order d n RRepos)) by (exists e; exact E).
          rewrite lookup_fails in M. specialize (M nm (Hl _ _ Hnm)).
          apply entry_missing in M; [|apply place_name]. rewrite M in Hnm. destruct Hnm; discriminate.
        + intros (x & Hx). apply get_item_repo_get in Hx as [q Hq]. apply first_repository in Hq as (pre & r & post & _ & _ & Hg & _).
          apply entry_get in Hg; [|apply place_name]. exists r. eauto.
      - rewrite has_key_all by exact Hw. split.
        + intros (q & Hq & Hs). destruct (get_item order d n RAll) as [x|e] eqn:E; [eauto|].
          assert (M : get_item_repo order d n RAll = Err EError).
          { unfold get_item in E. destruct (get_item_repo_err order d n RAll) as [K|[[y q'] K]]; [exact K|]. rewrite K in E. discriminate E. }
          rewrite get_item_repo_none in M. rewrite M in Hs; [destruct Hs; discriminate|].
          simpl. apply in_or_app. destruct q as [| | | |nm]; try (now destruct Hq); simpl; auto.
          left. apply in_map_iff. exists nm. split; [reflexivity|]. apply (Hl n nm Hs).
        + intros (x & Hx). apply get_item_repo_get in Hx as [q Hq]. apply get_item_repo_cands in Hq as (pre & post & Hc & He & _).
          exists q. split; [|eauto]. apply (cands_place order RAll). rewrite Hc. apply in_or_app. right. now left. }
    split; [exact T|].
    assert (B : exists b, has_key d n r = Ok b).
    { destruct (place_cases r) as [Hp|[->| ->]]; [rewrite has_key_place by exact Hp|simpl|simpl]; eauto. }
    destruct B as [[] B]; rewrite B in *.
    - split; [discriminate|]. intros [e He]. destruct (proj1 T eq_refl) as [x Hx]. congruence.
    - split; [intros _|auto]. destruct (get_item order d n r) as [x|e] eqn:E; [|now exists e].
      assert (Ok false = Ok true) by (apply T; eauto). discriminate.
  Qed.

  (** ** C24 *)
  Lemma add_effect order d n x r d' : add_item d n x r = Ok d' ->
    get_item order d' n r = Ok x /\
    forall n' r', place r' -> (n', r') <> (n, r) -> get_item order d' n' r' = get_item order d n' r'.
  Proof.
    intros H. assert (Hp : place r).
    { apply place_wildcard. unfold add_item in H. destruct (is_wildcard r); [discriminate H|reflexivity]. }
    rewrite add_item_ok in H by exact Hp. injection H as <-. split.
    - apply entry_get; [exact Hp|]. rewrite entry_add by assumption. now rewrite bool_decide_true.
    - intros n' r' Hp' Hne. rewrite !get_item_place, entry_add by assumption.
      rewrite bool_decide_false; [reflexivity|]. intros [-> ->]. now apply Hne.
  Qed.
  Lemma add_possible d n x r : (exists d', add_item d n x r = Ok d') <-> place r.
  Proof.
    split; [intros [d' H]|intros H; rewrite add_item_ok by exact H; eauto].
    apply place_wildcard. unfold add_item in H. destruct (is_wildcard r); [discriminate H|reflexivity].
  Qed.
  Lemma remove_effect order d n r d' : place r -> remove_item order d n r = Ok d' ->
    missing (get_item order d' n r) /\
    forall n' r', place r' -> (n', r') <> (n, r) -> get_item order d' n' r' = get_item order d n' r'.
  Proof.
    intros Hp H. unfold remove_item in H. rewrite (proj2 (place_wildcard r) Hp) in H. split.
    - apply entry_missing; [exact Hp|]. rewrite (entry_remove d n r d' n r Hp Hp H). now rewrite bool_decide_true.
    - intros n' r' Hp' Hne. rewrite !get_item_place by assumption. rewrite (entry_remove d n r d' n' r' Hp Hp' H).
      rewrite bool_decide_false; [reflexivity|]. intros [-> ->]. now apply Hne.
  Qed.
  Lemma remove_wild_effect order d n r d' : ~ place r -> 
    (remove_item order d n r = Ok d' <->
     exists q, which_repo order d n = Ok q /\ remove_item order d n q = Ok d').
  Proof.
    intros Hp. unfold remove_item at 1.
    assert (is_wildcard r = true) as -> by (destruct (is_wildcard r) eqn:E; [reflexivity|now apply place_wildcard in E]).
    unfold remove_item_only. destruct (which_repo order d n) as [q|e] eqn:E; simpl.
    - assert (W : is_wildcard q = false).
      { apply place_wildcard. apply which_repo_is in E as [x E]. apply first_repository in E as (pre & r' & post & _ & -> & _). apply place_name. }
      split.
      + intros H. exists q. split; [reflexivity|]. unfold remove_item. now rewrite W.
      + intros (q' & [= <-] & H). unfold remove_item in H. now rewrite W in H.
    - split; [discriminate|]. intros (q & H & _). discriminate H.
  Qed.
  Lemma remove_possible order d n r : place r -> (exists d', remove_item order d n r = Ok d') <-> is_Some (d !! n).
  Proof.
    intros Hp. unfold remove_item. rewrite (proj2 (place_wildcard r) Hp), remove_item_repo_ok by exact Hp.
    destruct (d !! n); split; intros H; eauto; destruct H; discriminate.
  Qed.
  (** no name lingers: listed under "anything" exactly if some place has it *)
  Lemma list_all_exact d n l : history d -> list_items d RAll = Ok l ->
    (In n l <-> exists q x, place q /\ get_item [] d n q = Ok x).
  Proof.
    intros Hh [= <-]. apply history_wf in Hh. transitivity (is_Some (d !! n)).
    - rewrite <- elem_of_list_In, elem_of_list_fmap. split.
      + intros ([n' m] & -> & Hm). apply elem_of_map_to_list in Hm. eauto.
      + intros [m Hm]. exists (n, m). split; [reflexivity|]. now apply elem_of_map_to_list.
    - rewrite wf_lookup by exact Hh. split.
      + intros (q & Hq & [x Hx]). exists q, x. split; [exact Hq|]. now apply entry_get.
      + intros (q & x & Hq & Hx). exists q. split; [exact Hq|]. apply entry_get in Hx; eauto.
  Qed.
  Lemma list_exact order d n r l : history d -> listed order d -> list_items d r = Ok l ->
    NoDup l /\ (In n l <-> exists x, get_item order d n r = Ok x).
  Proof.
    intros Hh Hl. apply history_wf in Hh. rewrite <- (proj1 (has_get order d n r Hh Hl)).
    assert (ND : forall P : string * gmap string A -> bool, NoDup (List.filter P (map_to_list d)).*1).
    { intros P. pose proof (NoDup_fst_map_to_list d) as N. induction (map_to_list d) as [|[k m] ms IH]; simpl; [constructor|].
      inversion N as [|? ? N1 N2]; subst. destruct (P (k, m)); simpl; [|auto]. constructor; [|auto].
      intros Hin. apply N1. apply elem_of_list_fmap in Hin as ([k' m'] & E & Hin). simpl in E. subst k'.
      apply elem_of_list_In, filter_In in Hin as [Hin _]. apply elem_of_list_fmap. exists (k, m'). split; [reflexivity|]. now apply elem_of_list_In. }
    assert (IN : forall P : string * gmap string A -> bool, In n (List.filter P (map_to_list d)).*1 <-> exists m, d !! n = Some m /\ P (n, m) = true).
    { intros P. rewrite <- elem_of_list_In, elem_of_list_fmap. split.
      - intros ([n' m] & -> & Hm). apply elem_of_list_In, filter_In in Hm as [Hm Hp]. apply elem_of_list_In, elem_of_map_to_list in Hm. eauto.
      - intros (m & Hm & Hp). exists (n, m). split; [reflexivity|]. apply elem_of_list_In, filter_In. split; [|exact Hp].
        now apply elem_of_list_In, elem_of_map_to_list. }
    destruct (place_cases r) as [Hp|[->| ->]].
    - assert (E : list_items d r = Ok (List.filter (fun kv : string * gmap string A => has (pkey r) kv.2) (map_to_list d)).*1).
      { unfold list_items. pose proof (repo_str_place r Hp) as R. destruct r; try (now destruct Hp); now rewrite R. }
      rewrite E. intros [= <-]. split; [apply ND|]. rewrite IN, has_key_place by exact Hp. simpl. unfold entry. split.
      + intros (m & Hm & Hs). f_equal. apply bool_decide_eq_true. rewrite Hm. simpl. now apply has_is_some.
      + intros [= Hs]. apply bool_decide_eq_true in Hs. destruct (d !! n) as [m|]; simpl in Hs; [|destruct Hs; discriminate].
        exists m. split; [reflexivity|]. now apply has_is_some.
    - simpl. intros [= <-]. split; [apply ND|]. rewrite IN. simpl. destruct (d !! n) as [m|]; split.
      + intros (m' & [= <-] & H). now rewrite H. + intros [= H]. eauto. + intros (m' & H & _). discriminate H. + discriminate.
    - simpl. intros [= <-]. split; [apply NoDup_fst_map_to_list|].
      rewrite <- elem_of_list_In, elem_of_list_fmap. split.
      + intros ([n' m] & -> & Hm). apply elem_of_map_to_list in Hm. simpl. now rewrite Hm.
      + destruct (d !! n) as [m|] eqn:Em; [|discriminate]. intros _. exists (n, m). split; [reflexivity|]. now apply elem_of_map_to_list.
  Qed.

  (** ** C25 at one database *)
  Lemma remove_repo_exact order d r d' : place r -> history d -> remove_repo_items d r = Ok d' ->
    (forall n, missing (get_item order d' n r)) /\
    forall n q, place q -> q <> r -> get_item order d' n q = get_item order d n q.
  Proof.
    intros Hp Hh H. apply history_wf in Hh. destruct (remove_repo_spec d r Hp Hh) as (d2 & E & _ & S).
    assert (d2 = d') as -> by congruence. split.
    - intros n. apply entry_missing; [exact Hp|]. rewrite S by exact Hp. now rewrite bool_decide_true.
    - intros n q Hq Hne. rewrite !get_item_place by exact Hq. rewrite S by exact Hq. now rewrite bool_decide_false.
  Qed.
  Lemma remove_repo_possible d r : place r -> history d -> exists d', remove_repo_items d r = Ok d'.
  Proof. intros Hp Hh. apply history_wf in Hh. destruct (remove_repo_spec d r Hp Hh) as (d2 & E & _). eauto. Qed.
End main.
