(** * Facts about the per-repository databases *)
From stdpp Require Import gmap strings.
From Verif Require Import Model.Py Model.ItemByRepo Spec.ItemByRepoSpec Proof.PyFacts.
Open Scope string_scope.
Open Scope list_scope.

(** ** keys *)
Definition pkey (r : rarg) : string :=
  match r with RInst => "inst" | RThird => "trdparty" | RName n => "repo-" +:+ n | _ => "" end.

Lemma repo_str_place r : place r -> repo_str r = Ok (pkey r).
Proof. intros [H1 H2]. destruct r; simpl; congruence. Qed.
Lemma repo_str_ok r s : repo_str r = Ok s <-> place r /\ s = pkey r.
Proof.
  unfold place. destruct r; simpl; split; intros H; try (injection H as <-); try discriminate H.
  all: try (split; [split; discriminate|reflexivity]).
  all: try (destruct H as [_ ->]; reflexivity).
  all: destruct H as [[H1 H2] _]; congruence.
Qed.
Lemma repo_app_inj a b : "repo-" +:+ a = "repo-" +:+ b -> a = b.
Proof. intros H. now injection H. Qed.
Lemma pkey_inj r r' : place r -> place r' -> pkey r = pkey r' -> r = r'.
Proof.
  intros [] []. destruct r, r'; simpl; intros E; try congruence; try discriminate E.
  injection E as ->. reflexivity.
Qed.
Lemma startswith_repo n : py_startswith ("repo-" +:+ n) "repo-" = true.
Proof. simpl. now destruct n. Qed.
Lemma str_repo_pkey r : place r -> str_repo (pkey r) = Ok r.
Proof. intros []. destruct r as [| | | |nm]; simpl; try congruence; try reflexivity. unfold str_repo. simpl. now destruct nm. Qed.
Lemma str_repo_ok s r : str_repo s = Ok r -> place r /\ s = pkey r.
Proof.
  unfold str_repo. destruct (py_startswith s "repo-") eqn:E.
  - intros [= <-]. split; [split; discriminate|].
    apply startswith_iff in E. destruct E as [r ->]. reflexivity.
  - destruct (String.eqb_spec s "trdparty") as [->|]; [intros [= <-]; split; [split; discriminate|reflexivity]|].
    destruct (String.eqb_spec s "inst") as [->|]; [intros [= <-]; split; [split; discriminate|reflexivity]|].
    discriminate.
Qed.

Lemma place_cases r : place r \/ r = RRepos \/ r = RAll.
Proof. unfold place. destruct r; intuition discriminate. Qed.
Lemma place_name n : place (RName n). Proof. split; discriminate. Qed.
Lemma place_inst : place RInst. Proof. split; discriminate. Qed.
Lemma place_third : place RThird. Proof. split; discriminate. Qed.
Lemma place_wildcard r : is_wildcard r = false <-> place r.
Proof. unfold place. destruct r; simpl; intuition congruence. Qed.

Section facts.
  Context {A : Type}.
  Implicit Types (d : shelf A).

  Definition entry d (n : string) (r : rarg) : option A := d !! n ≫= (.!! pkey r).

  Lemma has_is_some (k : string) (m : gmap string A) : has k m = true <-> is_Some (m !! k).
  Proof. unfold has. destruct (m !! k); split; intros H; try discriminate H; [eauto|reflexivity|now destruct H]. Qed.

  Lemma has_key_place d n r : place r -> has_key d n r = Ok (bool_decide (is_Some (entry d n r))).
  Proof.
    intros H. unfold has_key, entry. pose proof (repo_str_place r H) as E.
    destruct r; try (now destruct H); rewrite E; simpl; f_equal; destruct (d !! n); simpl; try reflexivity;
      unfold has; destruct (_ !! _); reflexivity.
  Qed.

  Lemma get_item_repo_place order d n r : place r ->
    get_item_repo order d n r = match entry d n r with Some x => Ok (x, r) | None => Err EError end.
  Proof.
    intros H. unfold get_item_repo, entry. pose proof (repo_str_place r H) as E.
    destruct (d !! n); simpl; [|reflexivity].
    destruct r; try (now destruct H); rewrite E; simpl; destruct (_ !! _); reflexivity.
  Qed.
  Lemma get_item_place order d n r : place r ->
    get_item order d n r = match entry d n r with Some x => Ok x | None => Err EError end.
  Proof. intros H. unfold get_item. rewrite get_item_repo_place by exact H. now destruct (entry d n r). Qed.

  (** ** wildcard lookups *)
  Lemma first_of_spec ks (m : gmap string A) k x : first_of ks m = Some (k, x) <->
    exists pre post, ks = pre ++ k :: post /\ m !! k = Some x /\ forall k', In k' pre -> m !! k' = None.
  Proof.
    revert k x. induction ks as [|k0 ks IH]; intros k x; simpl.
    - split; [discriminate|]. intros (pre & post & H & _). destruct pre; discriminate H.
    - destruct (m !! k0) as [x0|] eqn:E.
      + split.
        * intros [= <- <-]. exists [], ks. repeat split; [exact E|]. intros k' [].
        * intros (pre & post & H & Hk & Hp). destruct pre as [|p pre]; simpl in H.
          -- injection H as <- <-. congruence.
          -- injection H as <- ->. rewrite (Hp k0) in E by now left. discriminate E.
      + rewrite IH. split.
        * intros (pre & post & -> & Hk & Hp). exists (k0 :: pre), post. repeat split; [exact Hk|].
          intros k' [<-|H]; auto.
        * intros (pre & post & H & Hk & Hp). destruct pre as [|p pre]; simpl in H.
          -- injection H as <- <-. congruence.
          -- injection H as <- ->. exists pre, post. repeat split; [exact Hk|]. intros; apply Hp; now right.
  Qed.
  Lemma first_of_none ks (m : gmap string A) : first_of ks m = None <-> forall k, In k ks -> m !! k = None.
  Proof.
    induction ks as [|k ks IH]; simpl; [split; [intros _ k []|reflexivity]|].
    destruct (m !! k) eqn:E.
    - split; [discriminate|]. intros H. rewrite (H k) in E by now left. discriminate E.
    - rewrite IH. split; intros H; [intros k' [<-|K]; auto|]. intros k' K; apply H; now right.
  Qed.

  (** The candidate places of a wildcard lookup, in order. *)
  Definition cands (order : list string) (r : rarg) : list rarg :=
    match r with
    | RRepos => map RName order
    | RAll => map RName order ++ [RThird; RInst]
    | r => [r]
    end.
  Lemma cands_place order r r' : In r' (cands order r) -> place r'.
  Proof.
    destruct (place_cases r) as [H|[->| ->]]; simpl.
    - destruct r; simpl; try (now destruct H); intros [<-|[]]; exact H.
    - rewrite in_map_iff. intros (x & <- & _). apply place_name.
    - rewrite in_app_iff, in_map_iff. intros [(x & <- & _)|[<-|[<-|[]]]]; split; discriminate.
  Qed.
  Lemma repo_order_cands order r : ~ place r -> repo_order order r = Ok (map pkey (cands order r)).
  Proof.
    intros H. destruct (place_cases r) as [K|[->| ->]]; [contradiction| |]; simpl.
    - now rewrite map_map.
    - now rewrite map_app, map_map.
  Qed.

  Lemma get_item_repo_cands order d n r x r' :
    get_item_repo order d n r = Ok (x, r') <->
    exists pre post, cands order r = pre ++ r' :: post /\ entry d n r' = Some x /\
                     forall q, In q pre -> entry d n q = None.
  Proof.
    destruct (place_cases r) as [Hp|Hw].
    - rewrite get_item_repo_place by exact Hp.
      assert (E : cands order r = [r]) by (destruct r; try reflexivity; now destruct Hp). rewrite E.
      destruct (entry d n r) eqn:En.
      + split.
        * intros [= <- <-]. exists [], []. repeat split; [exact En|]. intros q [].
        * intros (pre & post & H & He & _). destruct pre as [|p [|q pre]]; simpl in H; try discriminate H.
          injection H as <- <-. congruence.
      + split; [discriminate|]. intros (pre & post & H & He & _).
        destruct pre as [|p [|q pre]]; simpl in H; try discriminate H. injection H as <- <-. congruence.
    - assert (Hn : ~ place r) by (destruct Hw as [->| ->]; intros []; congruence).
      unfold get_item_repo, entry. destruct (d !! n) as [m|] eqn:Em; simpl.
      + assert (E : (match r with
                     | RRepos | RAll => ks <- repo_order order r ;;
                         match first_of ks m with Some (k, x0) => r'0 <- str_repo k ;; Ok (x0, r'0) | None => Err EError end
                     | _ => rs <- repo_str r ;; match m !! rs with Some x0 => Ok (x0, r) | None => Err EError end
                     end) = (match first_of (map pkey (cands order r)) m with
                             | Some (k, x0) => r'0 <- str_repo k ;; Ok (x0, r'0) | None => Err EError end)).
        { rewrite (repo_order_cands order r Hn). destruct Hw as [->| ->]; reflexivity. }
        rewrite E. clear E. destruct (first_of _ m) as [[k x0]|] eqn:Ef.
        * apply first_of_spec in Ef. destruct Ef as (pre & post & Hk & Hx & Hpre).
          apply map_eq_app in Hk. destruct Hk as (cpre & crest & Hc & <- & Hrest).
          apply map_eq_cons in Hrest. destruct Hrest as (c & cpost & -> & <- & <-).
          assert (Hpl : place c) by (apply (cands_place order r); rewrite Hc, in_app_iff; simpl; tauto).
          rewrite (str_repo_pkey c Hpl). simpl. split.
          -- intros [= <- <-]. exists cpre, cpost. repeat split; [exact Hc|exact Hx|].
             intros q Hq. apply Hpre. now apply in_map.
          -- intros (pre' & post' & Hc' & Hx' & Hpre').
             assert (E : c = r').
             { rewrite Hc in Hc'. clear -Hc' Hx Hx' Hpre Hpre'. revert pre' Hc' Hpre'.
               induction cpre as [|a cpre IH]; intros [|b pre'] Hc' Hpre'; simpl in Hc'.
               - congruence.
               - injection Hc' as -> _. rewrite (Hpre' b) in Hx by now left. discriminate Hx.
               - injection Hc' as -> _. rewrite (Hpre (pkey r')) in Hx' by now left. discriminate Hx'.
               - injection Hc' as -> Hc'. eapply (IH ltac:(intros; apply Hpre; now right) pre'); [exact Hc'|].
                 intros; apply Hpre'; now right. }
             subst c. congruence.
        * rewrite first_of_none in Ef. split; [discriminate|]. intros (pre & post & Hc & Hx & _).
          rewrite Ef in Hx; [discriminate Hx|]. apply in_map. rewrite Hc, in_app_iff. simpl; tauto.
      + split; [discriminate|]. intros (pre & post & _ & H & _). discriminate H.
  Qed.

  Lemma get_item_repo_err order d n r :
    get_item_repo order d n r = Err EError \/ exists x, get_item_repo order d n r = Ok x.
  Proof.
    destruct (place_cases r) as [Hp|Hw].
    - rewrite get_item_repo_place by exact Hp. destruct (entry d n r); eauto.
    - assert (Hn : ~ place r) by (destruct Hw as [->| ->]; intros []; congruence).
      unfold get_item_repo. destruct (d !! n) as [m|]; [|now left].
      pose proof (repo_order_cands order r Hn) as E.
      assert (G : forall ks, ks = map pkey (cands order r) ->
        match first_of ks m with Some (k, x0) => r'0 <- str_repo k ;; Ok (x0, r'0) | None => Err EError end = Err EError
        \/ exists x, match first_of ks m with Some (k, x0) => r'0 <- str_repo k ;; Ok (x0, r'0) | None => Err EError end = Ok x).
      { intros ks ->. destruct (first_of _ m) as [[k x0]|] eqn:Ef; [|now left]. right.
        apply first_of_spec in Ef. destruct Ef as (pre & post & Hk & _).
        apply map_eq_app in Hk. destruct Hk as (cpre & crest & Hc & _ & Hrest).
        apply map_eq_cons in Hrest. destruct Hrest as (c & cpost & -> & <- & _).
        rewrite (str_repo_pkey c); [eexists; reflexivity|]. apply (cands_place order r). rewrite Hc, in_app_iff; simpl; tauto. }
      destruct Hw as [->| ->]; rewrite E; apply G; reflexivity.
  Qed.

  Lemma get_item_repo_none order d n r :
    get_item_repo order d n r = Err EError <-> forall q, In q (cands order r) -> entry d n q = None.
  Proof.
    split.
    - intros H q Hq. destruct (entry d n q) as [x|] eqn:E; [exfalso|reflexivity].
      assert (exists x r' pre post, cands order r = pre ++ r' :: post /\ entry d n r' = Some x /\
                forall q, In q pre -> entry d n q = None) as (x' & r' & K).
      { clear H. induction (cands order r) as [|c l IH]; [destruct Hq|].
        destruct (entry d n c) as [y|] eqn:Ec.
        - exists y, c, [], l. repeat split; auto. intros q' [].
        - destruct Hq as [->|Hq]; [congruence|]. destruct (IH Hq) as (x' & r' & pre & post & -> & K1 & K2).
          exists x', r', (c :: pre), post. repeat split; auto. intros q' [<-|Hq']; auto. }
      apply get_item_repo_cands in K. congruence.
    - intros H. destruct (get_item_repo_err order d n r) as [K|[[x r'] K]]; [exact K|exfalso].
      apply get_item_repo_cands in K. destruct K as (pre & post & Hc & Hx & _).
      rewrite H in Hx; [discriminate Hx|]. rewrite Hc, in_app_iff. simpl; tauto.
  Qed.

  (** ** add and remove *)
  Lemma add_item_ok d n x r : place r -> add_item d n x r = Ok (<[n := <[pkey r := x]> (default ∅ (d !! n))]> d).
  Proof.
    intros H. unfold add_item. destruct (is_wildcard r) eqn:E; [apply not_false_iff_true in E; rewrite place_wildcard in E; contradiction|].
    rewrite (repo_str_place r H). simpl. destruct (d !! n); reflexivity.
  Qed.
  Lemma add_item_wild d n x r : ~ place r -> add_item d n x r = Err EAssert.
  Proof. intros H. unfold add_item. destruct (is_wildcard r) eqn:E; [reflexivity|]. now apply place_wildcard in E. Qed.

  Lemma entry_add d n x r n' r' : place r -> place r' ->
    entry (<[n := <[pkey r := x]> (default ∅ (d !! n))]> d) n' r' =
    if bool_decide (n = n' /\ r = r') then Some x else entry d n' r'.
  Proof.
    intros H H'. unfold entry. destruct (decide (n = n')) as [->|Hn].
    - rewrite lookup_insert. simpl. destruct (decide (r = r')) as [->|Hr].
      + rewrite bool_decide_true by tauto. apply lookup_insert.
      + rewrite bool_decide_false by tauto. rewrite lookup_insert_ne.
        * destruct (d !! n'); simpl; [reflexivity|apply lookup_empty].
        * intros E. apply Hr. now apply pkey_inj.
    - rewrite bool_decide_false by tauto. now rewrite lookup_insert_ne.
  Qed.

  Lemma remove_item_repo_ok d n r : place r ->
    remove_item_repo d n r =
    match d !! n with
    | None => Err EAttribute
    | Some m => Ok (if decide (delete (pkey r) m = ∅) then delete n d else <[n := delete (pkey r) m]> d)
    end.
  Proof.
    intros H. unfold remove_item_repo. destruct (is_wildcard r) eqn:E; [apply not_false_iff_true in E; rewrite place_wildcard in E; contradiction|].
    destruct (d !! n) as [m|]; [|reflexivity]. rewrite (repo_str_place r H). simpl.
    assert (Em : (match m !! pkey r with Some _ => delete (pkey r) m | None => m end) = delete (pkey r) m).
    { destruct (m !! pkey r) eqn:Ek; [reflexivity|]. symmetry. now apply delete_notin. }
    rewrite Em. destruct (decide (delete (pkey r) m = ∅)) as [->|Hne].
    - rewrite map_size_empty. reflexivity.
    - destruct (Nat.eqb_spec (size (delete (pkey r) m)) 0) as [Es|Es]; [|reflexivity].
      apply map_size_empty_iff in Es. contradiction.
  Qed.
  Lemma remove_item_repo_wild d n r : ~ place r -> remove_item_repo d n r = Err EAssert.
  Proof. intros H. unfold remove_item_repo. destruct (is_wildcard r) eqn:E; [reflexivity|]. now apply place_wildcard in E. Qed.

  Lemma entry_remove d n r d' n' r' : place r -> place r' -> remove_item_repo d n r = Ok d' ->
    entry d' n' r' = if bool_decide (n = n' /\ r = r') then None else entry d n' r'.
  Proof.
    intros H H'. rewrite remove_item_repo_ok by exact H. destruct (d !! n) as [m|] eqn:Em; [|discriminate].
    intros [= <-]. unfold entry.
    assert (E : forall k, k <> pkey r -> delete (pkey r) m !! k = m !! k) by (intros k Hk; apply lookup_delete_ne; congruence).
    assert (Er : r <> r' -> pkey r' <> pkey r) by (intros Hne He; apply Hne; apply pkey_inj; congruence).
    destruct (decide (n = n')) as [->|Hn].
    - destruct (decide (delete (pkey r) m = ∅)) as [He|He].
      + rewrite lookup_delete. simpl. destruct (decide (r = r')) as [->|Hr].
        * now rewrite bool_decide_true by tauto.
        * rewrite bool_decide_false by tauto. rewrite Em. simpl. rewrite <- (E (pkey r') (Er Hr)), He. symmetry. apply lookup_empty.
      + rewrite lookup_insert. simpl. destruct (decide (r = r')) as [->|Hr].
        * rewrite bool_decide_true by tauto. apply lookup_delete.
        * rewrite bool_decide_false by tauto. rewrite Em. simpl. apply (E _ (Er Hr)).
    - rewrite bool_decide_false by tauto.
      destruct (decide (delete (pkey r) m = ∅)); [now rewrite lookup_delete_ne|now rewrite lookup_insert_ne].
  Qed.

  (** ** well-formed shelves *)
  Definition wf d : Prop :=
    forall n m, d !! n = Some m -> m <> ∅ /\ forall k, is_Some (m !! k) -> exists r, place r /\ k = pkey r.

  Lemma wf_empty : wf ∅. Proof. intros n m H. now rewrite lookup_empty in H. Qed.
  Lemma wf_add d n x r d' : wf d -> add_item d n x r = Ok d' -> wf d'.
  Proof.
    intros Hw Ha. destruct (is_wildcard r) eqn:Ew; [unfold add_item in Ha; rewrite Ew in Ha; discriminate Ha|].
    apply place_wildcard in Ew. rewrite add_item_ok in Ha by exact Ew. injection Ha as <-.
    intros n' m. destruct (decide (n = n')) as [->|Hn].
    - rewrite lookup_insert. intros [= <-]. split.
      + intros E. apply (f_equal (.!! pkey r)) in E. rewrite lookup_insert, lookup_empty in E. discriminate E.
      + intros k [y Hy]. destruct (decide (k = pkey r)) as [->|Hk]; [eauto|].
        rewrite lookup_insert_ne in Hy by auto. destruct (d !! n') as [m|] eqn:Em; simpl in Hy.
        * apply (Hw n' m Em). eauto.
        * now rewrite lookup_empty in Hy.
    - rewrite lookup_insert_ne by exact Hn. apply Hw.
  Qed.
  Lemma wf_remove d n r d' : wf d -> remove_item_repo d n r = Ok d' -> wf d'.
  Proof.
    intros Hw Ha. destruct (is_wildcard r) eqn:Ew; [unfold remove_item_repo in Ha; rewrite Ew in Ha; discriminate Ha|].
    apply place_wildcard in Ew. rewrite remove_item_repo_ok in Ha by exact Ew.
    destruct (d !! n) as [m0|] eqn:Em0; [|discriminate Ha]. injection Ha as <-.
    intros n' m. destruct (decide (delete (pkey r) m0 = ∅)) as [He|He].
    - destruct (decide (n = n')) as [->|Hn]; [rewrite lookup_delete; discriminate|].
      rewrite lookup_delete_ne by exact Hn. apply Hw.
    - destruct (decide (n = n')) as [->|Hn].
      + rewrite lookup_insert. intros [= <-]. split; [exact He|]. intros k [y Hy].
        rewrite lookup_delete_Some in Hy. destruct Hy as [_ Hy]. eapply (Hw _ _ Em0); eauto.
      + rewrite lookup_insert_ne by exact Hn. apply Hw.
  Qed.

  Lemma wf_lookup d n : wf d -> (is_Some (d !! n) <-> exists r, place r /\ is_Some (entry d n r)).
  Proof.
    intros Hw. unfold entry. split.
    - intros [m Hm]. destruct (Hw n m Hm) as [Hne Hk].
      destruct (map_choose m Hne) as (k & x & Hx). destruct (Hk k) as (r & Hr & ->); [eauto|].
      exists r. split; [exact Hr|]. rewrite Hm. simpl. rewrite Hx. eauto.
    - intros (r & _ & [x Hx]). destruct (d !! n); [eauto|discriminate Hx].
  Qed.

  (** Two well-formed shelves with the same entries are equal. *)
  Lemma wf_ext d d' : wf d -> wf d' -> (forall n r, place r -> entry d n r = entry d' n r) -> d = d'.
  Proof.
    intros Hw Hw' H. apply map_eq. intros n.
    destruct (d !! n) as [m|] eqn:Em, (d' !! n) as [m'|] eqn:Em'.
    - f_equal. apply map_eq. intros k.
      assert (G : forall r, place r -> m !! pkey r = m' !! pkey r).
      { intros r Hr. specialize (H n r Hr). unfold entry in H. rewrite Em, Em' in H. exact H. }
      destruct (m !! k) as [x|] eqn:Ek.
      + destruct (proj2 (Hw n m Em) k) as (r & Hr & ->); [eauto|]. rewrite <- G by exact Hr. congruence.
      + destruct (m' !! k) as [x|] eqn:Ek'; [|reflexivity].
        destruct (proj2 (Hw' n m' Em') k) as (r & Hr & ->); [eauto|]. rewrite <- G in Ek' by exact Hr. congruence.
    - exfalso. destruct (proj1 (wf_lookup d n Hw)) as (r & Hr & [x Hx]); [eauto|].
      rewrite H in Hx by exact Hr. unfold entry in Hx. rewrite Em' in Hx. discriminate Hx.
    - exfalso. destruct (proj1 (wf_lookup d' n Hw')) as (r & Hr & [x Hx]); [eauto|].
      rewrite <- H in Hx by exact Hr. unfold entry in Hx. rewrite Em in Hx. discriminate Hx.
    - reflexivity.
  Qed.

  (** [not_just_tracking] on a well-formed dictionary *)
  Lemma not_just_tracking_spec (m : gmap string A) :
    m <> ∅ -> not_just_tracking m = true <-> exists k, k <> "trdparty" /\ k <> "inst" /\ is_Some (m !! k).
  Proof.
    intros Hne.
    assert (G : not_just_tracking m = negb (bool_decide (delete "inst" (delete "trdparty" m) = ∅))).
    { assert (Hs : size m <> 0) by (intros E; apply map_size_empty_iff in E; contradiction).
      assert (E0 : bool_decide (delete "inst" (delete "trdparty" m) = ∅) =
                   Nat.eqb (size (delete "inst" (delete "trdparty" m))) 0).
      { destruct (Nat.eqb_spec (size (delete "inst" (delete "trdparty" m))) 0) as [E|E].
        - apply bool_decide_eq_true. now apply map_size_empty_iff.
        - apply bool_decide_eq_false. intros K. apply E. now apply map_size_empty_iff. }
      rewrite E0, !map_size_delete, lookup_delete_ne by discriminate.
      unfold not_just_tracking, has.
      destruct (m !! "trdparty"), (m !! "inst"); simpl;
        destruct (size m) as [|[|[|k]]]; simpl; try reflexivity; congruence. }
    rewrite G, negb_true_iff, bool_decide_eq_false. split.
    - intros He. destruct (map_choose _ He) as (k & x & Hx).
      rewrite !lookup_delete_Some in Hx. exists k. destruct Hx as (N1 & N2 & Hx). repeat split; eauto.
    - intros (k & N1 & N2 & [x Hx]) He. apply (f_equal (.!! k)) in He.
      rewrite lookup_empty, lookup_delete_ne, lookup_delete_ne in He by auto. congruence.
  Qed.

  Lemma has_key_repos d n : wf d ->
    (has_key d n RRepos = Ok true <-> exists nm, is_Some (entry d n (RName nm))).
  Proof.
    intros Hw. simpl. unfold entry. destruct (d !! n) as [m|] eqn:Em; simpl.
    - destruct (Hw n m Em) as [Hne Hk]. pose proof (not_just_tracking_spec m Hne) as S.
      split.
      + intros [= H]. apply S in H. destruct H as (k & N1 & N2 & Hk').
        destruct (Hk k Hk') as (r & Hr & ->). destruct r; simpl in *; try congruence; try (now destruct Hr). eauto.
      + intros (nm & H). f_equal. apply S. exists ("repo-" +:+ nm). repeat split; [discriminate|discriminate|exact H].
    - split; [discriminate|]. intros (nm & [x Hx]). discriminate Hx.
  Qed.
  Lemma has_key_all d n : wf d ->
    (has_key d n RAll = Ok true <-> exists r, place r /\ is_Some (entry d n r)).
  Proof.
    intros Hw. rewrite <- wf_lookup by exact Hw. simpl. destruct (d !! n); split; intros H; try discriminate H; eauto.
    destruct H; discriminate.
  Qed.

  (** ** removing a whole repository *)
  Lemma remove_repo_fold d r ks : place r -> NoDup ks -> wf d -> (forall k, k ∈ ks -> is_Some (d !! k)) ->
    exists d', foldM (fun d' key => remove_item_repo d' key r) ks d = Ok d' /\ wf d' /\
      forall n q, place q -> entry d' n q = if bool_decide (n ∈ ks /\ q = r) then None else entry d n q.
  Proof.
    intros Hr Hnd. revert d. induction ks as [|k ks IH]; intros d Hw Hks; simpl.
    - exists d. split; [reflexivity|]. split; [exact Hw|]. intros n q Hq. reflexivity.
    - apply NoDup_cons in Hnd. destruct Hnd as [Hnin Hnd'].
      destruct (remove_item_repo d k r) as [d1|e] eqn:E1.
      2: { exfalso. rewrite remove_item_repo_ok in E1 by exact Hr. destruct (Hks k) as [m Hm]; [left|].
           rewrite Hm in E1. discriminate E1. }
      simpl. assert (Hw1 : wf d1) by (eapply wf_remove; eassumption).
      assert (Hks1 : forall k', k' ∈ ks -> is_Some (d1 !! k')).
      { intros k' Hk'. rewrite remove_item_repo_ok in E1 by exact Hr.
        destruct (d !! k) as [m|]; [|discriminate E1]. injection E1 as <-.
        assert (k <> k') by (intros ->; contradiction).
        destruct (decide (delete (pkey r) m = ∅)); [rewrite lookup_delete_ne by auto|rewrite lookup_insert_ne by auto];
          apply Hks; now right. }
      destruct (IH Hnd' d1 Hw1 Hks1) as (d' & Hd' & Hwd' & He). exists d'. split; [exact Hd'|]. split; [exact Hwd'|].
      intros n q Hq. rewrite He by exact Hq. rewrite (entry_remove d k r d1 n q Hr Hq E1).
      destruct (decide (q = r)) as [->|Hqr].
      + destruct (decide (k = n)) as [->|Hkn].
        * rewrite (bool_decide_true (n = n /\ r = r)) by tauto.
          rewrite (bool_decide_true (n ∈ n :: ks /\ r = r)) by (split; [left|reflexivity]). now destruct (bool_decide _).
        * rewrite (bool_decide_false (k = n /\ r = r)) by tauto.
          rewrite (bool_decide_ext (n ∈ ks /\ r = r) (n ∈ k :: ks /\ r = r)); [reflexivity|].
          rewrite elem_of_cons. intuition congruence.
      + rewrite !bool_decide_false by (intros [_ ?]; congruence). reflexivity.
  Qed.

  Lemma remove_repo_spec d r : place r -> wf d ->
    exists d', remove_repo_items d r = Ok d' /\ wf d' /\
      forall n q, place q -> entry d' n q = if bool_decide (q = r) then None else entry d n q.
  Proof.
    intros Hr Hw. unfold remove_repo_items.
    destruct (remove_repo_fold d r (map_to_list d).*1 Hr) as (d' & H1 & H2 & H3).
    - apply NoDup_fst_map_to_list.
    - exact Hw.
    - intros k Hk. apply elem_of_list_fmap in Hk. destruct Hk as ([k' m] & -> & Hk).
      apply elem_of_map_to_list in Hk. simpl. eauto.
    - exists d'. split; [exact H1|]. split; [exact H2|]. intros n q Hq. rewrite H3 by exact Hq.
      destruct (decide (q = r)) as [->|Hqr].
      + rewrite (bool_decide_true (r = r)) by reflexivity. destruct (bool_decide _) eqn:Eb; [reflexivity|].
        apply bool_decide_eq_false in Eb. unfold entry. destruct (d !! n) as [m|] eqn:Em; [|reflexivity].
        exfalso. apply Eb. split; [|reflexivity]. apply elem_of_list_fmap.
        exists (n, m). split; [reflexivity|]. now apply elem_of_map_to_list.
      + rewrite !bool_decide_false by (try tauto; intros [_ ?]; congruence). reflexivity.
  Qed.
  Lemma remove_repo_wild d r : ~ place r -> remove_repo_items d r = Err EAssert \/ remove_repo_items d r = Ok d.
  Proof.
    intros Hr. unfold remove_repo_items. destruct (map_to_list d).*1 as [|k ks]; [now right|].
    left. simpl. now rewrite remove_item_repo_wild.
  Qed.
End facts.
