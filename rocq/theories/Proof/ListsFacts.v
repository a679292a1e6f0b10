(** * Lemmas about listings *)
From Coq Require Import String Ascii List Sorted Lia ZArith.
From stdpp Require Import gmap strings.
From Verif Require Import Model.Py Model.ItemByRepo Model.Dependency Model.Package Model.ComponentDB Model.Databases
  Model.InstallDB Model.System Model.Build Model.Lists
  Spec.ItemByRepoSpec Spec.DatabaseSpec Spec.SystemSpec Spec.ListsSpec
  Proof.PyFacts Proof.ItemByRepoFacts Proof.ItemByRepoMain Proof.DatabaseFacts Proof.RevDepFacts Proof.InstallDBFacts Proof.SystemFacts Proof.BuildNumber.
Open Scope string_scope.
Open Scope list_scope.

(** ** Sorting names *)
Lemma goes_before_iff a : forall b, goes_before a b <-> String.ltb a b = true.
Proof.
  unfold String.ltb. induction a as [|c a IH]; intros [|d b]; cbn [String.compare].
  - split; [intros H; inversion H|discriminate].
  - split; [reflexivity|constructor].
  - split; [intros H; inversion H|discriminate].
  - unfold Ascii.compare. destruct (N.compare_spec (N_of_ascii c) (N_of_ascii d)) as [E|L|L].
    + apply (f_equal ascii_of_N) in E. rewrite !ascii_N_embedding in E. subst d. rewrite <- IH. split.
      * intros H. inversion H as [|? ? ? ? K|? ? ? K]; subst; [lia|exact K].
      * apply gb_same.
    + split; [reflexivity|]. intros _. apply gb_less. unfold nat_of_ascii. lia.
    + split; [|discriminate]. intros H. inversion H as [|? ? ? ? K|? ? ? K]; subst; [unfold nat_of_ascii in K; lia|lia].
Qed.
Lemma goes_before_as a b : goes_before a b <-> key_lt (a, None) (b, None).
Proof. rewrite goes_before_iff. exact (path_before_iff (a, None) (b, None)). Qed.
Lemma goes_before_trans a b c : goes_before a b -> goes_before b c -> goes_before a c.
Proof. rewrite !goes_before_as. apply key_lt_trans. Qed.
Lemma goes_before_not a b : String.ltb a b = false -> a <> b -> goes_before b a.
Proof. intros H N. apply goes_before_as. apply (path_before_not (a, None) (b, None)); [exact H|exact N]. Qed.
Lemma goes_before_irrefl a : ~ goes_before a a.
Proof. rewrite goes_before_as. intros H. exact (key_lt_asym _ _ H H). Qed.

Lemma insert_name_sorted x l : StronglySorted goes_before l -> ~ In x l -> StronglySorted goes_before (insert_by String.ltb x l).
Proof.
  induction l as [|y l IH]; intros S N; cbn; [repeat constructor|]. apply StronglySorted_inv in S as [S F].
  destruct (String.ltb x y) eqn:E.
  - apply goes_before_iff in E. constructor; [now constructor|]. constructor; [exact E|].
    apply (List.Forall_impl _ (fun z => goes_before_trans x y z E) F).
  - apply goes_before_not in E; [|intros G; apply N; now left]. constructor.
    + apply IH; [exact S|]. intros G. apply N. now right.
    + rewrite insert_by_perm. now constructor.
Qed.
Lemma sort_names_sorted l : NoDup l -> StronglySorted goes_before (sort_names l).
Proof.
  unfold sort_names, sort_by. assert (G : forall acc, StronglySorted goes_before acc -> NoDup (acc ++ l) ->
    StronglySorted goes_before (fold_left (fun acc x => insert_by String.ltb x acc) l acc)).
  { induction l as [|x l IH]; intros acc S N; cbn; [exact S|]. apply IH.
    - apply insert_name_sorted; [exact S|]. intros H. apply NoDup_app in N as (_ & N & _). apply (N x); [now apply elem_of_list_In|now left].
    - rewrite insert_by_perm. cbn. now rewrite Permutation_middle. }
  intros N. apply G; [constructor|exact N].
Qed.
Lemma sort_names_in l x : In x (sort_names l) <-> In x l.
Proof. unfold sort_names. rewrite <- !elem_of_list_In. now rewrite (sort_by_perm String.ltb l). Qed.
Lemma sort_names_roll l P : NoDup l -> (forall n, In n l <-> P n) -> roll P (sort_names l).
Proof. intros N I. split; [now apply sort_names_sorted|]. intros n. now rewrite sort_names_in. Qed.

(** Only one list meets [roll]. *)
Lemma roll_unique P ns ns' : roll P ns -> roll P ns' -> ns = ns'.
Proof.
  intros [S I] [S' I']. assert (E : forall n, In n ns <-> In n ns') by (intros n; now rewrite I, I'). clear I I'.
  revert ns' S' E. induction ns as [|a ns IH]; intros [|b ns'] S' E.
  - reflexivity.
  - exfalso. apply (E b). now left.
  - exfalso. apply (E a). now left.
  - apply StronglySorted_inv in S as [S F]. apply StronglySorted_inv in S' as [S' F']. rewrite List.Forall_forall in F, F'.
    assert (a = b).
    { destruct (proj1 (E a) (or_introl eq_refl)) as [->|Ha]; [reflexivity|].
      destruct (proj2 (E b) (or_introl eq_refl)) as [->|Hb]; [reflexivity|].
      elim (goes_before_irrefl a). apply (goes_before_trans a b a); [now apply F|now apply F']. }
    subst b. f_equal. apply IH; [exact S|exact S'|]. intros n. split; intros H.
    + destruct (proj1 (E n) (or_intror H)) as [<-|K]; [|exact K]. elim (goes_before_irrefl a). now apply F.
    + destruct (proj2 (E n) (or_intror H)) as [<-|K]; [|exact K]. elim (goes_before_irrefl a). now apply F'.
Qed.

(** ** Widths and languages *)
Lemma spaces_blank n : blanks (spaces n).
Proof. intros c. induction n as [|n IH]; cbn; [now intros []|]. intros [<-|H]; [reflexivity|auto]. Qed.
Lemma spaces_length n : String.length (spaces n) = n.
Proof. induction n as [|n IH]; cbn; [reflexivity|now rewrite IH]. Qed.
Lemma right_in_flush w x : flush_right w x (right_in w x).
Proof. exists (spaces (w - String.length x)). split; [apply spaces_blank|]. split; [reflexivity|]. unfold right_in. rewrite str_app_length, spaces_length. lia. Qed.
Lemma left_in_flush w x : flush_left w x (left_in w x).
Proof. exists (spaces (w - String.length x)). split; [apply spaces_blank|]. split; [reflexivity|]. unfold left_in. rewrite str_app_length, spaces_length. lia. Qed.
Lemma assoc_some k l v : assoc k l = Some v -> In (k, v) l.
Proof. induction l as [|[k' v'] l IH]; cbn; [discriminate|]. destruct (String.eqb_spec k k') as [->|E]; [intros [= ->]; now left|]. intros H. right. auto. Qed.
Lemma assoc_none k l : assoc k l = None -> ~ exists v, In (k, v) l.
Proof.
  induction l as [|[k' v'] l IH]; cbn; [intros _ [v []]|]. destruct (String.eqb_spec k k') as [->|E]; [discriminate|].
  intros H [v [[= -> ->]|K]]; [now apply E|]. apply IH; eauto.
Qed.
Lemma local_text_ok lang t : in_language lang t (local_text lang t).
Proof.
  unfold local_text, in_language. destruct (assoc lang t) as [x|] eqn:E1; [left; now apply assoc_some|]. apply assoc_none in E1.
  destruct (assoc "en" t) as [x|] eqn:E2; [right; left; split; [exact E1|now apply assoc_some]|]. apply assoc_none in E2.
  destruct (assoc "tr" t) as [x|] eqn:E3; [right; right; left; repeat split; auto; now apply assoc_some|]. apply assoc_none in E3. tauto.
Qed.

(** ** What the databases list *)
Section shelf.
  Context {A : Type}.
  Implicit Types d : shelf A.
  Lemma list_wf order d r : wf d -> listed order d -> r <> RAll -> exists l, list_items d r = Ok l /\
    NoDup l /\ forall n, In n l <-> exists x, get_item order d n r = Ok x.
  Proof.
    intros Hh Hl NA.
    assert (ND : forall P : string * gmap string A -> bool, NoDup (List.filter P (map_to_list d)).*1).
    { intros P. pose proof (NoDup_fst_map_to_list d) as N. induction (map_to_list d) as [|[k m] ms IH]; simpl; [constructor|].
      inversion N as [|? ? N1 N2]; subst. destruct (P (k, m)); simpl; [|auto]. constructor; [|auto].
      intros Hin. apply N1. apply elem_of_list_fmap in Hin as ([k' m'] & E & Hin). simpl in E. subst k'.
      apply elem_of_list_In, filter_In in Hin as [Hin _]. apply elem_of_list_fmap. exists (k, m'). split; [reflexivity|]. now apply elem_of_list_In. }
    assert (IN : forall n (P : string * gmap string A -> bool), In n (List.filter P (map_to_list d)).*1 <-> exists m, d !! n = Some m /\ P (n, m) = true).
    { intros n P. rewrite <- elem_of_list_In, elem_of_list_fmap. split.
      - intros ([n' m] & -> & Hm). apply elem_of_list_In, filter_In in Hm as [Hm Hp]. apply elem_of_list_In, elem_of_map_to_list in Hm. eauto.
      - intros (m & Hm & Hp). exists (n, m). split; [reflexivity|]. apply elem_of_list_In, filter_In. split; [|exact Hp].
        now apply elem_of_list_In, elem_of_map_to_list. }
    destruct (place_cases r) as [Hp|[->| ->]].
    - assert (E : list_items d r = Ok (List.filter (fun kv : string * gmap string A => has (pkey r) kv.2) (map_to_list d)).*1).
      { unfold list_items. pose proof (repo_str_place r Hp) as R. destruct r; try (now destruct Hp); now rewrite R. }
      eexists. split; [exact E|]. split; [apply ND|]. intros n. rewrite <- (proj1 (has_get order d n r Hh Hl)). rewrite IN, has_key_place by exact Hp. simpl. unfold entry. split.
      + intros (m & Hm & Hs). f_equal. apply bool_decide_eq_true. rewrite Hm. simpl. now apply has_is_some.
      + intros [= Hs]. apply bool_decide_eq_true in Hs. destruct (d !! n) as [m|]; simpl in Hs; [|destruct Hs; discriminate].
        exists m. split; [reflexivity|]. now apply has_is_some.
    - eexists. split; [reflexivity|]. split; [apply ND|]. intros n. rewrite <- (proj1 (has_get order d n RRepos Hh Hl)). rewrite IN. simpl. destruct (d !! n) as [m|]; split.
      + intros (m' & [= <-] & H). now rewrite H. + intros [= H]. eauto. + intros (m' & H & _). discriminate H. + discriminate.
    - congruence.
  Qed.
End shelf.
