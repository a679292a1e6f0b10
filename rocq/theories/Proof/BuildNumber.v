(** * Facts about build numbers *)
From Coq Require Import String Ascii ZArith List Bool Lia Sorting.Sorted Structures.OrdersEx.
From stdpp Require Import list sorting.
From Verif Require Import Model.Py Model.Path Model.Build Spec.PathSpec Spec.BuildSpec Proof.PyFacts Proof.PathFacts.
Import ListNotations.
Open Scope string_scope.
Open Scope list_scope.

(** ** File names *)
Lemma split_all_digit (v : string) :
  forallb starts_with_digit (py_split "-" v) = true <->
  exists parts, parts <> [] /\ Forall digit_first parts /\ Forall (free_of "-") parts /\ v = py_join "-" parts.
Proof.
  rewrite forallb_forall. split.
  - intros H. exists (py_split "-" v). split; [apply split_nonempty|]. split.
    + apply List.Forall_forall. intros x Hx. apply starts_with_digit_iff. now apply H.
    + split; [apply (split_pieces_no_sep "-")|]. symmetry. apply (join_split "-").
  - intros (parts & N & D & F & ->) x. rewrite (split_join "-" parts N F). intros Hx. apply starts_with_digit_iff.
    rewrite List.Forall_forall in D. now apply D.
Qed.

Lemma is_package_name_iff fn n : is_package_name fn (Some n) = Ok true <-> file_of n fn.
Proof.
  unfold is_package_name, file_of. split.
  - destruct (py_startswith fn (n ++ "-")%string) eqn:S; [|discriminate].
    destruct (py_endswith fn package_suffix) eqn:T; [|discriminate]. cbn [andb]. intros H. injection H as H.
    apply startswith_iff in S as [r S]. apply endswith_iff in T as [q T].
    assert (K : exists v, r = (v ++ package_suffix)%string).
    { rewrite T in S. clear H T. assert (L : los q ++ los package_suffix = (los n ++ ["-"%char]) ++ los r).
      { rewrite <- !los_app, S, !los_app. reflexivity. }
      destruct (app_eq_app _ _ _ _ L) as (l & [[E1 E2]|[E1 E2]]).
      - exists (sol l). apply los_inj. rewrite los_app, list_ascii_of_string_of_list_ascii. exact E2.
      - destruct l as [|c l _] using rev_ind.
        + exists "". apply los_inj. cbn in E2. cbn. now rewrite E2.
        + exfalso. rewrite app_assoc in E1. apply app_inj_tail in E1 as [_ <-].
          assert (I : In "-"%char (los package_suffix)) by (rewrite E2; apply in_or_app; left; apply in_or_app; right; now left).
          cbn in I. intuition discriminate. }
    destruct K as [v ->]. subst fn. rewrite str_app_assoc in H. rewrite <- (str_app_assoc "-" v), <- (str_app_assoc n) in H.
    rewrite str_app_length, Nat.add_sub, take_app in H.
    rewrite <- (str_app_assoc n "-" v) in H. change 1%nat with (String.length "-") in H. rewrite <- (str_app_length n "-"), drop_app in H.
    apply split_all_digit in H as (parts & N & D & F & ->). exists parts. repeat split; auto. rewrite str_app_assoc. reflexivity.
  - intros (parts & N & D & F & ->). set (v := py_join "-" parts).
    replace (n ++ "-" ++ v ++ ".pisi")%string with ((n ++ "-" ++ v) ++ package_suffix)%string by (rewrite !str_app_assoc; reflexivity).
    replace (py_startswith _ _) with true.
    2:{ symmetry. apply startswith_iff. exists (v ++ package_suffix)%string. now rewrite !str_app_assoc. }
    replace (py_endswith _ _) with true.
    2:{ symmetry. apply endswith_iff. eexists. reflexivity. }
    cbn [andb]. rewrite str_app_length, Nat.add_sub, take_app.
    rewrite <- (str_app_assoc n "-" v). change 1%nat with (String.length "-"). rewrite <- (str_app_length n "-"), drop_app.
    f_equal. apply split_all_digit. now exists parts.
Qed.

(** ** Sorting *)
Lemma insert_by_perm {A} (b : A -> A -> bool) x l : insert_by b x l ≡ₚ x :: l.
Proof. induction l as [|y l IH]; cbn; [reflexivity|]. destruct (b x y); [reflexivity|]. rewrite IH. apply Permutation_swap. Qed.
Lemma sort_by_perm {A} (b : A -> A -> bool) l : sort_by b l ≡ₚ l.
Proof.
  unfold sort_by. assert (G : forall acc, fold_left (fun acc x => insert_by b x acc) l acc ≡ₚ acc ++ l).
  { induction l as [|x l IH]; intros acc; cbn; [now rewrite app_nil_r|]. rewrite IH, insert_by_perm. cbn. apply Permutation_middle. }
  apply G.
Qed.

Definition key_lt (a b : string * option string) : Prop := String_as_OT.lt (fst a) (fst b).
Lemma compare_same s t : String.compare s t = String_as_OT.compare s t.
Proof. revert t. induction s as [|c s IH]; intros [|d t]; cbn; try reflexivity. Qed.
Lemma path_before_iff a b : path_before a b = true <-> key_lt a b.
Proof.
  unfold path_before, key_lt, String.ltb, String_as_OT.lt. rewrite compare_same.
  destruct (String_as_OT.compare (fst a) (fst b)); split; congruence.
Qed.
Lemma path_before_not a b : path_before a b = false -> fst a <> fst b -> key_lt b a.
Proof.
  intros H N. unfold path_before, String.ltb in H. rewrite compare_same in H. unfold key_lt.
  destruct (String_as_OT.compare_spec (fst a) (fst b)) as [E|L|L]; [now elim N|discriminate H|exact L].
Qed.
Lemma key_lt_trans a b c : key_lt a b -> key_lt b c -> key_lt a c.
Proof. unfold key_lt. intros H K. now transitivity (fst b). Qed.
Lemma key_lt_asym a b : key_lt a b -> key_lt b a -> False.
Proof. intros H K. pose proof (key_lt_trans _ _ _ H K) as L. unfold key_lt in L. now apply irreflexivity in L. Qed.

Lemma insert_by_sorted x l : StronglySorted key_lt l -> ~ In (fst x) (map fst l) -> StronglySorted key_lt (insert_by path_before x l).
Proof.
  induction l as [|y l IH]; intros S N; cbn; [repeat constructor|]. apply StronglySorted_inv in S as [S F].
  destruct (path_before x y) eqn:E.
  - apply path_before_iff in E. constructor; [now constructor|]. constructor; [exact E|].
    apply (List.Forall_impl _ (fun z => key_lt_trans x y z E) F).
  - apply path_before_not in E; [|intros G; apply N; left; now rewrite G]. constructor.
    + apply IH; [exact S|]. intros G. apply N. now right.
    + rewrite insert_by_perm. now constructor.
Qed.
Lemma sort_by_sorted l : NoDup (map fst l) -> StronglySorted key_lt (sort_by path_before l).
Proof.
  unfold sort_by. assert (G : forall acc, StronglySorted key_lt acc -> NoDup (map fst (acc ++ l)) ->
    StronglySorted key_lt (fold_left (fun acc x => insert_by path_before x acc) l acc)).
  { induction l as [|x l IH]; intros acc S N; cbn; [exact S|]. apply IH.
    - apply insert_by_sorted; [exact S|]. rewrite map_app, NoDup_app in N. destruct N as (_ & N & _).
      intros H. apply elem_of_list_In in H. apply (N _ H). cbn. left.
    - rewrite insert_by_perm. change ((x :: acc) ++ l) with (x :: acc ++ l). now rewrite Permutation_middle. }
  intros N. apply G; [constructor|exact N].
Qed.

Lemma hash_eqb_iff a b : hash_eqb a b = true <-> a = b.
Proof.
  destruct a as [a|], b as [b|]; cbn; try (split; congruence). rewrite String.eqb_eq. split; congruence.
Qed.
Lemma files_differ_iff a b : length a = length b -> (files_differ a b = false <-> a = b).
Proof.
  revert b. induction a as [|[p h] a IH]; intros [|[q k] b] L; try discriminate L; cbn; [easy|].
  destruct (String.eqb p q) eqn:E; cbn.
  - apply String.eqb_eq in E as ->. destruct (hash_eqb h k) eqn:F; cbn.
    + apply hash_eqb_iff in F as ->. rewrite IH by (cbn in L; lia). split; congruence.
    + split; [discriminate|]. intros G. injection G as -> _. rewrite (proj2 (hash_eqb_iff k k) eq_refl) in F. discriminate F.
  - split; [discriminate|]. intros G. injection G as -> _ _. rewrite String.eqb_refl in E. discriminate E.
Qed.

Lemma once_nodup l : each_path_once l -> NoDup l.
Proof. apply NoDup_fmap_1. Qed.

Lemma files_changed_iff a b : each_path_once a -> each_path_once b -> (files_changed a b = false <-> same_contents a b).
Proof.
  intros Na Nb. assert (K : files_changed a b = false <-> sort_by path_before a = sort_by path_before b).
  { unfold files_changed. destruct (Nat.eqb_spec (length (sort_by path_before b)) (length (sort_by path_before a))) as [E|E]; cbn.
    - now apply files_differ_iff.
    - split; [discriminate|]. intros F. elim E. now rewrite F. }
  rewrite K. split.
  - intros E x. rewrite <- !elem_of_list_In. rewrite <- (sort_by_perm path_before a), <- (sort_by_perm path_before b), E. reflexivity.
  - intros S. assert (P : a ≡ₚ b).
    { apply NoDup_Permutation; [now apply once_nodup..|]. intros x. rewrite !elem_of_list_In. apply S. }
    assert (AS : AntiSymm (=) key_lt) by (intros x y H1 H2; elim (key_lt_asym x y H1 H2)).
    apply (StronglySorted_unique key_lt).
    + now apply sort_by_sorted.
    + now apply sort_by_sorted.
    + now rewrite !sort_by_perm.
Qed.

(** ** The greatest build *)
Definition last_max (best : option (Z * old_package)) (x : Z * old_package) : option (Z * old_package) :=
  match best with
  | None => Some x
  | Some y => if build_before x y then Some y else Some x
  end.
Lemma insert_by_last x l : StronglySorted (fun a b : Z * old_package => (fst a <= fst b)%Z) l ->
  StronglySorted (fun a b : Z * old_package => (fst a <= fst b)%Z) (insert_by build_before x l) /\
  last (insert_by build_before x l) = last_max (last l) x.
Proof.
  induction l as [|y l IH]; intros S; cbn [insert_by]; [now repeat constructor|]. apply StronglySorted_inv in S as [S F].
  destruct (build_before x y) eqn:L; [apply Z.ltb_lt in L|apply Z.ltb_ge in L].
  - split; [constructor; [now constructor|]; constructor; [lia|]; apply (List.Forall_impl _ (P := fun z => (fst y <= fst z)%Z)); [intros z; lia|exact F]|].
    rewrite last_cons. destruct (last (y :: l)) as [z|] eqn:E; [|now apply last_None in E]. cbn.
    unfold build_before. replace (Z.ltb (fst x) (fst z)) with true; [reflexivity|]. symmetry. apply Z.ltb_lt.
    apply last_Some_elem_of in E. apply elem_of_cons in E as [->|E]; [exact L|]. rewrite Forall_forall in F. specialize (F z E). cbn in F. lia.
  - destruct (IH S) as [I1 I2]. split.
    + constructor; [exact I1|]. rewrite insert_by_perm. now constructor.
    + rewrite !last_cons, I2. destruct (last l) as [z|]; cbn.
      * unfold build_before. now destruct (Z.ltb (fst x) (fst z)).
      * unfold build_before. now replace (Z.ltb (fst x) (fst y)) with false by (symmetry; now apply Z.ltb_ge).
Qed.
Lemma sort_by_last l : last (sort_by build_before l) = fold_left last_max l None.
Proof.
  unfold sort_by. assert (G : forall acc, StronglySorted (fun a b : Z * old_package => (fst a <= fst b)%Z) acc ->
    last (fold_left (fun acc x => insert_by build_before x acc) l acc) = fold_left last_max l (last acc)).
  { induction l as [|x l IH]; intros acc S; cbn; [reflexivity|]. destruct (insert_by_last x acc S) as [S' E].
    rewrite IH by exact S'. now rewrite E. }
  apply (G []). constructor.
Qed.
Lemma rev_last {A} (l : list A) : match rev l with [] => None | x :: _ => Some x end = last l.
Proof. destruct l as [|x l _] using rev_ind; [reflexivity|]. rewrite rev_app_distr, last_snoc. reflexivity. Qed.

(** The old builds of the package, in the order they are met *)
Definition builds (name : string) (file : string * option old_package) : list (Z * old_package) :=
  flat_map (fun p => match o_build p with Some b => [(b, p)] | None => [] end) (locate_old_packages name [file]).
Lemma builds_old name file b p : In (b, p) (builds name file) <-> snd file = Some p /\ old_build name file b (o_files p).
Proof.
  unfold builds, locate_old_packages, old_build. cbn [flat_map]. rewrite app_nil_r. rewrite <- is_package_name_iff.
  destruct file as [fn o]. cbn [fst snd]. split.
  - destruct (is_package_name fn (Some name)) as [[]|e]; [|easy..]. destruct o as [q|]; [|easy].
    destruct (String.eqb (o_name q) name) eqn:E; [|easy]. cbn. rewrite app_nil_r. destruct (o_build q) as [b'|] eqn:B; [|easy].
    intros [F|[]]. injection F as -> ->. apply String.eqb_eq in E. split; [reflexivity|]. split; [reflexivity|]. now exists p.
  - intros (-> & -> & q & E & N & B & _). injection E as <-. rewrite <- N, String.eqb_refl. cbn. rewrite B. now left.
Qed.
Lemma builds_short name file : builds name file = [] \/ exists x, builds name file = [x].
Proof.
  unfold builds, locate_old_packages. cbn [flat_map]. rewrite app_nil_r. destruct file as [fn o]. cbn [fst snd].
  destruct (is_package_name fn (Some name)) as [[]|e]; [|now left..]. destruct o as [q|]; [|now left].
  destruct (String.eqb (o_name q) name); [|now left]. cbn. rewrite app_nil_r. destruct (o_build q); [right; eauto|now left].
Qed.
Lemma all_builds name seen :
  flat_map (fun p => match o_build p with Some b => [(b, p)] | None => [] end) (locate_old_packages name seen) =
  flat_map (builds name) seen.
Proof.
  induction seen as [|x seen IH]; [reflexivity|]. unfold builds at 1. unfold locate_old_packages in *. cbn [flat_map].
  rewrite flat_map_app, IH, app_nil_r. reflexivity.
Qed.

Lemma fold_last_max_None l best : fold_left last_max l best = None <-> best = None /\ l = [].
Proof.
  revert best. induction l as [|x l IH]; intros best; cbn; [intuition|]. rewrite IH. unfold last_max.
  destruct best as [y|]; [destruct (build_before x y)|]; split; intros [A B]; discriminate.
Qed.
Lemma fold_last_max_Some l x : fold_left last_max l None = Some x ->
  exists a b, l = a ++ x :: b /\ (forall y, In y a -> (fst y <= fst x)%Z) /\ (forall y, In y b -> (fst y < fst x)%Z).
Proof.
  revert x. induction l as [|y l IH] using rev_ind; intros x; [discriminate|]. rewrite fold_left_app. cbn [fold_left].
  destruct (fold_left last_max l None) as [z|] eqn:E; cbn [last_max].
  - unfold build_before. destruct (Z.ltb_spec (fst y) (fst z)) as [L|L]; intros H; injection H as <-.
    + destruct (IH z eq_refl) as (a & b & -> & A & B). exists a, (b ++ [y]). split; [now rewrite <- app_assoc|]. split; [exact A|].
      intros w. rewrite in_app_iff. intros [W|[<-|[]]]; [now apply B|exact L].
    + exists l, []. split; [reflexivity|]. split; [|easy]. destruct (IH z eq_refl) as (a & b & -> & A & B).
      intros w. rewrite in_app_iff. intros [W|[<-|W]]; [specialize (A w W); lia|exact L|specialize (B w W); lia].
  - intros H. injection H as <-. apply fold_last_max_None in E as [_ ->]. now exists [], [].
Qed.

Lemma flat_map_split {A B} (f : A -> list B) l a x b : flat_map f l = a ++ x :: b -> (forall y, f y = [] \/ exists z, f y = [z]) ->
  exists l1 y l2, l = l1 ++ y :: l2 /\ flat_map f l1 = a /\ f y = [x] /\ flat_map f l2 = b.
Proof.
  intros E S. revert a E. induction l as [|y l IH]; intros a E; [now destruct a|]. cbn in E. destruct (S y) as [N|[z Z]].
  - rewrite N in E. destruct (IH a E) as (l1 & y' & l2 & -> & H1 & F & G). exists (y :: l1), y', l2. cbn. rewrite N. now repeat split.
  - rewrite Z in E. destruct a as [|w a]; cbn in E; injection E as -> E.
    + now exists [], y, l.
    + destruct (IH a E) as (l1 & y' & l2 & -> & H1 & F & G). exists (y :: l1), y', l2. cbn. rewrite Z, H1. now repeat split.
Qed.

Lemma greatest name seen b p : fold_left last_max (flat_map (builds name) seen) None = Some (b, p) -> greatest_build name seen b (o_files p).
Proof.
  intros H. apply fold_last_max_Some in H as (u & v & E & U & V). apply flat_map_split in E as (l1 & y & l2 & -> & A & F & G); [|apply builds_short].
  exists l1, y, l2. split; [reflexivity|]. split; [apply (builds_old name y b p); rewrite F; now left|]. split.
  - intros file b' files' I (Hf & q & Hq & Hn & Hb & Hfs). apply (U (b', q)). rewrite <- A. apply in_flat_map. exists file. split; [exact I|].
    apply builds_old. split; [exact Hq|]. split; [exact Hf|]. now exists q.
  - intros file b' files' I (Hf & q & Hq & Hn & Hb & Hfs). apply (V (b', q)). rewrite <- G. apply in_flat_map. exists file. split; [exact I|].
    apply builds_old. split; [exact Hq|]. split; [exact Hf|]. now exists q.
Qed.

Lemma old_fun name file b f b' f' : old_build name file b f -> old_build name file b' f' -> b = b' /\ f = f'.
Proof. intros (_ & p & E & _ & B & F) (_ & q & E' & _ & B' & F'). rewrite E in E'. injection E' as <-. split; congruence. Qed.

Lemma greatest_fun name seen b f b' f' : greatest_build name seen b f -> greatest_build name seen b' f' -> b = b' /\ f = f'.
Proof.
  intros (u & x & v & E & X & U & V) (u' & x' & v' & E' & X' & U' & V'). rewrite E in E'. clear E.
  apply app_eq_app in E' as (l & [[E1 E2]|[E1 E2]]); destruct l as [|z l]; cbn in E2; injection E2 as Ex E2.
  - subst x'. now apply (old_fun name x).
  - subst z. exfalso. assert (b < b')%Z by (apply (V' x b f); [rewrite E2; apply in_or_app; right; now left|exact X]).
    assert (b' <= b)%Z by (apply (U x' b' f'); [rewrite E1; apply in_or_app; right; now left|exact X']). lia.
  - subst x'. now apply (old_fun name x).
  - subst z. exfalso. assert (b' < b)%Z by (apply (V x' b' f'); [rewrite E2; apply in_or_app; right; now left|exact X']).
    assert (b <= b')%Z by (apply (U' x b f); [rewrite E1; apply in_or_app; right; now left|exact X]). lia.
Qed.
Lemma greatest_some name seen b f : greatest_build name seen b f -> exists file, In file seen /\ old_build name file b f.
Proof. intros (u & x & v & -> & X & _). exists x. split; [apply in_or_app; right; now left|exact X]. Qed.
Lemma numbered_fun name seen files n o n' o' : numbered name seen files n o -> numbered name seen files n' o' -> n = n' /\ o = o'.
Proof.
  intros [N|b f G S|b f G S] [N'|b' f' G' S'|b' f' G' S']; try easy.
  - destruct (greatest_some _ _ _ _ G') as (x & I & X). elim (N _ _ _ I X).
  - destruct (greatest_some _ _ _ _ G') as (x & I & X). elim (N _ _ _ I X).
  - destruct (greatest_some _ _ _ _ G) as (x & I & X). elim (N' _ _ _ I X).
  - destruct (greatest_fun _ _ _ _ _ _ G G') as [-> ->]. easy.
  - destruct (greatest_fun _ _ _ _ _ _ G G') as [-> ->]. now elim S'.
  - destruct (greatest_some _ _ _ _ G) as (x & I & X). elim (N' _ _ _ I X).
  - destruct (greatest_fun _ _ _ _ _ _ G G') as [-> ->]. now elim S.
  - destruct (greatest_fun _ _ _ _ _ _ G G') as [-> ->]. easy.
Qed.

Lemma numbered_calc name seen files : each_path_once files ->
  (forall fn p, In (fn, Some p) seen -> each_path_once (o_files p)) ->
  numbered name seen files (fst (calc_build_no name seen files)) (snd (calc_build_no name seen files)).
Proof.
  intros Nf Ns. unfold calc_build_no. rewrite all_builds. pose proof (rev_last (sort_by build_before (flat_map (builds name) seen))) as L.
  rewrite sort_by_last in L. destruct (rev (sort_by build_before (flat_map (builds name) seen))) as [|[b p] r].
  - cbn. apply num_first. intros file b f I (Hf & q & Hq & Hn & Hb & Hfs). symmetry in L. apply fold_last_max_None in L as [_ L].
    assert (In (b, q) (flat_map (builds name) seen)) as J.
    { apply in_flat_map. exists file. split; [exact I|]. apply builds_old. split; [exact Hq|]. split; [exact Hf|]. now exists q. }
    rewrite L in J. destruct J.
  - symmetry in L. pose proof (greatest name seen b p L) as G.
    assert (Np : each_path_once (o_files p)).
    { destruct G as (u & [fn o] & v & -> & _). apply fold_last_max_Some in L as (u' & v' & E & _).
      assert (J : In (b, p) (flat_map (builds name) (u ++ (fn, o) :: v))) by (rewrite E; apply in_or_app; right; now left).
      apply in_flat_map in J as ([fn' o'] & I & J). apply builds_old in J as [Q _]. cbn in Q. subst o'. exact (Ns _ _ I). }
    destruct (files_changed (o_files p) files) eqn:C; cbn [fst snd].
    + apply (num_next _ _ _ b (o_files p) G). rewrite <- files_changed_iff by assumption. congruence.
    + apply (num_same _ _ _ b (o_files p) G). now rewrite <- files_changed_iff by assumption.
Qed.

Lemma numbered_iff name seen files n o : each_path_once files ->
  (forall fn p, In (fn, Some p) seen -> each_path_once (o_files p)) ->
  (calc_build_no name seen files = (n, o) <-> numbered name seen files n o).
Proof.
  intros Nf Ns. pose proof (numbered_calc name seen files Nf Ns) as H. split.
  - intros E. now rewrite E in H.
  - intros K. destruct (numbered_fun _ _ _ _ _ _ _ H K) as [<- <-]. now destruct (calc_build_no name seen files).
Qed.
