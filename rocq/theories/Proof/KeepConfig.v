(** * Changed configuration files are kept *)
From Coq Require Import String Ascii List ZArith Lia.
From stdpp Require Import gmap strings relations.
From Verif Require Import Proof.GraphFacts.
From Verif Require Import Model.Py Model.ItemByRepo Model.Dependency Model.Package Model.ComponentDB Model.Databases
  Model.InstallDB Model.System Model.Graph Model.Plan Model.Path Model.Fs Model.Ops
  Spec.VersionSpec Spec.ItemByRepoSpec Spec.DependencySpec Spec.DatabaseSpec Spec.SystemSpec Spec.GraphSpec Spec.PlanSpec Spec.PathSpec Spec.FsSpec Spec.OpsSpec
  Proof.PyFacts Proof.PathFacts Proof.DatabaseFacts Proof.InstallDBFacts Proof.SystemFacts Proof.PlanFacts
  Proof.FsFacts Proof.FsChecks Proof.OpsFacts Proof.OpsTop Proof.OpsSteps Proof.Reinstall Proof.RemoveFiles Proof.Consent.
Open Scope string_scope.

(** ** Names *)
Lemma str_app_inj_r a b s : a +:+ s = b +:+ s -> a = b.
Proof. intros H. apply los_inj. apply (f_equal list_ascii_of_string) in H. rewrite !los_app in H. now apply app_inv_tail in H. Qed.
Lemma str_app_not_old a b : a +:+ ".old" <> b +:+ ".newconfig".
Proof.
  intros H. apply (f_equal str_rev) in H. rewrite !str_rev_app_distr in H. change (str_rev ".old") with "dlo." in H. change (str_rev ".newconfig") with "gifnocwen." in H. discriminate H.
Qed.
Lemma app_suffix a s : s <> "" -> a <> a +:+ s.
Proof. intros N H. apply (f_equal String.length) in H. rewrite str_app_length in H. destruct s; [congruence|]. simpl in H. lia. Qed.
Lemma above_trans a b c : above a b -> above b c -> above a c.
Proof. intros [r ->] [q ->]. exists (r +:+ "/" +:+ q). now rewrite !str_app_assoc. Qed.
Lemma above_ne a b : above a b -> a <> b.
Proof. intros [r ->]. apply app_suffix. discriminate. Qed.
Lemma absolute_last p : absolute p -> dirname p = "/" \/ above (dirname p) p.
Proof.
  intros (r & R & ->). destruct (rel_split_last r R) as [F|(d & n & D & N & F & ->)]; [left; now apply dirname_top|right].
  change ("/" +:+ d +:+ "/" +:+ n) with (("/" +:+ d) +:+ "/" +:+ n). rewrite dirname_under; [exists n; reflexivity|discriminate| |assumption].
  intros E. apply (ends_slash_app "/" d) in E; [now apply rel_no_end in E|now apply rel_nonempty].
Qed.
Lemma located_app dest a s : located dest (a +:+ s) = located dest a +:+ s.
Proof. unfold located. destruct (String.eqb dest "/"); [reflexivity|]. now rewrite !str_app_assoc. Qed.
Lemma above_located dest a b : above (located dest a) (located dest b) -> above a b.
Proof. intros [r H]. exists r. apply (located_inj dest). now rewrite H, located_app. Qed.
Lemma above_old p c : relative_path c -> above p (c +:+ ".old") -> above p c.
Proof.
  intros R [r H]. apply (f_equal list_ascii_of_string) in H. rewrite !los_app in H.
  replace (los p ++ los "/" ++ los r)%list with ((los p ++ los "/") ++ los r)%list in H by now rewrite <- app_assoc.
  apply app_eq_inv in H as [(k & H1 & H2)|(k & H1 & H2)].
  - exists (string_of_list_ascii k). apply los_inj. rewrite !los_app, list_ascii_of_string_of_list_ascii, H1, <- app_assoc. reflexivity.
  - destruct k as [|x k].
    + exfalso. rewrite app_nil_r in H1. apply (rel_no_end c R). exists p. apply los_inj. rewrite los_app. exact (eq_sym H1).
    + exfalso. destruct (exists_last (l := x :: k)) as (m & y & E); [discriminate|]. rewrite E, app_assoc in H1. change (los "/") with [slash] in H1. apply app_inj_tail in H1 as [_ <-].
      assert (K : In slash (los ".old")) by (rewrite H2, E; apply in_or_app; left; apply in_or_app; right; left; reflexivity).
      simpl in K. repeat destruct K as [K|K]; try discriminate K. exact K.
Qed.

(** ** File system calls *)
Lemma makedirs_only n : forall f d f' q, makedirs n f d = Ok f' -> d = "/" \/ absolute d ->
  f' !! q = f !! q \/ (f !! q = None /\ (q = d \/ above q d)).
Proof.
  induction n as [|n IH]; intros f d f' q H A; simpl in H; destruct (node_at f d) as [[]|] eqn:N; try discriminate; try (injection H as <-; now left).
  apply Proof.DatabaseFacts.bind_ok in H as (f1 & H & [= <-]). destruct A as [->|A]; [discriminate N|].
  destruct (decide (q = d)) as [->|Hq]; [right; rewrite node_at_map in N by (now apply absolute_root); auto|]. rewrite lookup_insert_ne by congruence.
  destruct (absolute_dirname d A) as [Ad _]. destruct (absolute_last d A) as [R|L].
  - rewrite R in H. destruct n; simpl in H; injection H as <-; now left.
  - destruct (IH _ _ _ q H Ad) as [K|[K [->|K']]]; [now left|right; auto|right]. split; [exact K|]. right. eapply above_trans; eauto.
Qed.
Lemma check_dir_only f p f' q : absolute p -> check_dir f (dirname p) = Ok f' -> f' !! q = f !! q \/ (f !! q = None /\ above q p).
Proof.
  intros A H. destruct (absolute_dirname p A) as [Ad _]. destruct (absolute_last p A) as [R|L].
  - rewrite R in H. unfold check_dir in H. simpl in H. injection H as <-. now left.
  - destruct (makedirs_only _ _ _ _ q H Ad) as [K|[K [->|K']]]; [now left|right; auto|right]. split; [exact K|]. eapply above_trans; eauto.
Qed.
Lemma rename_ok f a b f' : rename f a b = Ok f' -> exists x, node_at f a = Some x /\ x <> NDir /\ f' = <[b:=x]> (delete a f).
Proof.
  unfold rename. destruct (node_at f a) as [x|]; [|discriminate]. destruct x; try discriminate;
    (destruct (node_at f b) as [[]|]; try discriminate); (destruct (node_at f (dirname b)) as [[]|]; try discriminate); intros [= <-]; eexists; (split; [reflexivity|]); split; congruence.
Qed.
Lemma under_iff' d q : under d q = true <-> q = d \/ above d q.
Proof.
  unfold under. rewrite orb_true_iff, String.eqb_eq, startswith_iff. split; (intros [H|[r H]]; [auto|right; exists r]).
  - now rewrite H, str_app_assoc.
  - now rewrite H, str_app_assoc.
Qed.
Lemma zip_only dest p e f f' q : destination dest -> relative_path p -> unpack_zip dest (p, e) f = Ok f' -> q <> located dest p ->
  f' !! q = f !! q \/ (f !! q = None /\ above q (located dest p)) \/ ((exists t, e = ALink t) /\ above (located dest p) q).
Proof.
  intros D R H Hq. unfold unpack_zip in H. cbn [fst snd] in H. rewrite join_located in H by assumption.
  pose proof (located_absolute dest p D R) as A. set (P := located dest p) in *.
  assert (CD : forall f1 f2 : fs, check_dir f (dirname P) = Ok f1 -> (if isfile f1 P || islink f1 P then unlink f1 P else Ok f1) = Ok f2 ->
    f2 !! q = f !! q \/ (f !! q = None /\ above q P)).
  { intros f1 f2 H1 H2. assert (K : f2 !! q = f1 !! q). { destruct (_ || _); [apply unlink_ok in H2 as (_ & ->); now rewrite lookup_delete_ne by congruence|now injection H2 as <-]. }
    rewrite K. eapply check_dir_only; eauto. }
  destruct e as [x| |t].
  - apply Proof.DatabaseFacts.bind_ok in H as (f1 & H1 & H). apply Proof.DatabaseFacts.bind_ok in H as (f2 & H2 & H). specialize (CD f1 f2 H1 H2).
    destruct (node_at f2 P) as [[]|]; try discriminate; injection H as <-; rewrite lookup_insert_ne by congruence; destruct CD; auto.
  - destruct (isdir f P); [injection H as <-; auto|]. destruct (makedirs_only _ _ _ _ q H (or_intror A)) as [K|[K [->|K']]]; [auto|congruence|auto].
  - apply Proof.DatabaseFacts.bind_ok in H as (f1 & H1 & H). apply Proof.DatabaseFacts.bind_ok in H as (f2 & H2 & H). specialize (CD f1 f2 H1 H2). cbv zeta in H.
    destruct (node_at _ P); [discriminate|]. injection H as <-. rewrite lookup_insert_ne by congruence.
    destruct (isdir f2 P); [|destruct CD; auto]. destruct (under P q) eqn:U; [apply under_iff' in U as [U|U]; [congruence|eauto 6]|].
    assert (K : rmtree f2 P !! q = f2 !! q).
    { unfold rmtree. destruct (f2 !! q) as [x|] eqn:E; [now apply map_filter_lookup_Some|]. apply map_filter_lookup_None. auto. }
    rewrite K. destruct CD; auto.
Qed.
Lemma zip_file dest p x f f' : destination dest -> relative_path p -> unpack_zip dest (p, AFile x) f = Ok f' -> f' !! located dest p = Some (NFile x).
Proof.
  intros D R H. unfold unpack_zip in H. cbn [fst snd] in H. rewrite join_located in H by assumption.
  apply Proof.DatabaseFacts.bind_ok in H as (f1 & _ & H). apply Proof.DatabaseFacts.bind_ok in H as (f2 & _ & H).
  destruct (node_at f2 _) as [[]|]; try discriminate; injection H as <-; apply lookup_insert.
Qed.

Lemma tar_clear f P q f1 : (if isfile f P || islink f P then match unlink f P with Ok g => g | Err _ => f end else f) = f1 -> q <> P -> f1 !! q = f !! q.
Proof.
  intros <- Hq. destruct (_ || _); [|reflexivity]. destruct (unlink f P) eqn:U; [|reflexivity]. apply unlink_ok in U as (_ & ->). now rewrite lookup_delete_ne by congruence.
Qed.
Lemma tar_only dest p e f f' q : destination dest -> relative_path p -> unpack_tar dest (p, e) f = Ok f' -> q <> located dest p ->
  f' !! q = f !! q \/ (f !! q = None /\ above q (located dest p)).
Proof.
  intros D R H Hq. unfold unpack_tar in H. cbn [fst snd] in H. rewrite join_located in H by assumption.
  pose proof (located_absolute dest p D R) as A. set (P := located dest p) in *. cbv zeta in H.
  apply Proof.DatabaseFacts.bind_ok in H as (f2 & H2 & H). apply (check_dir_only _ _ _ q A) in H2. rewrite (tar_clear f P q _ eq_refl Hq) in H2.
  assert (K : f' !! q = f2 !! q).
  { destruct e as [x| |t]; destruct (node_at f2 P) as [[]|]; try discriminate H; injection H as <-; try reflexivity; now rewrite lookup_insert_ne by congruence. }
  now rewrite K.
Qed.
Lemma unpack_only fmt dest p e f f' q : destination dest -> relative_path p -> unpack_one fmt dest (p, e) f = Ok f' -> q <> located dest p ->
  f' !! q = f !! q \/ (f !! q = None /\ above q (located dest p)) \/ ((exists t, e = ALink t) /\ above (located dest p) q).
Proof.
  intros D R H Hq. destruct fmt; cbn [unpack_one] in H; [eapply zip_only; eauto|]. destruct (tar_only _ _ _ _ _ _ D R H Hq); auto.
Qed.
Lemma unpack_file fmt dest p x f f' : destination dest -> relative_path p -> unpack_one fmt dest (p, AFile x) f = Ok f' -> f' !! located dest p = Some (NFile x).
Proof.
  intros D R H. destruct fmt; cbn [unpack_one] in H; [eapply zip_file; eauto|]. unfold unpack_tar in H. cbn [fst snd] in H. rewrite join_located in H by assumption. cbv zeta in H.
  apply Proof.DatabaseFacts.bind_ok in H as (f2 & _ & H). destruct (node_at f2 _) as [[]|]; try discriminate; injection H as <-; apply lookup_insert.
Qed.

(** ** Conditions that hold at every moment, and in the end *)
Definition all_along (J : fs -> Prop) (w w' : world) : Prop :=
  J (w_fs w') /\ exists new, w_past w' = (new ++ w_past w)%list /\ Forall (fun c => J c.2) new.
Lemma along_trans J a b c : all_along J a b -> all_along J b c -> all_along J a c.
Proof. intros [_ (n & E & F)] [K (m & E' & F')]. split; [exact K|]. exists (m ++ n)%list. rewrite E', E, app_assoc. split; [reflexivity|]. now apply Forall_app. Qed.
Definition triple {A} (J P : fs -> Prop) (m : M A) (Q : A -> fs -> Prop) : Prop :=
  forall w, P (w_fs w) -> all_along J w (m w).1 /\ forall a, (m w).2 = Ok a -> Q a (w_fs (m w).1).
Section triples.
  Context (J : fs -> Prop).
  Lemma along_refl w : J (w_fs w) -> all_along J w w.
  Proof. intros H. split; [exact H|]. exists []. split; [reflexivity|constructor]. Qed.
  Lemma t_bind {A B} P (m : M A) Q (k : A -> M B) R : triple J P m Q -> (forall a, triple J (Q a) (k a) R) -> triple J P (bindM m k) R.
  Proof.
    intros H K w Hw. destruct (H w Hw) as [H1 H2]. unfold bindM. destruct (m w) as [w1 [a|e]]; cbn [fst snd] in *.
    - destruct (K a w1 (H2 a eq_refl)) as [K1 K2]. split; [eapply along_trans; eauto|exact K2].
    - split; [exact H1|discriminate].
  Qed.
  Lemma t_conseq {A} (P P' : fs -> Prop) (m : M A) (Q Q' : A -> fs -> Prop) : triple J P' m Q' -> (forall f, P f -> P' f) -> (forall a f, Q' a f -> Q a f) -> triple J P m Q.
  Proof. intros H HP HQ w Hw. destruct (H w (HP _ Hw)) as [H1 H2]. split; [exact H1|]. intros a Ha. apply HQ, H2, Ha. Qed.
  Lemma t_ret {A} (P : fs -> Prop) (a : A) (Q : A -> fs -> Prop) : (forall f, P f -> J f /\ Q a f) -> triple J P (ret a) Q.
  Proof. intros H w Hw. apply H in Hw as [H1 H2]. split; [now apply along_refl|]. cbn [ret snd fst]. intros b [= <-]. exact H2. Qed.
  Lemma t_throw {A} (P : fs -> Prop) e (Q : A -> fs -> Prop) : (forall f, P f -> J f) -> triple J P (throw e) Q.
  Proof. intros H w Hw. split; [now apply along_refl, H|]. discriminate. Qed.
  Lemma t_look {A} (P : fs -> Prop) (g : fs -> A) (Q : A -> fs -> Prop) : (forall f, P f -> J f /\ Q (g f) f) -> triple J P (look_fs g) Q.
  Proof. intros H w Hw. apply H in Hw as [H1 H2]. split; [now apply along_refl|]. cbn [look_fs snd fst]. intros b [= <-]. exact H2. Qed.
  Lemma t_touch (P : fs -> Prop) g (Q : unit -> fs -> Prop) : (forall f, P f -> J f) -> (forall f f', P f -> g f = Ok f' -> J f' /\ Q tt f') -> triple J P (touch g) Q.
  Proof.
    intros H K w Hw. unfold touch. destruct (g (w_fs w)) as [f'|e] eqn:G; cbn [fst snd].
    - destruct (K _ _ Hw G) as [K1 K2]. split; [|intros [] _; exact K2]. split; [exact K1|]. exists [(w_sys w, w_fs w)]. split; [reflexivity|]. repeat constructor. apply H, Hw.
    - split; [now apply along_refl, H|discriminate].
  Qed.
  Lemma t_each {A} (P : fs -> Prop) (g : A -> M unit) l : (forall f, P f -> J f) -> (forall x, In x l -> triple J P (g x) (fun _ => P)) -> triple J P (eachM g l) (fun _ => P).
  Proof.
    intros HJ. induction l as [|x l IH]; intros H; simpl; [apply t_ret; auto|]. apply (t_bind P _ (fun _ => P)); [apply H; simpl; auto|]. intros _. apply IH. intros y Hy. apply H. simpl. auto.
  Qed.
  Lemma t_each_split {A} (P Q : fs -> Prop) (g : A -> M unit) l1 x l2 : (forall f, P f -> J f) -> (forall f, Q f -> J f) ->
    (forall y, In y l1 -> triple J P (g y) (fun _ => P)) -> triple J P (g x) (fun _ => Q) -> (forall y, In y l2 -> triple J Q (g y) (fun _ => Q)) ->
    triple J P (eachM g (l1 ++ x :: l2)) (fun _ => Q).
  Proof.
    intros HP HQ H1 H H2. induction l1 as [|y l1 IH]; simpl.
    - apply (t_bind P _ (fun _ => Q)); [exact H|]. intros _. now apply t_each.
    - apply (t_bind P _ (fun _ => P)); [apply H1; simpl; auto|]. intros _. apply IH. intros z Hz. apply H1. simpl. auto.
  Qed.
End triples.

(** ** Sorting and pairing the file lists *)
Lemma insert_perm x l : Permutation (insert_by_path x l) (x :: l).
Proof.
  induction l as [|y l IH]; simpl; [reflexivity|]. destruct (String.ltb _ _); [reflexivity|]. rewrite IH. apply perm_swap.
Qed.
Lemma sort_perm l : Permutation (sort_by_path l) l.
Proof.
  unfold sort_by_path. assert (G : forall l acc, Permutation (fold_left (fun acc x => insert_by_path x acc) l acc) (acc ++ l)).
  { clear l. induction l as [|x l IH]; intros acc; simpl; [now rewrite app_nil_r|]. rewrite IH, insert_perm. simpl. apply Permutation_middle. }
  apply (G l []).
Qed.
Lemma has_path_iff l x : has_path l x = true <-> In (f_path x) (map f_path l).
Proof.
  unfold has_path. rewrite existsb_exists, in_map_iff. split; intros (y & H1 & H2); exists y; [apply String.eqb_eq in H2; auto|split; [exact H2|now apply String.eqb_eq]].
Qed.
Lemma nodup_map_filter (g : finfo -> bool) l : NoDup (map f_path l) -> NoDup (map f_path (List.filter g l)).
Proof.
  induction l as [|x l IH]; simpl; [auto|]. intros N. apply NoDup_cons in N as [N1 N2]. destruct (g x); [|auto]. simpl. apply NoDup_cons. split; [|auto].
  intros K. apply N1. apply elem_of_list_In, in_map_iff in K as (y & E & K). apply filter_In in K as [K _]. apply elem_of_list_In, in_map_iff. eauto.
Qed.
Lemma overlap_length new old : NoDup (map f_path new) -> NoDup (map f_path old) ->
  length (List.filter (has_path old) (sort_by_path new)) = length (List.filter (has_path new) (sort_by_path old)).
Proof.
  intros Nn No. assert (P : Permutation (map f_path (List.filter (has_path old) (sort_by_path new))) (map f_path (List.filter (has_path new) (sort_by_path old)))).
  { apply NoDup_Permutation.
    - apply nodup_map_filter. now rewrite sort_perm.
    - apply nodup_map_filter. now rewrite sort_perm.
    - intros x. rewrite !elem_of_list_In, !in_map_iff. split; intros (y & <- & K); apply filter_In in K as [K1 K2]; apply has_path_iff, in_map_iff in K2 as (z & E & K2);
        exists z; (split; [exact E|]); apply filter_In; (split; [now rewrite sort_perm|]); apply has_path_iff; rewrite E; apply in_map; rewrite <- sort_perm; exact K1. }
  apply Permutation_length in P. now rewrite !map_length in P.
Qed.
Lemma zip_split {A B} (x : A) : forall (l : list A) (r : list B), In x l -> length l = length r ->
  exists l1 l2 r1 y r2, l = (l1 ++ x :: l2)%list /\ r = (r1 ++ y :: r2)%list /\ zip l r = (zip l1 r1 ++ (x, y) :: zip l2 r2)%list.
Proof.
  induction l as [|a l IH]; intros [|b r] H E; try discriminate; [destruct H|]. destruct H as [->|H].
  - exists [], l, [], b, r. auto.
  - injection E as E. destruct (IH r H E) as (l1 & l2 & r1 & y & r2 & -> & -> & K). exists (a :: l1), l2, (b :: r1), y, r2. split; [reflexivity|]. split; [reflexivity|]. simpl. now rewrite K.
Qed.
Lemma nodup_path_eq l x y : NoDup (map f_path l) -> In x l -> In y l -> f_path x = f_path y -> x = y.
Proof.
  induction l as [|a l IH]; simpl; [tauto|]. intros N Hx Hy E. apply NoDup_cons in N as [N1 N2].
  destruct Hx as [->|Hx], Hy as [->|Hy]; [reflexivity| | |auto]; exfalso; apply N1, elem_of_list_In, in_map_iff; eauto.
Qed.

Section keep.
  Context (h : host) (o : opts) (D : destination (o_dest o)) (c u newc : string) (Rc : relative_path c) (Sc : ~ side_name c).
  Notation C := (located (o_dest o) c).
  Definition J (f : fs) : Prop := f !! C = Some (NFile u) \/ f !! (C +:+ ".old") = Some (NFile u).
  Definition PA (f : fs) : Prop := f !! C = Some (NFile u).
  Definition PB (f : fs) : Prop := f !! C = None /\ f !! (C +:+ ".old") = Some (NFile u).
  Definition PC (f : fs) : Prop := f !! C = Some (NFile newc) /\ f !! (C +:+ ".old") = Some (NFile u).
  Definition PD (f : fs) : Prop := f !! C = Some (NFile u) /\ f !! (C +:+ ".newconfig") = Some (NFile newc).
  Lemma PA_J f : PA f -> J f. Proof. intros H. now left. Qed.
  Lemma PB_J f : PB f -> J f. Proof. intros [_ H]. now right. Qed.
  Lemma PC_J f : PC f -> J f. Proof. intros [_ H]. now right. Qed.
  Lemma PD_J f : PD f -> J f. Proof. intros [H _]. now left. Qed.
  Lemma C_root : C <> "/". Proof. apply absolute_root, located_absolute; assumption. Qed.
  Lemma C_names : C <> C +:+ ".old" /\ C <> C +:+ ".newconfig" /\ C +:+ ".old" <> C +:+ ".newconfig".
  Proof. split; [apply app_suffix; discriminate|]. split; [apply app_suffix; discriminate|apply str_app_not_old]. Qed.
  Lemma side_root x s : s <> "" -> s <> "/" -> x +:+ s <> "/".
  Proof. intros H1 H2 E. destruct x as [|a x]; [exact (H2 E)|]. injection E as _ E. destruct x; [exact (H1 E)|discriminate E]. Qed.

  (** another path of the list *)
  Definition away (p : string) : Prop := relative_path p /\ ~ side_name p /\ p <> c.
  Definition ours (q : string) : Prop := q = C \/ q = C +:+ ".old" \/ q = C +:+ ".newconfig".
  Lemma away_ours p : away p -> ~ ours (located (o_dest o) p) /\ ~ ours (located (o_dest o) p +:+ ".old") /\ ~ ours (located (o_dest o) p +:+ ".newconfig").
  Proof.
    intros (R & S & N). unfold ours. rewrite <- !located_app. repeat split.
    - intros [E|[E|E]]; apply located_inj in E; [congruence|apply S; exists c; auto|apply S; exists c; auto].
    - intros [E|[E|E]]; apply located_inj in E; [apply Sc; exists p; auto|now apply str_app_inj_r in E|now apply str_app_not_old in E].
    - intros [E|[E|E]]; apply located_inj in E; [apply Sc; exists p; auto|symmetry in E; now apply str_app_not_old in E|now apply str_app_inj_r in E].
  Qed.
  Definition local (P : fs -> Prop) : Prop := forall f f' : fs, (forall q, ours q -> f' !! q = f !! q) -> P f -> P f'.
  Lemma ours_C : ours C. Proof. now left. Qed.
  Lemma ours_old : ours (C +:+ ".old"). Proof. right; now left. Qed.
  Lemma ours_new : ours (C +:+ ".newconfig"). Proof. right; now right. Qed.
  Lemma PA_local : local PA. Proof. intros f f' H K. unfold PA. now rewrite (H _ ours_C). Qed.
  Lemma PB_local : local PB. Proof. intros f f' H [K1 K2]. unfold PB. now rewrite (H _ ours_C), (H _ ours_old). Qed.
  Lemma PC_local : local PC. Proof. intros f f' H [K1 K2]. unfold PC. now rewrite (H _ ours_C), (H _ ours_old). Qed.
  Lemma PD_local : local PD. Proof. intros f f' H [K1 K2]. unfold PD. now rewrite (H _ ours_C), (H _ ours_new). Qed.

  Lemma t_unlink_if (P : fs -> Prop) x : (forall f, P f -> J f) -> (forall f, P f -> P (delete x f)) ->
    triple J P (touch (fun f => if exists_ f x then unlink f x else Ok f)) (fun _ => P).
  Proof.
    intros HJ L. apply t_touch; [exact HJ|]. intros f f' HP H. assert (K : P f'). { destruct (exists_ f x); [apply unlink_ok in H as [_ ->]; auto|now injection H as <-]. } auto.
  Qed.
  Lemma local_delete P x f : local P -> ~ ours x -> P f -> P (delete x f).
  Proof. intros L N. apply L. intros q Hq. apply lookup_delete_ne. congruence. Qed.
  Lemma local_insert P x n f : local P -> ~ ours x -> P f -> P (<[x:=n]> f).
  Proof. intros L N. apply L. intros q Hq. apply lookup_insert_ne. congruence. Qed.

  Section other.
    Context (P : fs -> Prop) (HJ : forall f, P f -> J f) (L : local P).
    Lemma t_rename_other a b : ~ ours a -> ~ ours b -> triple J P (touch (fun f => rename f a b)) (fun _ => P).
    Proof.
      intros Na Nb. apply t_touch; [exact HJ|]. intros f f' HP H. apply rename_ok in H as (x & _ & _ & ->).
      assert (K : P (<[b:=x]> (delete a f))) by (apply local_insert; [exact L|exact Nb|]; apply local_delete; assumption). auto.
    Qed.
    Lemma keep_other changed p hash : away p -> triple J P (keep_config h o changed p hash) (fun ch f => P f /\ (ch = changed \/ ch = changed ++ [located (o_dest o) p])%list).
    Proof.
      intros A. destruct (away_ours p A) as (A1 & A2 & A3). unfold keep_config. destruct A as (R & _). rewrite join_located by assumption. cbv zeta.
      apply (t_bind J P _ (fun _ => P)); [apply t_look; auto|]. intros [x|]; [|apply t_ret; auto]. destruct (bool_decide _); [apply t_ret; auto|].
      apply (t_bind J P _ (fun _ => P)); [|intros _; apply t_ret; auto]. unfold put_aside.
      apply (t_bind J P _ (fun _ => P)); [apply t_unlink_if; [exact HJ|intros f; now apply local_delete]|]. intros _. now apply t_rename_other.
    Qed.
    Lemma restore_other x : ~ ours x -> ~ ours (x +:+ ".old") -> ~ ours (x +:+ ".newconfig") -> triple J P (restore_config x) (fun _ => P).
    Proof.
      intros A1 A2 A3. unfold restore_config.
      apply (t_bind J P _ (fun _ => P)); [apply t_unlink_if; [exact HJ|intros f; now apply local_delete]|]. intros _.
      apply (t_bind J P _ (fun _ => P)); [now apply t_rename_other|]. intros _. now apply t_rename_other.
    Qed.

    (** the loops over other files *)
    Definition grown (ch ch' : list string) : Prop := exists more, ch' = (ch ++ more)%list /\ forall x, In x more -> exists p, away p /\ x = located (o_dest o) p.
    Lemma grown_refl ch : grown ch ch. Proof. exists []. split; [now rewrite app_nil_r|intros x []]. Qed.
    Lemma grown_one ch p : away p -> grown ch (ch ++ [located (o_dest o) p]).
    Proof. intros A. exists [located (o_dest o) p]. split; [reflexivity|]. intros x [<-|[]]. eauto. Qed.
    Lemma grown_trans a b d : grown a b -> grown b d -> grown a d.
    Proof. intros (m & -> & H) (n & -> & K). exists (m ++ n)%list. split; [now rewrite app_assoc|]. intros x Hx. apply in_app_iff in Hx as [Hx|Hx]; auto. Qed.
    Lemma keep_configs_other pairs : (forall a b, In (a, b) pairs -> away (f_path a)) -> forall ch,
      triple J P (keep_configs h o pairs ch) (fun ch' f => P f /\ grown ch ch').
    Proof.
      induction pairs as [|[a b] pairs IH]; intros H ch; cbn [keep_configs]; [apply t_ret; auto using grown_refl|].
      destruct (String.eqb (f_path a) (f_path b)) eqn:E; [|now apply t_throw]. apply String.eqb_eq in E.
      assert (A : away (f_path b)) by (rewrite <- E; eapply H; simpl; auto).
      apply (t_bind J P _ (fun ch' f => P f /\ grown ch ch')).
      - destruct (_ && _); [|apply t_ret; auto using grown_refl]. eapply t_conseq; [apply keep_other, A|auto|]. intros ch' f [K1 [->| ->]]; split; auto using grown_refl, grown_one.
      - intros ch1 w [Hw G]. destruct (IH (fun a b K => H a b (or_intror K)) ch1 w Hw) as [K1 K2]. split; [exact K1|]. intros ch2 E2. destruct (K2 ch2 E2) as [K3 K4]. split; [exact K3|]. eapply grown_trans; eauto.
    Qed.
    Lemma keep_stray_other files : (forall a, In a files -> away (f_path a)) -> forall ch,
      triple J P (keep_stray h o files ch) (fun ch' f => P f /\ grown ch ch').
    Proof.
      induction files as [|a files IH]; intros H ch; cbn [keep_stray]; [apply t_ret; auto using grown_refl|].
      apply (t_bind J P _ (fun ch' f => P f /\ grown ch ch')).
      - destruct (String.eqb _ _); [|apply t_ret; auto using grown_refl]. eapply t_conseq; [apply keep_other, H; simpl; auto|auto|]. intros ch' f [K1 [->| ->]]; split; auto using grown_refl.
        apply grown_one, H. simpl. auto.
      - intros ch1 w [Hw G]. destruct (IH (fun a K => H a (or_intror K)) ch1 w Hw) as [K1 K2]. split; [exact K1|]. intros ch2 E2. destruct (K2 ch2 E2) as [K3 K4]. split; [exact K3|]. eapply grown_trans; eauto.
    Qed.
  End other.

  (** the file itself *)
  Lemma keep_this changed hash : hash <> Some (h_sha1 h u) -> triple J PA (keep_config h o changed c hash) (fun ch f => PB f /\ ch = (changed ++ [C])%list).
  Proof.
    intros Hh. destruct C_names as (N1 & N2 & N3). unfold keep_config. rewrite join_located by assumption. cbv zeta.
    apply (t_bind J PA _ (fun hs f => PA f /\ hs = Some (h_sha1 h u))).
    { apply t_look. intros f HP. split; [now apply PA_J|]. split; [exact HP|]. unfold sha1_file, stat. simpl. rewrite node_at_map by apply C_root. unfold PA in HP. now rewrite HP. }
    intros hs. destruct hs as [x|]; [|intros w [_ [=]]]. apply (t_conseq J _ (fun f => PA f /\ x = h_sha1 h u) _ _ (fun ch f => PB f /\ ch = (changed ++ [C])%list)); [|intros f [K [= ->]]; auto|auto].
    destruct (decide (x = h_sha1 h u)) as [->|Nx]; [|intros w [_ K]; congruence]. rewrite (bool_decide_eq_false_2 (Some (h_sha1 h u) = hash)) by congruence.
    apply (t_bind J _ _ (fun _ f => PB f)).
    - unfold put_aside. apply (t_bind J _ _ (fun _ f => PA f)).
      + apply (t_conseq J _ PA _ _ (fun _ => PA)); [|tauto|auto]. apply t_unlink_if; [apply PA_J|]. intros f HP. unfold PA. now rewrite lookup_delete_ne by congruence.
      + intros _. apply t_touch; [apply PA_J|]. intros f f' HP H. apply rename_ok in H as (n & Hn & _ & ->). rewrite node_at_map in Hn by apply C_root. unfold PA in HP. rewrite HP in Hn. injection Hn as <-.
        assert (K : PB (<[C +:+ ".old":=NFile u]> (delete C f))) by (split; [rewrite lookup_insert_ne by congruence; apply lookup_delete|apply lookup_insert]). split; [now apply PB_J|exact K].
    - intros _. apply t_ret. intros f K. split; [now apply PB_J|auto].
  Qed.
  Lemma restore_this : triple J PC (restore_config C) (fun _ => PD).
  Proof.
    destruct C_names as (N1 & N2 & N3). unfold restore_config. apply (t_bind J PC _ (fun _ => PC)).
    { apply t_unlink_if; [apply PC_J|]. intros f [K1 K2]. split; rewrite lookup_delete_ne by congruence; assumption. }
    intros _. apply (t_bind J PC _ (fun _ f => f !! (C +:+ ".newconfig") = Some (NFile newc) /\ f !! (C +:+ ".old") = Some (NFile u))).
    - apply t_touch; [apply PC_J|]. intros f f' [K1 K2] H. apply rename_ok in H as (n & Hn & _ & ->). rewrite node_at_map in Hn by apply C_root. rewrite K1 in Hn. injection Hn as <-.
      assert (K : <[C +:+ ".newconfig":=NFile newc]> (delete C f) !! (C +:+ ".old") = Some (NFile u)) by (rewrite lookup_insert_ne, lookup_delete_ne by congruence; exact K2).
      split; [now right|]. split; [apply lookup_insert|exact K].
    - intros _. apply t_touch; [intros f [_ K]; now right|]. intros f f' [K1 K2] H. apply rename_ok in H as (n & Hn & _ & ->).
      rewrite node_at_map in Hn by (apply side_root; discriminate). rewrite K2 in Hn. injection Hn as <-.
      assert (K : PD (<[C:=NFile u]> (delete (C +:+ ".old") f))) by (split; [apply lookup_insert|rewrite lookup_insert_ne, lookup_delete_ne by congruence; exact K1]). split; [now apply PD_J|exact K].
  Qed.

  (** ** The whole *)
  Context (k : pkgfile) (Ok_ : in_order k).
  Lemma new_away fi : In fi (k_files k) -> f_path fi <> c -> away (f_path fi).
  Proof. intros H N. destruct Ok_ as (_ & _ & K & _). destruct (K fi H). split; [assumption|]. split; assumption. Qed.

  Lemma keep_configs_all old fi : In fi (k_files k) -> f_path fi = c -> is_config fi -> NoDup (map f_path old) ->
    forall oldf, In oldf old -> f_path oldf = c -> is_config oldf -> f_hash oldf <> Some (h_sha1 h u) ->
    triple J PA (keep_configs h o (zip (List.filter (has_path old) (sort_by_path (k_files k))) (List.filter (has_path (k_files k)) (sort_by_path old))) [])
      (fun ch f => PB f /\ exists ch1 ch2, ch = (ch1 ++ C :: ch2)%list /\ forall x, In x (ch1 ++ ch2)%list -> exists p, away p /\ x = located (o_dest o) p).
  Proof.
    intros Hfi Ec Cf No oldf Ho Eo Co Hash. set (lft := List.filter _ _). set (rgt := List.filter _ _).
    assert (Nn : NoDup (map f_path (k_files k))) by apply Ok_.
    assert (Nl : NoDup (map f_path lft)) by (apply nodup_map_filter; now rewrite sort_perm).
    assert (Il : forall x, In x lft -> In x (k_files k)) by (intros x Hx; apply filter_In in Hx as [Hx _]; now rewrite sort_perm in Hx).
    assert (Ir : forall x, In x rgt -> In x old) by (intros x Hx; apply filter_In in Hx as [Hx _]; now rewrite sort_perm in Hx).
    assert (Hl : In fi lft). { apply filter_In. split; [now rewrite sort_perm|]. apply has_path_iff. rewrite Ec, <- Eo. now apply in_map. }
    destruct (zip_split fi lft rgt Hl (overlap_length _ _ Nn No)) as (l1 & l2 & r1 & b & r2 & El & Er & ->).
    assert (Aw : forall l', (forall x, In x l' -> In x lft) -> (forall x, In x l' -> f_path x <> c) -> forall (r' : list finfo) (a b' : finfo), In (a, b') (zip l' r') -> away (f_path a)).
    { intros l' S N r' a b' Hab. assert (In a l') by (apply elem_of_list_In; eapply elem_of_zip_l; apply elem_of_list_In; exact Hab). apply new_away; auto. }
    assert (Nc : forall x, In x l1 \/ In x l2 -> f_path x <> c).
    { intros x Hx E. rewrite El, map_app in Nl. cbn [map] in Nl. rewrite Ec, <- E in Nl. apply NoDup_app in Nl as (_ & Q1 & Q2). apply NoDup_cons in Q2 as [Q2 _].
      destruct Hx as [Hx|Hx]; [apply (Q1 (f_path x)); [apply elem_of_list_In, in_map, Hx|left]|apply Q2, elem_of_list_In, in_map, Hx]. }
    assert (A1 : forall a b', In (a, b') (zip l1 r1) -> away (f_path a)). { apply Aw; [intros x Hx; rewrite El; apply in_or_app; auto|auto]. }
    assert (A2 : forall a b', In (a, b') (zip l2 r2) -> away (f_path a)). { apply Aw; [intros x Hx; rewrite El; apply in_or_app; simpl; auto|auto]. }
    assert (Hb : f_path fi = f_path b -> b = oldf).
    { intros E. apply (nodup_path_eq old); [exact No| |exact Ho|congruence]. apply Ir. rewrite Er. apply in_or_app. simpl. auto. }
    clearbody lft rgt. clear El Er Aw Nc Nl Il Ir Hl.
    assert (G : forall l, (forall a b', In (a, b') l -> away (f_path a)) -> forall ch, triple J PA (keep_configs h o (l ++ (fi, b) :: zip l2 r2) ch)
      (fun ch' f => PB f /\ exists m1 m2, ch' = (ch ++ m1 ++ C :: m2)%list /\ forall x, In x (m1 ++ m2)%list -> exists p, away p /\ x = located (o_dest o) p)).
    2: { eapply t_conseq; [apply (G _ A1 [])|auto|]. intros ch f [K1 K2]. auto. }
    induction l as [|[x y] l IH]; intros Al ch; cbn [keep_configs app].
    - destruct (String.eqb (f_path fi) (f_path b)) eqn:E; [|apply t_throw, PA_J]. apply String.eqb_eq in E. rewrite (Hb E) in *. clear Hb E.
      unfold is_config in Cf, Co. rewrite Cf, Co, Eo. change (String.eqb "config" "config" && String.eqb "config" "config") with true. cbn [orb].
      apply (t_bind J PA _ (fun ch' f => PB f /\ ch' = (ch ++ [C])%list)); [now apply keep_this|]. intros ch1 w [Hw ->].
      destruct (keep_configs_other PB PB_J PB_local (zip l2 r2) A2 (ch ++ [C]) w Hw) as [K1 K2]. split; [exact K1|]. intros ch2 E2. destruct (K2 ch2 E2) as [K3 (m & -> & K4)]. split; [exact K3|].
      exists [], m. split; [now rewrite <- app_assoc|exact K4].
    - destruct (String.eqb (f_path x) (f_path y)) eqn:E; [|apply t_throw, PA_J]. apply String.eqb_eq in E. assert (A : away (f_path y)) by (rewrite <- E; eapply Al; simpl; auto).
      apply (t_bind J PA _ (fun ch' f => PA f /\ grown ch ch')).
      + destruct (_ && _); [|apply t_ret; intros f K; split; [now apply PA_J|split; [exact K|apply grown_refl]]].
        eapply t_conseq; [apply (keep_other PA PA_J PA_local); exact A|auto|]. intros ch' f [K1 [->| ->]]; split; auto using grown_refl, grown_one.
      + intros ch1 w [Hw (m & -> & Hm)]. destruct (IH (fun a b' K => Al a b' (or_intror K)) (ch ++ m)%list w Hw) as [K1 K2]. split; [exact K1|]. intros ch2 E2. destruct (K2 ch2 E2) as [K3 (m1 & m2 & -> & K4)].
        split; [exact K3|]. exists (m ++ m1)%list, m2. split; [now rewrite <- !app_assoc|]. intros z Hz. rewrite <- app_assoc in Hz. apply in_app_iff in Hz as [Hz|Hz]; auto.
  Qed.
  Lemma keep_stray_all fi : In fi (k_files k) -> f_path fi = c -> is_config fi -> f_hash fi <> Some (h_sha1 h u) ->
    triple J PA (keep_stray h o (k_files k) [])
      (fun ch f => PB f /\ exists ch1 ch2, ch = (ch1 ++ C :: ch2)%list /\ forall x, In x (ch1 ++ ch2)%list -> exists p, away p /\ x = located (o_dest o) p).
  Proof.
    intros Hfi Ec Cf Hash. assert (Nn : NoDup (map f_path (k_files k))) by apply Ok_.
    assert (Aw := new_away). apply in_split in Hfi as (l1 & l2 & E). rewrite E in *. clear E.
    assert (Nc : forall x, In x l1 \/ In x l2 -> f_path x <> c).
    { intros x Hx E. rewrite map_app in Nn. cbn [map] in Nn. rewrite Ec, <- E in Nn. apply NoDup_app in Nn as (_ & Q1 & Q2). apply NoDup_cons in Q2 as [Q2 _].
      destruct Hx as [Hx|Hx]; [apply (Q1 (f_path x)); [apply elem_of_list_In, in_map, Hx|left]|apply Q2, elem_of_list_In, in_map, Hx]. }
    assert (A1 : forall a, In a l1 -> away (f_path a)) by (intros a Ha; apply Aw; [apply in_or_app; auto|auto]).
    assert (A2 : forall a, In a l2 -> away (f_path a)) by (intros a Ha; apply Aw; [apply in_or_app; simpl; auto|auto]). clear Aw Nc Nn.
    assert (G : forall l, (forall a, In a l -> away (f_path a)) -> forall ch, triple J PA (keep_stray h o (l ++ fi :: l2) ch)
      (fun ch' f => PB f /\ exists m1 m2, ch' = (ch ++ m1 ++ C :: m2)%list /\ forall x, In x (m1 ++ m2)%list -> exists p, away p /\ x = located (o_dest o) p)).
    2: { eapply t_conseq; [apply (G _ A1 [])|auto|]. intros ch f [K1 K2]. auto. }
    induction l as [|x l IH]; intros Al ch; cbn [keep_stray app].
    - unfold is_config in Cf. rewrite Cf, Ec. change (String.eqb "config" "config") with true.
      apply (t_bind J PA _ (fun ch' f => PB f /\ ch' = (ch ++ [C])%list)); [now apply keep_this|]. intros ch1 w [Hw ->].
      destruct (keep_stray_other PB PB_J PB_local l2 A2 (ch ++ [C]) w Hw) as [K1 K2]. split; [exact K1|]. intros ch2 E2. destruct (K2 ch2 E2) as [K3 (m & -> & K4)]. split; [exact K3|].
      exists [], m. split; [now rewrite <- app_assoc|exact K4].
    - apply (t_bind J PA _ (fun ch' f => PA f /\ grown ch ch')).
      + destruct (String.eqb _ _); [|apply t_ret; intros f K; split; [now apply PA_J|split; [exact K|apply grown_refl]]].
        eapply t_conseq; [apply (keep_other PA PA_J PA_local); apply Al; simpl; auto|auto|]. intros ch' f [K1 [->| ->]]; split; auto using grown_refl.
        apply grown_one, Al. simpl. auto.
      + intros ch1 w [Hw (m & -> & Hm)]. destruct (IH (fun a K => Al a (or_intror K)) (ch ++ m)%list w Hw) as [K1 K2]. split; [exact K1|]. intros ch2 E2. destruct (K2 ch2 E2) as [K3 (m1 & m2 & -> & K4)].
        split; [exact K3|]. exists (m ++ m1)%list, m2. split; [now rewrite <- !app_assoc|]. intros z Hz. rewrite <- app_assoc in Hz. apply in_app_iff in Hz as [Hz|Hz]; auto.
  Qed.

  Context (Hdata : In (c, AFile newc) (k_data k)).
  Lemma unpack_other (x : option node) p e : In (p, e) (k_data k) -> p <> c ->
    triple J (fun f => f !! C = x /\ f !! (C +:+ ".old") = Some (NFile u)) (touch (unpack_one (k_format k) (o_dest o) (p, e))) (fun _ f => f !! C = x /\ f !! (C +:+ ".old") = Some (NFile u)).
  Proof.
    intros Hp N. destruct Ok_ as (_ & _ & _ & K1 & K2). destruct (K1 p e Hp) as [Rp Sp].
    apply t_touch; [intros f [_ K]; now right|]. intros f f' [H1 H2] U.
    assert (G : f' !! C = f !! C /\ f' !! (C +:+ ".old") = f !! (C +:+ ".old")).
    { split.
      - destruct (unpack_only _ _ _ _ _ _ C D Rp U) as [G|[[_ G]|[[t Et] G]]]; [intros E; apply located_inj in E; congruence|exact G| |]; apply above_located in G; exfalso.
        + pose proof (K2 _ _ _ _ Hdata Hp G). discriminate.
        + pose proof (K2 _ _ _ _ Hp Hdata G). congruence.
      - destruct (unpack_only _ _ _ _ _ _ (C +:+ ".old") D Rp U) as [G|[[G _]|[[t Et] G]]]; [|exact G|congruence|].
        + rewrite <- located_app. intros E. apply located_inj in E. apply Sp. exists c. auto.
        + rewrite <- located_app in G. apply above_located, above_old in G; [|exact Rc]. pose proof (K2 _ _ _ _ Hp Hdata G). congruence. }
    destruct G as [G1 G2]. rewrite G1, G2. split; [right; congruence|auto].
  Qed.
  Lemma unpack_all : triple J PB (eachM (fun pe => touch (unpack_one (k_format k) (o_dest o) pe)) (k_data k)) (fun _ => PC).
  Proof.
    assert (Nd : NoDup (map fst (k_data k))) by apply Ok_. assert (Un := unpack_other). assert (H := Hdata). apply in_split in H as (d1 & d2 & E). rewrite E in *.
    assert (Nc : forall p e, In (p, e) d1 \/ In (p, e) d2 -> p <> c).
    { intros p e Hx Q. rewrite map_app in Nd. cbn [map fst] in Nd. rewrite <- Q in Nd. apply NoDup_app in Nd as (_ & Q1 & Q2). apply NoDup_cons in Q2 as [Q2 _].
      destruct Hx as [Hx|Hx]; [apply (Q1 p); [apply elem_of_list_In, in_map_iff; exists (p, e); auto|left]|apply Q2, elem_of_list_In, in_map_iff; exists (p, e); auto]. }
    apply (t_each_split J PB PC); [apply PB_J|apply PC_J| | |].
    - intros [p e] Hp. apply (Un None); [apply in_or_app; auto|eauto].
    - apply t_touch; [apply PB_J|]. intros f f' [H1 H2] U. assert (K : PC f').
      { split; [now apply (unpack_file (k_format k) (o_dest o) c newc f)|]. destruct (unpack_only _ _ _ _ _ _ (C +:+ ".old") D Rc U) as [G|[[G _]|[[t Et] _]]]; [|now rewrite G|congruence|discriminate].
        intros Q. symmetry in Q. revert Q. apply app_suffix. discriminate. }
      split; [now apply PC_J|exact K].
    - intros [p e] Hp. apply (Un (Some (NFile newc))); [apply in_or_app; simpl; auto|eauto].
  Qed.
  Lemma restore_all ch1 ch2 : (forall x, In x (ch1 ++ ch2)%list -> exists p, away p /\ x = located (o_dest o) p) ->
    triple J PC (eachM restore_config (ch1 ++ C :: ch2)) (fun _ => PD).
  Proof.
    intros H. assert (A : forall P : fs -> Prop, (forall f, P f -> J f) -> local P -> forall x, In x (ch1 ++ ch2)%list -> triple J P (restore_config x) (fun _ => P)).
    { intros P HJ L x Hx. destruct (H x Hx) as (p & Ap & ->). destruct (away_ours p Ap) as (A1 & A2 & A3). now apply restore_other. }
    apply (t_each_split J PC PD); [apply PC_J|apply PD_J| |apply restore_this|].
    - intros y Hy. apply A; [apply PC_J|apply PC_local|apply in_or_app; auto].
    - intros y Hy. apply A; [apply PD_J|apply PD_local|apply in_or_app; auto].
  Qed.

  Lemma extract_keeps old : match old with
      | Some old => NoDup (map f_path old) /\ exists oldf, In oldf old /\ f_path oldf = c /\ is_config oldf /\ f_hash oldf <> Some (h_sha1 h u)
      | None => exists fi, In fi (k_files k) /\ f_path fi = c /\ is_config fi /\ f_hash fi <> Some (h_sha1 h u)
      end -> (exists fi, In fi (k_files k) /\ f_path fi = c /\ is_config fi) ->
    triple J PA (extract_install h o k old) (fun _ => PD).
  Proof.
    intros Ho (fi & F1 & F2 & F3). unfold extract_install. cbv zeta.
    apply (t_bind J PA _ (fun ch f => PB f /\ exists ch1 ch2, ch = (ch1 ++ C :: ch2)%list /\ forall x, In x (ch1 ++ ch2)%list -> exists p, away p /\ x = located (o_dest o) p)).
    { destruct old as [old|].
      - destruct Ho as (No & oldf & O1 & O2 & O3 & O4). exact (keep_configs_all old fi F1 F2 F3 No oldf O1 O2 O3 O4).
      - destruct Ho as (fi' & G1 & G2 & G3 & G4). exact (keep_stray_all fi' G1 G2 G3 G4). }
    intros ch w [Hw (ch1 & ch2 & -> & Hc)]. revert w Hw.
    change (triple J PB (do! eachM (fun pe => touch (unpack_one (k_format k) (o_dest o) pe)) (k_data k) in do! eachM restore_config (ch1 ++ C :: ch2) in
      match old with Some old => if existsb (fun x => negb (has_path (k_files k) x)) old then throw EType else ret tt | None => ret tt end) (fun _ => PD)).
    apply (t_bind J PB _ (fun _ => PC)); [apply unpack_all|]. intros _. apply (t_bind J PC _ (fun _ => PD)); [now apply restore_all|]. intros _.
    destruct old as [old|]; [destruct (existsb _ _); [apply t_throw, PD_J|]|]; apply t_ret; intros f K; (split; [now apply PD_J|exact K]).
  Qed.
End keep.

(** ** install_package *)
Section install.
  Context (h : host) (o : opts).
  Lemma t_still {A} (J P : fs -> Prop) (m : M A) : (forall f, P f -> J f) -> (forall w, w_fs (m w).1 = w_fs w) ->
    (forall w, exists new, w_past (m w).1 = (new ++ w_past w)%list /\ Forall (fun c => c.2 = w_fs w) new) -> triple J P m (fun _ => P).
  Proof.
    intros HJ H1 H2 w Hw. split; [|intros a _; now rewrite H1]. split; [rewrite H1; auto|]. destruct (H2 w) as (new & E & F). exists new. split; [exact E|].
    eapply Forall_impl; [exact F|]. intros c Hc. cbv beta in Hc. rewrite Hc. auto.
  Qed.
  Definition still {A} (m : M A) : Prop := forall w, w_fs (m w).1 = w_fs w /\ exists new, w_past (m w).1 = (new ++ w_past w)%list /\ Forall (fun c => c.2 = w_fs w) new.
  Lemma still_t {A} (J P : fs -> Prop) (m : M A) : (forall f, P f -> J f) -> still m -> triple J P m (fun _ => P).
  Proof. intros HJ H. apply t_still; [exact HJ|intros w; apply H|intros w; apply H]. Qed.
  Lemma s_same {A} (m : M A) : (forall w, w_fs (m w).1 = w_fs w /\ w_past (m w).1 = w_past w) -> still m.
  Proof. intros H w. destruct (H w) as [H1 H2]. split; [exact H1|]. exists []. split; [exact H2|constructor]. Qed.
  Lemma s_bind {A B} (m : M A) (g : A -> M B) : still m -> (forall a, still (g a)) -> still (bindM m g).
  Proof.
    intros H K w. unfold bindM. destruct (H w) as [H1 (n & E & F)]. destruct (m w) as [w1 [a|e]]; cbn [fst] in *; [|eauto].
    destruct (K a w1) as [K1 (n' & E' & F')]. split; [congruence|]. exists (n' ++ n)%list. rewrite E', E, app_assoc. split; [reflexivity|]. apply Forall_app. split; [|exact F]. rewrite H1 in F'. exact F'.
  Qed.
  Lemma s_ret {A} (a : A) : still (ret a). Proof. now apply s_same. Qed.
  Lemma s_throw {A} e : still (@throw A e). Proof. now apply s_same. Qed.
  Lemma s_look {A} (g : sys -> res A) : still (look g). Proof. apply s_same. intros w. unfold look. now destruct (g (w_sys w)). Qed.
  Lemma s_lift {A} (r : res A) : still (lift r). Proof. apply s_same. intros w. now unfold lift. Qed.
  Lemma s_look_fs {A} (g : fs -> A) : still (look_fs g). Proof. now apply s_same. Qed.
  Lemma s_commit g : still (commit g).
  Proof. intros w. unfold commit. destruct (g (w_sys w)); cbn [fst w_fs w_past]; split; try reflexivity; [exists [(w_sys w, w_fs w)]|exists []]; split; try reflexivity; repeat constructor. Qed.
  Lemma s_note e : still (note e). Proof. now apply s_same. Qed.
  Lemma s_hook e n : still (hook h e n). Proof. apply s_same. intros w. unfold hook. now destruct (h_hook h (w_log w) n). Qed.
  Lemma s_confirm q : still (confirm h q). Proof. now apply s_same. Qed.
  Ltac st := repeat first
    [ apply s_bind; [|intros ?] | apply s_ret | apply s_throw | apply s_look | apply s_lift | apply s_look_fs | apply s_commit | apply s_note | apply s_hook | apply s_confirm
    | match goal with |- still (if ?b then _ else _) => destruct b | |- still (match ?x with _ => _ end) => destruct x end ].
  Lemma s_relations k i : still (check_relations h o k i). Proof. unfold check_relations. cbv zeta. st. Qed.
  Lemma s_reinstall k a : still (check_reinstall h o k a). Proof. unfold check_reinstall, run_preremove. cbv zeta. st. Qed.
  Lemma s_store k old : still (store_pisi_files k old). Proof. unfold store_pisi_files. cbv zeta. st. Qed.

  Lemma noted_inst s p s' : noted s p s' -> y_inst s' = y_inst s /\ y_lists s' = y_lists s.
  Proof. intros [[_ ->]|(_ & d & _ & ->)]; auto. Qed.
  Lemma install_keeps k i a c packaged mine w : destination (o_dest o) -> in_order k -> brings_config (o_dest o) (w_fs w) k c packaged mine ->
    user_changed (h_sha1 h) (w_sys w) k c mine ->
    all_along (J o c mine) w (install_package h o k i a w).1 /\
    ((install_package h o k i a w).2 = Ok tt -> PD o c mine packaged (w_fs (install_package h o k i a w).1)).
  Proof.
    intros D Ok_ ((fi & F1 & F2 & F3) & Hd & Hm) U.
    assert (Rc : relative_path c /\ ~ side_name c) by (rewrite <- F2; apply Ok_, F1). destruct Rc as [Rc Sc].
    assert (HA : forall f, PA o c mine f -> J o c mine f) by (intros f; apply PA_J). assert (HD : forall f, PD o c mine packaged f -> J o c mine f) by (intros f; apply PD_J).
    remember (install_package h o k i a w) as r eqn:R. unfold install_package in R. cbv zeta in R. unfold bindM at 1 in R.
    destruct (still_t (J o c mine) (PA o c mine) _ HA (s_relations k i) w Hm) as [T1 T1']. destruct (check_relations h o k i w) as [w1 [u1|e]] eqn:E1; cbn [fst snd] in *; [|subst r; split; [exact T1|discriminate]].
    specialize (T1' u1 eq_refl). apply check_relations_ok in E1 as (N & _). apply noted_inst in N as [N1 N2].
    unfold bindM at 1 in R. destruct (still_t (J o c mine) (PA o c mine) _ HA (s_reinstall k a) w1 T1') as [T2 T2'].
    destruct (check_reinstall h o k a w1) as [w2 [old|e]] eqn:E2; cbn [fst snd] in *; [|subst r; split; [exact (along_trans _ _ _ _ T1 T2)|discriminate]].
    specialize (T2' old eq_refl). apply check_reinstall_ok in E2 as (_ & _ & O).
    assert (Tr : triple (J o c mine) (PA o c mine) (do! extract_install h o k (option_map fst old) in
      do! store_pisi_files k old in
      do! (if o_comar o then hook h (EvPostInstall (p_name (k_pkg k))) (p_name (k_pkg k)) else ret tt) in
      do! commit (fun s => update_databases s (k_pkg k) (k_files k) (negb (o_comar o)) (option_map fst old)) in
      note (EvInstalled (p_name (k_pkg k)))) (fun _ => PD o c mine packaged)).
    { apply (t_bind _ _ _ (fun _ => PD o c mine packaged)); [apply (extract_keeps h o D c mine packaged Rc Sc k Ok_ Hd); [|exists fi; auto]|].
      - destruct U as [U1 U2]. destruct old as [[fl info]|]; cbn [option_map fst].
        + destruct O as (O1 & O2 & O3 & _). rewrite N1 in O1, O2. rewrite N2 in O3. destruct (U1 O1) as (old & fo & L & Nd & K). split; [|exists fo; split].
          * unfold list_of in L. rewrite O2 in L. cbn [bind] in L. rewrite O3 in L. injection L as ->. exact Nd.
          * unfold list_of in L. rewrite O2 in L. cbn [bind] in L. rewrite O3 in L. injection L as ->. apply K.
          * apply K.
        + rewrite N1 in O. exact (U2 O).
      - intros _. apply (t_bind _ _ _ (fun _ => PD o c mine packaged)); [apply still_t; [exact HD|apply s_store]|]. intros _.
        apply still_t; [exact HD|]. apply s_bind; [destruct (o_comar o); [apply s_hook|apply s_ret]|]. intros _. apply s_bind; [apply s_commit|]. intros _. apply s_note. }
    destruct (Tr w2 T2') as [T3 T3']. rewrite R. split; [exact (along_trans _ _ _ _ T1 (along_trans _ _ _ _ T2 T3))|]. intros E. exact (T3' tt E).
  Qed.
  (** at every moment *)
  Lemma install_never_loses k i a c packaged mine w : destination (o_dest o) -> in_order k -> brings_config (o_dest o) (w_fs w) k c packaged mine ->
    user_changed (h_sha1 h) (w_sys w) k c mine ->
    forall s f, (w_sys (install_package h o k i a w).1, w_fs (install_package h o k i a w).1) = (s, f) \/ crash_point w (install_package h o k i a w).1 (s, f) ->
    f !! located (o_dest o) c = Some (NFile mine) \/ f !! (located (o_dest o) (c +:+ ".old")) = Some (NFile mine).
  Proof.
    intros D Ok_ B U s f H. rewrite located_app. destruct (install_keeps k i a c packaged mine w D Ok_ B U) as [[K (new & E & F)] _]. destruct H as [[= _ <-]|(new' & E' & H)]; [exact K|].
    rewrite E in E'. apply app_inv_tail in E'. subst new'. rewrite Forall_forall in F. apply (F (s, f)). now apply elem_of_list_In.
  Qed.
  Lemma never_lost k i ask w w' r c packaged mine : destination (o_dest o) -> in_order k ->
    brings_config (o_dest o) (w_fs w) k c packaged mine -> user_changed (h_sha1 h) (w_sys w) k c mine ->
    install_package h o k i ask w = (w', r) ->
    forall s f, (s, f) = (w_sys w', w_fs w') \/ crash_point w w' (s, f) ->
    f !! located (o_dest o) c = Some (NFile mine) \/ f !! located (o_dest o) (c +:+ ".old") = Some (NFile mine).
  Proof.
    intros D Ok_ B U E s f H. apply (install_never_loses k i ask c packaged mine w D Ok_ B U s f). rewrite E. cbn [fst]. destruct H as [H|H]; [left; now rewrite H|now right].
  Qed.
  Lemma kept_content k i ask w w' c packaged mine : destination (o_dest o) -> in_order k ->
    brings_config (o_dest o) (w_fs w) k c packaged mine -> user_changed (h_sha1 h) (w_sys w) k c mine ->
    install_package h o k i ask w = (w', Ok tt) ->
    w_fs w' !! located (o_dest o) c = Some (NFile mine) /\ w_fs w' !! located (o_dest o) (c +:+ ".newconfig") = Some (NFile packaged).
  Proof.
    intros D Ok_ B U E. rewrite located_app. destruct (install_keeps k i ask c packaged mine w D Ok_ B U) as [_ K]. rewrite E in K. exact (K eq_refl).
  Qed.
End install.

(** ** Deciding [in_order], for the samples *)
Fixpoint last_char (s : string) : ascii := match s with "" => "/"%char | String a "" => a | String _ r => last_char r end.
Lemma last_char_app s t : t <> "" -> last_char (s +:+ t) = last_char t.
Proof.
  intros N. induction s as [|a s IH]; [reflexivity|]. change (String a s +:+ t) with (String a (s +:+ t)). destruct (s +:+ t) eqn:E; [|exact IH]. destruct s; [now simpl in E|discriminate E].
Qed.
Definition plain_name (p : string) : bool := negb (Ascii.eqb (last_char p) "d"%char) && negb (Ascii.eqb (last_char p) "g"%char).
Lemma plain_name_ok p : plain_name p = true -> ~ side_name p.
Proof. intros H (q & [->| ->]); unfold plain_name in H; rewrite last_char_app in H by discriminate; discriminate H. Qed.
Lemma prefix_app a r : String.prefix a (a +:+ r) = true.
Proof. induction a as [|x a IH]; [now destruct r|]. change (String x a +:+ r) with (String x (a +:+ r)). simpl. destruct (ascii_dec x x); [exact IH|congruence]. Qed.
Definition is_dir_entry (e : entry) : bool := match e with ADir => true | _ => false end.
Definition order_check (k : pkgfile) : bool :=
  bool_decide (NoDup (map f_path (k_files k))) && bool_decide (NoDup (map fst (k_data k))) &&
  forallb (fun fi => rel_check (f_path fi) && plain_name (f_path fi)) (k_files k) &&
  forallb (fun pe => rel_check pe.1 && plain_name pe.1) (k_data k) &&
  forallb (fun pe => forallb (fun qe => is_dir_entry pe.2 || negb (String.prefix (pe.1 +:+ "/") qe.1)) (k_data k)) (k_data k).
Lemma order_check_ok k : order_check k = true -> in_order k.
Proof.
  intros H. unfold order_check in H. apply andb_prop in H as [H H5]. apply andb_prop in H as [H H4]. apply andb_prop in H as [H H3]. apply andb_prop in H as [H1 H2].
  apply bool_decide_eq_true in H1, H2. rewrite forallb_forall in H3, H4, H5. split; [exact H1|]. split; [exact H2|]. split; [|split].
  - intros fi Hf. apply H3 in Hf. apply andb_prop in Hf as [K1 K2]. split; [now apply rel_check_ok|now apply plain_name_ok].
  - intros p e Hp. apply H4 in Hp. apply andb_prop in Hp as [K1 K2]. split; [now apply rel_check_ok|now apply plain_name_ok].
  - intros p e p' e' Hp Hp' (r & ->). specialize (H5 _ Hp). rewrite forallb_forall in H5. specialize (H5 _ Hp'). cbn [fst snd] in H5. apply orb_prop in H5 as [H5|H5]; [now destruct e|].
    rewrite <- (str_app_assoc p "/" r), prefix_app in H5. discriminate H5.
Qed.
