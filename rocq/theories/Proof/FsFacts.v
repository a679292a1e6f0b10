From Coq Require Import String Ascii List ZArith Lia.
From stdpp Require Import gmap strings.
From Verif Require Import Model.Py Model.InstallDB Model.Path Model.Fs Spec.PathSpec Spec.FsSpec
  Proof.PyFacts Proof.PathFacts Proof.DatabaseFacts.
Open Scope string_scope.

(** ** Paths *)
Lemma rel_split_last r : relative_path r -> free_of "/" r \/ exists d n, relative_path d /\ n <> "" /\ free_of "/" n /\ r = d +:+ "/" +:+ n.
Proof.
  induction 1 as [n N F|n p N F H IH]; [now left|]. right. destruct IH as [IH|(d & m & D & Nm & Fm & ->)].
  - exists n, p. split; [now constructor|]. split; [now apply rel_nonempty|]. split; [assumption|reflexivity].
  - exists (n +:+ "/" +:+ d), m. split; [now apply rel_under|]. split; [assumption|]. split; [assumption|].
    now rewrite <- !str_app_assoc.
Qed.

Lemma absolute_dirname p : absolute p -> (dirname p = "/" \/ absolute (dirname p)) /\ String.length (dirname p) < String.length p.
Proof.
  intros (r & R & ->). destruct (rel_split_last r R) as [F|(d & n & D & N & F & ->)].
  - rewrite dirname_top by assumption. split; [now left|]. apply rel_nonempty in R. destruct r; [congruence|]. simpl. lia.
  - change ("/" +:+ d +:+ "/" +:+ n) with (("/" +:+ d) +:+ "/" +:+ n). rewrite dirname_under.
    + split; [right; now exists d|]. rewrite (str_app_length ("/" +:+ d)). simpl. lia.
    + discriminate.
    + intros E. apply (ends_slash_app "/" d) in E; [now apply rel_no_end in E|now apply rel_nonempty].
    + assumption.
Qed.
Lemma absolute_root p : absolute p -> p <> "/".
Proof. intros (r & R & ->) H. apply rel_nonempty in R. injection H as ->. congruence. Qed.
Lemma absolute_under d n : d = "/" \/ absolute d -> n <> "" -> free_of "/" n -> absolute (located d n) /\ dirname (located d n) = d.
Proof.
  intros H N F. unfold located. destruct (String.eqb_spec d "/") as [->|Ne].
  - split; [exists n; split; [now constructor|reflexivity]|]. now apply dirname_top.
  - destruct H as [|(r & R & ->)]; [congruence|]. split.
    + exists (r +:+ "/" +:+ n). split; [|reflexivity].
      clear Ne. induction R as [m M FM|m q M FM R IH].
      * apply rel_under; [assumption|assumption|now constructor].
      * rewrite !str_app_assoc. now apply rel_under.
    + apply dirname_under; [discriminate| |assumption].
      intros E. apply (ends_slash_app "/" r) in E; [now apply rel_no_end in E|now apply rel_nonempty].
Qed.
Lemma rel_app a b : relative_path a -> relative_path b -> relative_path (a +:+ "/" +:+ b).
Proof.
  intros R B. induction R as [m M FM|m q M FM R IH]; [now apply rel_under|].
  rewrite !str_app_assoc. now apply rel_under.
Qed.
Lemma join_located dest path : destination dest -> relative_path path -> join_path dest [path] = located dest path.
Proof.
  intros D R. unfold join_path, join_path2, located. cbn [fold_left]. rewrite rel_lstrip by assumption.
  destruct (String.eqb_spec dest "/") as [->|Ne]; [reflexivity|].
  destruct D as [|(r & Rr & ->)]; [congruence|].
  replace (py_endswith ("/" +:+ r) "/") with false; [reflexivity|]. symmetry.
  destruct (py_endswith ("/" +:+ r) "/") eqn:E; [|reflexivity]. apply endswith_iff in E.
  apply (ends_slash_app "/" r) in E; [now apply rel_no_end in E|now apply rel_nonempty].
Qed.
Lemma located_absolute dest path : destination dest -> relative_path path -> absolute (located dest path).
Proof.
  intros D R. unfold located. destruct (String.eqb_spec dest "/") as [->|Ne]; [now exists path|].
  destruct D as [|(r & Rr & ->)]; [congruence|]. exists (r +:+ "/" +:+ path). split; [now apply rel_app|reflexivity].
Qed.

(** ** Nodes *)
Lemma node_at_map f p : p <> "/" -> node_at f p = f !! p.
Proof. intros H. unfold node_at. destruct (String.eqb_spec p "/"); [congruence|reflexivity]. Qed.
Lemma node_at_root f : node_at f "/" = Some NDir. Proof. reflexivity. Qed.

Lemma children_iff f d q : In q (children f d) <-> inside f d q.
Proof.
  unfold children, inside. rewrite List.filter_In, in_map_iff, String.eqb_eq. split.
  - intros [([k n] & E & H) D]. simpl in E. subst k. split; [|assumption]. apply elem_of_list_In, elem_of_map_to_list in H. now exists n.
  - intros [[n H] D]. split; [|assumption]. exists (q, n). split; [reflexivity|]. now apply elem_of_list_In, elem_of_map_to_list.
Qed.
Lemma children_nil f d : children f d = [] <-> forall q, ~ inside f d q.
Proof.
  split.
  - intros H q K. apply children_iff in K. now rewrite H in K.
  - intros H. destruct (children f d) as [|q l] eqn:E; [reflexivity|]. exfalso. apply (H q). apply children_iff. rewrite E. now left.
Qed.

Lemma unlink_ok f p f' : unlink f p = Ok f' <-> (exists n, node_at f p = Some n /\ n <> NDir) /\ f' = delete p f.
Proof.
  unfold unlink. destruct (node_at f p) as [[c| |t|]|]; split; try discriminate.
  all: try (intros H; injection H as <-; split; [eexists; split; [reflexivity|discriminate]|reflexivity]).
  all: try (intros [(n & E & K) ->]; try congruence; reflexivity).
Qed.
Lemma rmdir_ok f p f' : rmdir f p = Ok f' <-> p <> "/" /\ empty_dir f p /\ f' = delete p f.
Proof.
  unfold rmdir, empty_dir. destruct (String.eqb_spec p "/") as [->|Ne].
  - split; [|intros [H _]; congruence]. destruct (node_at f "/") as [[]|]; try discriminate. destruct (children f "/"); discriminate.
  - rewrite (node_at_map f p Ne). pose proof (children_nil f p) as C. destruct (f !! p) as [[c| |t|]|].
    2:{ destruct (children f p) as [|q l].
        - split; [intros H; injection H as <-; repeat split; [assumption|now apply C]|intros (_ & _ & ->); reflexivity].
        - split; [discriminate|]. intros (_ & (_ & H) & _). apply C in H. discriminate. }
    all: split; [discriminate|intros (_ & (H & _) & _); discriminate].
Qed.

(** ** Keeping a tree a tree *)
Lemma tree_delete f p : tree f -> (forall q, ~ inside f p q) -> tree (delete p f).
Proof.
  intros T E q n H. apply lookup_delete_Some in H as [Ne H]. destruct (T q n H) as [A D]. split; [assumption|].
  unfold node_at in *. destruct (String.eqb_spec (dirname q) "/"); [reflexivity|].
  rewrite lookup_delete_ne; [assumption|]. intros ->. apply (E q). split; [now exists n|reflexivity].
Qed.
Lemma file_no_inside f p n : tree f -> node_at f p = Some n -> n <> NDir -> forall q, ~ inside f p q.
Proof. intros T H N q [[m K] D]. destruct (T q m K) as [_ X]. rewrite D in X. congruence. Qed.
Lemma tree_unlink f p f' : tree f -> unlink f p = Ok f' -> tree f'.
Proof. intros T H. apply unlink_ok in H as [(n & E & N) ->]. apply tree_delete; [assumption|]. eapply file_no_inside; eauto. Qed.
Lemma tree_rmdir f p f' : tree f -> rmdir f p = Ok f' -> tree f'.
Proof. intros T H. apply rmdir_ok in H as (_ & [_ E] & ->). now apply tree_delete. Qed.

(** ** prune *)
Lemma shrunk_sub f f' P q n : shrunk f f' P -> f' !! q = Some n -> f !! q = Some n.
Proof. intros S H. destruct (S q) as [E|[E _]]; congruence. Qed.
Lemma shrunk_refl f P : shrunk f f P. Proof. intros q. now left. Qed.
Lemma shrunk_trans f g h (P Q R : string -> Prop) : shrunk f g P -> shrunk g h Q -> (forall q, P q -> R q) -> (forall q, Q q -> R q) -> shrunk f h R.
Proof.
  intros A B HP HQ q. destruct (B q) as [E|[E [K|[K C]]]].
  - rewrite E. destruct (A q) as [E'|[E' [K|[K C]]]]; [now left|right; rewrite E'; auto|].
    right. split; [assumption|]. right. split; [assumption|]. intros c [[n X] D]. apply (C c). split; [|assumption].
    exists n. eapply shrunk_sub; eauto.
  - right. auto.
  - right. split; [assumption|]. right. split; [|assumption]. eapply shrunk_sub; eauto.
Qed.
Lemma shrunk_weak f g (P R : string -> Prop) : shrunk f g P -> (forall q, P q -> R q) -> shrunk f g R.
Proof. intros A H q. destruct (A q) as [?|[? [?|?]]]; auto. Qed.

Lemma rmdir_shrunk f p f' : rmdir f p = Ok f' -> shrunk f f' (fun _ => False).
Proof.
  intros H. apply rmdir_ok in H as (_ & [D E] & ->). intros q. destruct (decide (q = p)) as [->|Ne].
  - right. split; [apply lookup_delete|]. right. split; [assumption|]. intros c [[n K] X]. apply lookup_delete_Some in K as [_ K].
    apply (E c). split; [now exists n|assumption].
  - left. (apply lookup_delete_ne; congruence).
Qed.

Lemma prune_shrunk n f d f' : prune n f d = Ok f' -> shrunk f f' (fun _ => False) /\ (tree f -> tree f').
Proof.
  revert f d. induction n as [|n IH]; intros f d H; cbn [prune] in H; destruct (String.eqb d "/"); try (injection H as <-); try (split; [apply shrunk_refl|auto]); try discriminate.
  apply bind_ok in H as (l & _ & H). destruct l as [|q l].
  - apply bind_ok in H as (f1 & R & H). destruct (IH _ _ H) as [S T]. split.
    + eapply shrunk_trans; [eapply rmdir_shrunk; eassumption|exact S|auto|auto].
    + intros Tf. apply T. eapply tree_rmdir; eauto.
  - injection H as <-. split; [apply shrunk_refl|auto].
Qed.

Lemma prune_total n f d : tree f -> (d = "/" \/ absolute d) -> node_at f d = Some NDir -> String.length d <= n ->
  exists f', prune n f d = Ok f'.
Proof.
  revert f d. induction n as [|n IH]; intros f d T D N L.
  - destruct D as [->|D]; [now exists f|]. exfalso. destruct D as (r & _ & ->). simpl in L. lia.
  - cbn [prune]. destruct (String.eqb_spec d "/") as [->|Ne]; [now exists f|]. destruct D as [|D]; [congruence|].
    unfold listdir. rewrite N. cbn [bind]. destruct (children f d) as [|q l] eqn:C; [|now exists f].
    rewrite node_at_map in N by assumption.
    assert (R : rmdir f d = Ok (delete d f)) by (apply rmdir_ok; repeat split; [assumption|assumption|now apply children_nil]).
    rewrite R. cbn [bind]. destruct (absolute_dirname d D) as [A S]. apply IH.
    + eapply tree_rmdir; eauto.
    + assumption.
    + destruct (T d NDir N) as [_ X]. unfold node_at in *. destruct (String.eqb_spec (dirname d) "/"); [reflexivity|].
      rewrite lookup_delete_ne; [assumption|]. intros E. rewrite <- E in S. lia.
    + lia.
Qed.

(** ** remove_file *)
Lemma truthy_iff fi : truthy (f_permanent fi) = true <-> marked_permanent fi.
Proof.
  unfold marked_permanent. destruct (f_permanent fi) as [[|a s]|]; simpl.
  - split; [discriminate|]. intros (x & E & N). congruence.
  - split; [|reflexivity]. intros _. eexists. split; [reflexivity|discriminate].
  - split; [discriminate|]. intros (x & E & _). discriminate.
Qed.
Lemma other_iff owners p pkg :
  match get_file owners p with Some (q, _) => negb (String.eqb q pkg) | None => false end = true <-> owned_by_other owners p pkg.
Proof.
  unfold get_file, owned_by_other. destruct (owners !! p) as [[q fi]|].
  - rewrite negb_true_iff, String.eqb_neq. split.
    + intros H. now exists q, fi.
    + intros (q' & fi' & E & N). congruence.
  - split; [discriminate|]. intros (q' & fi' & E & _). discriminate.
Qed.
Lemma isfile_iff f p : isfile f p = true <-> exists c, reads f p c.
Proof. unfold isfile, reads. destruct (stat f p) as [[c| | |]|]; split; try discriminate; try (intros [? ?]; congruence); eauto. Qed.
Lemma islink_iff f p : p <> "/" -> islink f p = true <-> exists t, f !! p = Some (NLink t).
Proof.
  intros N. unfold islink. rewrite node_at_map by assumption. destruct (f !! p) as [[| |t|]|]; split; try discriminate; try (intros [? ?]; congruence); eauto.
Qed.
Lemma stat_dir f p : stat f p = Some NDir -> (forall t, node_at f p <> Some (NLink t)) -> node_at f p = Some NDir.
Proof. unfold stat. cbn [follow]. destruct (node_at f p) as [[| |t|]|]; try discriminate; try congruence. Qed.
Lemma stat_file_node f p c : stat f p = Some (NFile c) -> node_at f p = Some (NFile c) \/ exists t, node_at f p = Some (NLink t).
Proof. unfold stat. cbn [follow]. destruct (node_at f p) as [[| |t|]|]; try discriminate; eauto. Qed.

Section remove.
  Context (sha1 : string -> string) (dest : string) (owners : filesdb) (pkg : string).

  Local Notation deletes := (deletes sha1 dest owners pkg).

  Lemma kept fi f : tree f -> ~ deletes f fi ->
    exists f', Ok f = Ok f' /\ tree f' /\
      shrunk f f' (fun q => q = located dest (f_path fi)) /\
      (deletes f fi -> f' !! located dest (f_path fi) = None) /\
      (~ deletes f fi -> f' = f).
  Proof.
    intros T N. exists f. split; [reflexivity|]. split; [assumption|]. split; [apply shrunk_refl|]. split; [|reflexivity].
    intros X. contradiction.
  Qed.

  Lemma remove_file_ok fi f : destination dest -> relative_path (f_path fi) -> tree f ->
    exists f', remove_file sha1 dest owners pkg fi f = Ok f' /\ tree f' /\
      shrunk f f' (fun q => q = located dest (f_path fi)) /\
      (deletes f fi -> f' !! located dest (f_path fi) = None) /\
      (~ deletes f fi -> f' = f).
  Proof.
    intros D R T. unfold remove_file. rewrite join_located by assumption. set (p := located dest (f_path fi)).
    assert (A : absolute p) by now apply located_absolute. pose proof (absolute_root p A) as Np.
    pose proof (other_iff owners p pkg) as O. destruct (match get_file owners p with Some (q, _) => _ | None => _ end) eqn:EO.
    { apply kept; [assumption|]. intros [X _]. exfalso. apply X. now apply O. }
    assert (NO : ~ owned_by_other owners p pkg) by (intros X; apply O in X; discriminate).
    pose proof (truthy_iff fi) as P. destruct (truthy (f_permanent fi)) eqn:EP.
    { apply kept; [assumption|]. intros (_ & X & _). exfalso. apply X. now apply P. }
    assert (NP : ~ marked_permanent fi) by (intros X; apply P in X; discriminate).
    destruct (String.eqb_spec (f_type fi) "config") as [C|C].
    - unfold sha1_file. destruct (stat f p) as [[c| | |]|] eqn:ES.
      2-5: (apply kept; [assumption|]; intros (_ & _ & [(_ & c' & X & _)|[X _]]); [unfold reads in X; fold p in X; congruence|contradiction]).
      destruct (bool_decide (Some (sha1 c) = f_hash fi)) eqn:EH.
      + apply bool_decide_eq_true in EH.
        assert (U : unlink f p = Ok (delete p f)).
        { apply unlink_ok. split; [|reflexivity]. destruct (stat_file_node f p c ES) as [X|[t X]]; eexists; (split; [exact X|discriminate]). }
        exists (delete p f). split; [exact U|]. split; [eapply tree_unlink; eauto|]. split.
        * intros q. destruct (decide (q = p)) as [->|]; [right; split; [apply lookup_delete|now left]|left; (apply lookup_delete_ne; congruence)].
        * split; [intros _; apply lookup_delete|]. intros X. exfalso. apply X. split; [assumption|]. split; [assumption|]. left. split; [assumption|].
          exists c. split; [exact ES|now rewrite EH].
      + apply bool_decide_eq_false in EH. apply kept; [assumption|].
        intros (_ & _ & [(_ & c' & X & Y)|[X _]]); [|contradiction]. unfold reads in X. fold p in X. rewrite ES in X. injection X as <-. congruence.
    - assert (FL : (isfile f p || islink f p)%bool = true <-> file_or_link f p).
      { rewrite orb_true_iff, isfile_iff, islink_iff by assumption. reflexivity. }
      destruct (isfile f p || islink f p)%bool eqn:EF.
      + assert (U : unlink f p = Ok (delete p f)).
        { apply unlink_ok. split; [|reflexivity]. destruct (proj1 FL eq_refl) as [[c X]|[t X]].
          - destruct (stat_file_node f p c X) as [Y|[t Y]]; eexists; (split; [exact Y|discriminate]).
          - eexists. split; [rewrite node_at_map by assumption; exact X|discriminate]. }
        rewrite U. cbn [bind]. assert (T1 : tree (delete p f)) by (eapply tree_unlink; eauto).
        destruct (absolute_dirname p A) as [AD L].
        assert (ND : node_at (delete p f) (dirname p) = Some NDir).
        { assert (X : exists n, f !! p = Some n).
          { apply unlink_ok in U as [(n & X & _) _]. rewrite node_at_map in X by assumption. eauto. }
          destruct X as [n X]. destruct (T p n X) as [_ Y]. unfold node_at in *. destruct (String.eqb (dirname p) "/"); [reflexivity|].
          rewrite lookup_delete_ne; [assumption|]. intros E. rewrite <- E in L. lia. }
        destruct (prune_total (String.length p) (delete p f) (dirname p)) as [f' F']; try assumption; [lia|].
        exists f'. split; [exact F'|]. destruct (prune_shrunk _ _ _ _ F') as [S TT]. split; [now apply TT|].
        assert (S' : shrunk f f' (fun q => q = p)).
        { eapply shrunk_trans; [|exact S| |].
          - instantiate (1 := fun q => q = p). intros q. destruct (decide (q = p)) as [->|]; [right; split; [apply lookup_delete|now left]|left; (apply lookup_delete_ne; congruence)].
          - auto.
          - intros q []. }
        split; [exact S'|]. split.
        * intros _. destruct (S p) as [E|[E _]]; [|assumption]. rewrite E. apply lookup_delete.
        * intros X. exfalso. apply X. split; [assumption|]. split; [assumption|]. right. split; [assumption|]. left. now apply FL.
      + assert (NFL : ~ file_or_link f p) by (intros X; apply FL in X; discriminate).
        assert (NL : forall t, node_at f p <> Some (NLink t)).
        { intros t X. apply NFL. right. rewrite node_at_map in X by assumption. eauto. }
        destruct (isdir f p) eqn:ED.
        * unfold isdir in ED. destruct (stat f p) as [[| | |]|] eqn:ES; try discriminate. pose proof (stat_dir f p ES NL) as N.
          unfold listdir. rewrite N. cbn [bind]. rewrite node_at_map in N by assumption. destruct (children f p) as [|q l] eqn:EC.
          -- assert (RM : rmdir f p = Ok (delete p f)) by (apply rmdir_ok; repeat split; [assumption|assumption|now apply children_nil]).
             rewrite RM. cbn [bind]. destruct (absolute_dirname p A) as [AD L].
             assert (ND : node_at (delete p f) (dirname p) = Some NDir).
             { destruct (T p NDir N) as [_ Y]. unfold node_at in *. destruct (String.eqb (dirname p) "/"); [reflexivity|].
               rewrite lookup_delete_ne; [assumption|]. intros E. rewrite <- E in L. lia. }
             assert (T1 : tree (delete p f)) by (eapply tree_rmdir; eauto).
             destruct (prune_total (String.length p) (delete p f) (dirname p)) as [f' F']; try assumption; [lia|].
             exists f'. split; [exact F'|]. destruct (prune_shrunk _ _ _ _ F') as [S TT]. split; [now apply TT|]. split.
             ++ eapply shrunk_trans; [|exact S| |].
                ** instantiate (1 := fun q => q = p). intros q. destruct (decide (q = p)) as [->|]; [right; split; [apply lookup_delete|now left]|left; (apply lookup_delete_ne; congruence)].
                ** auto.
                ** intros q [].
             ++ split.
                ** intros _. destruct (S p) as [E|[E _]]; [|assumption]. rewrite E. apply lookup_delete.
                ** intros X. exfalso. apply X. split; [assumption|]. split; [assumption|]. right. split; [assumption|]. right.
                   split; [assumption|]. now apply children_nil.
          -- apply kept; [assumption|]. intros (_ & _ & [[X _]|[_ [X|[_ X]]]]); [contradiction|contradiction|].
             exfalso. apply (X q). apply children_iff. fold p. rewrite EC. now left.
        * apply kept; [assumption|]. intros (_ & _ & [[X _]|[_ [X|[X _]]]]); [contradiction|contradiction|].
          exfalso. unfold isdir, stat in ED. cbn [follow] in ED. rewrite node_at_map in ED by assumption. fold p in X. rewrite X in ED. discriminate.
  Qed.

  (** ** All the files of a package *)
  Notation may_go := (may_go dest owners pkg).
  Lemma reads_direct f q c c' : q <> "/" -> f !! q = Some (NFile c) -> (reads f q c' <-> c' = c).
  Proof. intros N E. unfold reads, stat. cbn [follow]. rewrite node_at_map by assumption. rewrite E. split; [intros [= ->]; reflexivity|intros ->; reflexivity]. Qed.
  Lemma remove_files_policy files : forall f, destination dest -> (forall fi, In fi files -> relative_path (f_path fi)) -> tree f ->
    exists f', foldM (fun f fi => remove_file sha1 dest owners pkg fi f) files f = Ok f' /\ tree f' /\
      shrunk f f' (fun q => exists fi, In fi files /\ may_go fi q) /\
      (forall q c, f !! q = Some (NFile c) -> (f' !! q = None <-> exists fi, In fi files /\ may_go fi q /\ (is_config fi -> f_hash fi = Some (sha1 c)))) /\
      (forall q t, f !! q = Some (NLink t) -> (exists fi, In fi files /\ may_go fi q /\ ~ is_config fi) -> f' !! q = None).
  Proof.
    induction files as [|fi files IH]; intros f D R T.
    { exists f. split; [reflexivity|]. split; [exact T|]. split; [apply shrunk_refl|]. split; [intros q c E; split; [congruence|intros (fi & [] & _)]|intros q t _ (fi & [] & _)]. }
    destruct (remove_file_ok fi f D (R fi (or_introl eq_refl)) T) as (f1 & E1 & T1 & S1 & D1 & N1).
    destruct (IH f1 D (fun x Hx => R x (or_intror Hx)) T1) as (f' & E2 & T2 & S2 & P2 & L2).
    exists f'. split; [cbn [foldM]; rewrite E1; exact E2|]. split; [exact T2|].
    assert (A : absolute (located dest (f_path fi))) by (apply located_absolute; [exact D|apply R; now left]).
    pose proof (absolute_root _ A) as NR.
    assert (S1' : shrunk f f1 (fun q => may_go fi q)).
    { intros q. destruct (S1 q) as [E|[E [->|K]]]; [now left| |right; auto].
      destruct (f !! located dest (f_path fi)) eqn:F0; [|left; congruence].
      right. split; [exact E|]. left. split; [reflexivity|].
      assert (DL : ~ ~ deletes f fi) by (intros K; rewrite (N1 K) in E; congruence).
      split; [intros K; apply DL; intros (_ & X & _); auto|intros K; apply DL; intros (X & _); auto]. }
    split; [|split].
    - eapply shrunk_trans; [exact S1'|exact S2| |]; [intros q K; exists fi; split; [now left|exact K]|intros q (x & Hx & K); exists x; split; [now right|exact K]].
    - intros q c F. destruct (S1' q) as [E|[E K]].
      + rewrite F in E. rewrite (P2 q c E). split; [intros (x & Hx & K); exists x; split; [now right|exact K]|].
        intros (x & [<-|Hx] & K & HC); [|eauto]. exfalso. destruct K as (K1 & K2 & K3). subst q.
        assert (X : deletes f fi).
        { split; [exact K3|]. split; [exact K2|]. destruct (string_dec (f_type fi) "config") as [C|C].
          - left. split; [exact C|]. exists c. split; [now apply (reads_direct f _ c c NR F)|auto].
          - right. split; [exact C|]. left. left. exists c. now apply (reads_direct f _ c c NR F). }
        rewrite (D1 X) in E. discriminate.
      + assert (F2 : f' !! q = None) by (destruct (S2 q) as [X|[X _]]; congruence).
        split; [intros _|intros _; exact F2]. destruct K as [K|[K _]]; [|congruence].
        exists fi. split; [now left|]. split; [exact K|]. intros C. destruct K as (K1 & K2 & K3). subst q.
        destruct (option_eq_dec (f_hash fi) (Some (sha1 c))) as [X|X]; [exact X|]. exfalso.
        assert (ND : ~ deletes f fi).
        { intros (_ & _ & [(_ & c' & RD & HH)|[NC _]]); [|contradiction]. apply (reads_direct f _ c c' NR F) in RD. subst c'. contradiction. }
        rewrite (N1 ND) in E. congruence.
    - intros q t F (x & [<-|Hx] & K & NC).
      + destruct K as (-> & K2 & K3). assert (X : deletes f fi) by (split; [exact K3|]; split; [exact K2|]; right; split; [exact NC|]; left; right; eauto).
        pose proof (D1 X) as E. destruct (S2 (located dest (f_path fi))) as [Y|[Y _]]; congruence.
      + destruct (S1' q) as [E|[E _]]; [rewrite F in E; eapply L2; eauto|]. destruct (S2 q) as [Y|[Y _]]; congruence.
  Qed.
End remove.
