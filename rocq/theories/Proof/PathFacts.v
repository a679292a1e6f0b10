From Coq Require Import String Ascii List Bool ZArith Arith Lia.
From Verif Require Import Model.Py Model.Path Spec.PathSpec Proof.PyFacts.
Import ListNotations.
Open Scope string_scope.

(** ** Sequences *)
Section seqs.
  Context {A : Type} (eqb : A -> A -> bool) (eqb_iff : forall x y, eqb x y = true <-> x = y).

  Lemma same_start_iff (a b : list A) : same_start eqb a b = true <-> exists r, b = (a ++ r)%list.
  Proof.
    revert b; induction a as [|x a IH]; intros b; simpl.
    - split; [intros _; now exists b|reflexivity].
    - destruct b as [|y b]; [split; [discriminate|intros [r H]; discriminate]|].
      destruct (eqb x y) eqn:E.
      + apply eqb_iff in E. subst y. rewrite IH. split; intros [r H]; exists r; congruence.
      + split; [discriminate|]. intros [r H]. injection H as -> _. assert (eqb x x = true) by now apply eqb_iff. congruence.
  Qed.

  Lemma prefix_iff (a b : list A) : prefix eqb a b = true <-> exists r, b = (a ++ r)%list.
  Proof.
    unfold prefix. destruct (Nat.ltb_spec (length b) (length a)) as [L|L]; [|apply same_start_iff].
    split; [discriminate|]. intros [r ->]. rewrite app_length in L. lia.
  Qed.

  Lemma suffix_iff (a b : list A) : suffix eqb a b = true <-> exists r, b = (r ++ a)%list.
  Proof.
    unfold suffix. destruct (Nat.ltb_spec (length b) (length a)) as [L|L].
    - split; [discriminate|]. intros [r ->]. rewrite app_length in L. lia.
    - rewrite same_start_iff. split; intros [r H].
      + exists (rev r). rewrite <- (rev_involutive b), H, rev_app_distr, rev_involutive. reflexivity.
      + exists (rev r). now rewrite H, rev_app_distr.
  Qed.

  Lemma remove_prefix_iff (a b r : list A) : remove_prefix eqb a b = Ok r <-> b = (a ++ r)%list.
  Proof.
    unfold remove_prefix. destruct (prefix eqb a b) eqn:P.
    - apply prefix_iff in P as [q ->]. rewrite skipn_app, skipn_all, Nat.sub_diag. simpl. split.
      + intros H; injection H as ->. reflexivity.
      + intros H. apply app_inv_head in H. now subst.
    - split; [discriminate|]. intros ->. assert (prefix eqb a (a ++ r) = true) by (apply prefix_iff; now exists r). congruence.
  Qed.

  Lemma remove_suffix_iff (a b r : list A) : a <> [] -> remove_suffix eqb a b = Ok r <-> b = (r ++ a)%list.
  Proof.
    intros Na. unfold remove_suffix. destruct (suffix eqb a b) eqn:P.
    - apply suffix_iff in P as [q ->]. unfold upto_minus. destruct (length a) as [|n] eqn:La; [destruct a; simpl in *; congruence|].
      rewrite <- La, app_length, Nat.add_sub, firstn_app, firstn_all, Nat.sub_diag. simpl. rewrite app_nil_r. split.
      + intros H; injection H as ->. reflexivity.
      + intros H. apply app_inv_tail in H. now subst.
    - split; [discriminate|]. intros ->. assert (suffix eqb a (r ++ a) = true) by (apply suffix_iff; now exists r). congruence.
  Qed.
  Lemma remove_suffix_nil (b : list A) : remove_suffix eqb [] b = Ok [].
  Proof. unfold remove_suffix. replace (suffix eqb [] b) with true; [reflexivity|]. symmetry. apply suffix_iff. exists b. now rewrite app_nil_r. Qed.

  Lemma same_iff (l : list A) : same eqb l = true <-> forall x y, In x l -> In y l -> x = y.
  Proof.
    unfold same. destruct (rev l) as [|y l'] eqn:R.
    - assert (l = []) as -> by (rewrite <- (rev_involutive l), R; reflexivity). simpl. tauto.
    - rewrite forallb_forall. split.
      + intros H. assert (G : forall x, In x l -> x = y).
        { intros x Hx. apply in_rev in Hx. rewrite R in Hx. destruct Hx as [->|Hx]; [reflexivity|]. apply eqb_iff. now apply H. }
        intros x z Hx Hz. now rewrite (G x Hx), (G z Hz).
      + intros H x Hx. apply eqb_iff. apply H; apply in_rev; rewrite R; [now right|now left].
  Qed.
End seqs.

(** ** splitpath *)

Lemma join_cons sep x l : l <> [] -> py_join sep (x :: l) = x ++ sep ++ py_join sep l.
Proof. destruct l; [congruence|reflexivity]. Qed.
Lemma join_app sep l m : l <> [] -> m <> [] -> py_join sep (l ++ m) = py_join sep l ++ sep ++ py_join sep m.
Proof.
  intros Hl Hm. induction l as [|x l IH]; [congruence|]. destruct l as [|y l].
  - cbn [app]. rewrite join_cons by assumption. reflexivity.
  - cbn [app] in *. rewrite join_cons by discriminate. rewrite IH by discriminate.
    rewrite (join_cons sep x (y :: l)) by discriminate. now rewrite !str_app_assoc.
Qed.

Lemma split_app c a b : py_split c (a ++ String c b) = (py_split c a ++ py_split c b)%list.
Proof.
  rewrite <- (join_split c a) at 1. rewrite <- (join_split c b) at 1.
  change (String c (py_join (String c "") (py_split c b))) with (String c "" ++ py_join (String c "") (py_split c b)).
  rewrite <- join_app by apply split_nonempty. apply split_join.
  - intros H. apply app_eq_nil in H as [H _]. now apply split_nonempty in H.
  - apply Forall_app. split; apply split_pieces_no_sep.
Qed.

Lemma split_inj c a b : py_split c a = py_split c b -> a = b.
Proof. intros H. rewrite <- (join_split c a), H. apply join_split. Qed.

Lemma last_split_app c a b : last (py_split c (a ++ String c b)) "" = last (py_split c b) "".
Proof.
  rewrite split_app. generalize (py_split c a). intros l. pose proof (split_nonempty c b) as N.
  induction l as [|x l IH]; [reflexivity|]. cbn [app]. rewrite <- IH. destruct (l ++ py_split c b)%list eqn:E; [|reflexivity].
  apply app_eq_nil in E as [_ E]. congruence.
Qed.

Lemma last_split_nil a : last (py_split slash a) "" = "" <-> a = "" \/ ends_in_slash a.
Proof.
  destruct (exists_last (split_nonempty slash a)) as (l & x & E). rewrite E, last_last.
  pose proof (join_split slash a) as J. rewrite E in J.
  pose proof (split_pieces_no_sep slash a) as F. rewrite E in F. apply Forall_app in F as [_ F]. pose proof (Forall_inv F) as Fx.
  split.
  - intros ->. destruct l as [|y l]; [left; exact (eq_sym J)|]. right. rewrite join_app in J by discriminate.
    exists (py_join "/" (y :: l)). rewrite <- J. simpl (py_join _ [""]). unfold slash. now rewrite str_app_nil_r.
  - intros [->|[t ->]].
    + simpl in E. destruct l as [|? [|]]; simpl in E; congruence.
    + change (t ++ "/") with (t ++ String slash "") in E. rewrite split_app in E. simpl in E. apply app_inj_tail in E as [_ <-]. reflexivity.
Qed.

Lemma splitpath_plain a : a <> "" -> ~ ends_in_slash a -> splitpath a = py_split slash a.
Proof.
  intros N E. unfold splitpath. destruct (String.eqb_spec (last (py_split slash a) "") "") as [H|H]; [|reflexivity].
  apply last_split_nil in H. tauto.
Qed.
Lemma splitpath_slash a : splitpath (a ++ "/") = py_split slash a.
Proof.
  unfold splitpath. change (a ++ "/") with (a ++ String slash "").
  assert (H : last (py_split slash (a ++ String slash "")) "" = "") by (apply last_split_nil; right; now exists a).
  rewrite H. simpl. rewrite split_app. simpl. apply removelast_last.
Qed.
Lemma splitpath_nil : splitpath "" = []. Proof. reflexivity. Qed.

Lemma ends_in_slash_dec s : {ends_in_slash s} + {~ ends_in_slash s}.
Proof.
  destruct (py_endswith s "/") eqn:E.
  - left. apply endswith_iff in E. exact E.
  - right. intros H. apply endswith_iff in H. congruence.
Qed.

Lemma ends_slash_app a b : b <> "" -> ends_in_slash (a ++ b) -> ends_in_slash b.
Proof.
  intros N [t H]. exists (py_take (String.length b - 1) b).
  apply los_inj. assert (L : los (a ++ b) = los (t ++ "/")) by now rewrite H. rewrite !los_app in L.
  destruct (exists_last (l := los b)) as (l & x & E); [intros K; apply N; now apply los_inj|].
  rewrite E, app_assoc in L. change (los "/") with [slash] in L. apply app_inj_tail in L as [_ ->].
  assert (Hb : b = string_of_list_ascii l ++ "/").
  { apply los_inj. rewrite E, los_app. f_equal. symmetry. unfold los. apply list_ascii_of_string_of_list_ascii. }
  rewrite Hb at 1. rewrite los_app. rewrite Hb.
  replace (String.length (string_of_list_ascii l ++ "/") - 1)%nat with (String.length (string_of_list_ascii l)).
  - rewrite take_app, los_app. reflexivity.
  - clear. induction (string_of_list_ascii l) as [|c s IH]; simpl; [reflexivity|]. rewrite Nat.sub_0_r in *. destruct (String.length (s ++ "/")) eqn:E; simpl in *; [destruct s; discriminate|]. rewrite Nat.sub_0_r in IH. now rewrite IH.
Qed.

Lemma splitpath_app a r : splitpath (a ++ "/" ++ r) = (py_split slash a ++ splitpath r)%list.
Proof.
  destruct (string_dec r "") as [->|N].
  - rewrite str_app_nil_r, splitpath_slash, splitpath_nil, app_nil_r. reflexivity.
  - destruct (ends_in_slash_dec r) as [[t ->]|E].
    + rewrite <- str_app_assoc, <- str_app_assoc, !splitpath_slash, str_app_assoc. apply split_app.
    + rewrite !splitpath_plain; [exact (split_app slash a r)|assumption|assumption| |].
      * destruct a; discriminate.
      * intros H. rewrite <- str_app_assoc in H. apply ends_slash_app in H; tauto.
Qed.

Lemma splitpath_cases b : b = "" \/ (exists t, b = t ++ "/" /\ splitpath b = py_split slash t) \/
  (b <> "" /\ ~ ends_in_slash b /\ splitpath b = py_split slash b).
Proof.
  destruct (string_dec b "") as [->|N]; [now left|]. right. destruct (ends_in_slash_dec b) as [[t ->]|E].
  - left. exists t. split; [reflexivity|]. apply splitpath_slash.
  - right. split; [assumption|]. split; [assumption|]. now apply splitpath_plain.
Qed.

Lemma split_extends a t r : py_split slash t = (py_split slash a ++ r)%list -> t = a \/ exists q, t = a ++ "/" ++ q.
Proof.
  intros H. destruct r as [|x r].
  - left. rewrite app_nil_r in H. now apply split_inj in H.
  - right. exists (py_join "/" (x :: r)). rewrite <- (join_split slash t), H.
    rewrite join_app; [|apply split_nonempty|discriminate]. fold slash. now rewrite join_split.
Qed.

Lemma under_iff a b :
  (exists r, splitpath b = (py_split slash a ++ r)%list) <->
  (b = a /\ a <> "" /\ ~ ends_in_slash a) \/ exists r, b = a ++ "/" ++ r.
Proof.
  split.
  - intros [r H]. destruct (splitpath_cases b) as [->|[(t & -> & E)|(N & S & E)]].
    + symmetry in H. apply app_eq_nil in H as [H _]. now apply split_nonempty in H.
    + right. rewrite E in H. apply split_extends in H as [->|[q ->]].
      * now exists "".
      * exists (q ++ "/"). now rewrite !str_app_assoc.
    + rewrite E in H. apply split_extends in H as [->|H]; [now left|now right].
  - intros [(-> & N & S)|[r ->]].
    + exists []. rewrite splitpath_plain by assumption. now rewrite app_nil_r.
    + exists (splitpath r). apply splitpath_app.
Qed.

Lemma string_eqb_iff x y : String.eqb x y = true <-> x = y.
Proof. apply String.eqb_eq. Qed.

Lemma subpath_plain a b : a <> "" -> ~ ends_in_slash a ->
  subpath a b = true <-> b = a \/ exists r, b = a ++ "/" ++ r.
Proof.
  intros N S. unfold subpath. rewrite (prefix_iff _ string_eqb_iff), (splitpath_plain a) by assumption. rewrite under_iff. tauto.
Qed.
Lemma subpath_slash a b :
  subpath (a ++ "/") b = true <-> (b = a /\ a <> "" /\ ~ ends_in_slash a) \/ exists r, b = a ++ "/" ++ r.
Proof. unfold subpath. rewrite (prefix_iff _ string_eqb_iff), splitpath_slash. apply under_iff. Qed.
Lemma subpath_nil b : subpath "" b = true.
Proof. unfold subpath. apply (prefix_iff _ string_eqb_iff). now exists (splitpath b). Qed.

(** ** Relative paths *)
Lemma rel_comps p : relative_path p -> exists c cs, p = py_join "/" (c :: cs) /\ Forall (fun n => n <> "" /\ free_of "/" n) (c :: cs).
Proof.
  induction 1 as [n N F|n p N F H (c & cs & -> & C)].
  - exists n, []. split; [reflexivity|]. repeat constructor; assumption.
  - exists n, (c :: cs). split; [now rewrite (join_cons "/" n (c :: cs)) by discriminate|]. constructor; [tauto|assumption].
Qed.
Lemma free_no_end n : n <> "" -> free_of "/" n -> ~ ends_in_slash n.
Proof. intros _ F [t ->]. apply F. rewrite los_app. apply in_or_app. right. now left. Qed.
Lemma rel_nonempty p : relative_path p -> p <> "".
Proof. destruct 1 as [n N|n p N]; [assumption|]. destruct n; [congruence|discriminate]. Qed.
Lemma rel_no_end p : relative_path p -> ~ ends_in_slash p.
Proof.
  induction 1 as [n N F|n p N F H IH]; [now apply free_no_end|].
  intros E. apply IH. rewrite <- str_app_assoc in E. apply ends_slash_app in E; [assumption|]. now apply rel_nonempty.
Qed.
Lemma rel_split p : relative_path p -> exists c cs, py_split slash p = c :: cs /\ p = py_join "/" (c :: cs) /\
  Forall (fun n => n <> "" /\ free_of "/" n) (c :: cs).
Proof.
  intros H. destruct (rel_comps p H) as (c & cs & E & F). exists c, cs. split; [|split; assumption].
  rewrite E. apply split_join; [discriminate|]. eapply Forall_impl; [|exact F]. now intros ? [].
Qed.
Lemma rel_lstrip p : relative_path p -> py_lstrip "/" p = p.
Proof.
  intros H. assert (G : forall n q, n <> "" -> free_of "/" n -> py_lstrip "/" (n ++ q) = n ++ q).
  { intros [|a n] q N F; [congruence|]. apply lstrip_stop. destruct (char_in a "/") eqn:K; [|reflexivity].
    exfalso. apply char_in_iff in K. destruct K as [<-|[]]. apply F. now left. }
  destruct H as [n N F|n q N F _]; [|now apply G]. rewrite <- (str_app_nil_r n). now apply G.
Qed.

Lemma join2_name path n : path <> "" -> ~ ends_in_slash path -> n <> "" -> free_of "/" n -> join_path2 path n = path ++ "/" ++ n.
Proof.
  intros N E Nn F. unfold join_path2. rewrite (rel_lstrip n) by now constructor.
  destruct (String.eqb_spec path ""); [congruence|]. destruct (py_endswith path "/") eqn:K; [|reflexivity].
  apply endswith_iff in K. contradiction.
Qed.
Lemma join_path_comps c cs : c <> "" -> ~ ends_in_slash c -> Forall (fun n => n <> "" /\ free_of "/" n) cs ->
  join_path c cs = py_join "/" (c :: cs).
Proof.
  revert c; induction cs as [|n cs IH]; intros c N E F; [reflexivity|].
  pose proof (Forall_inv F) as [Nn Fn]. pose proof (Forall_inv_tail F) as F'. unfold join_path. cbn [fold_left].
  rewrite join2_name by assumption. change (fold_left join_path2 cs (c ++ "/" ++ n)) with (join_path (c ++ "/" ++ n) cs).
  rewrite IH; [|destruct c; [congruence|discriminate]| |assumption].
  - destruct cs as [|m cs]; [reflexivity|]. rewrite !join_cons by discriminate. now rewrite !str_app_assoc.
  - intros K. rewrite <- str_app_assoc in K. apply ends_slash_app in K; [|assumption]. now apply free_no_end in K.
Qed.

Lemma removepathprefix_join root p q : relative_path p -> py_lstrip "/" q = p ->
  removepathprefix root (join_path root [q]) = Ok p.
Proof.
  intros R L. destruct (rel_split p R) as (c & cs & S & J & F).
  assert (SP : splitpath p = c :: cs). { rewrite splitpath_plain; [exact S|now apply rel_nonempty|now apply rel_no_end]. }
  assert (RM : remove_prefix String.eqb (splitpath root) (splitpath (join_path root [q])) = Ok (c :: cs)).
  { apply (remove_prefix_iff _ string_eqb_iff). rewrite <- SP. unfold join_path. cbn [fold_left]. unfold join_path2. rewrite L.
    destruct (splitpath_cases root) as [->|[(t & -> & E)|(N & E & E')]].
    - reflexivity.
    - replace (String.eqb (t ++ "/") "" || py_endswith (t ++ "/") "/")%bool with true.
      + rewrite E, str_app_assoc. apply splitpath_app.
      + symmetry. apply orb_true_iff. right. apply endswith_iff. now exists t.
    - replace (String.eqb root "" || py_endswith root "/")%bool with false.
      + rewrite E'. apply splitpath_app.
      + symmetry. apply orb_false_iff. split; [now apply String.eqb_neq|].
        destruct (py_endswith root "/") eqn:K; [|reflexivity]. apply endswith_iff in K. contradiction. }
  unfold removepathprefix. rewrite RM. cbn [bind]. f_equal. pose proof (Forall_inv F) as [Nc Fc].
  rewrite join_path_comps; [now rewrite J|assumption|now apply free_no_end|exact (Forall_inv_tail F)].
Qed.

(** ** makepath *)
Lemma makepath_join comps : comps <> [] -> makepath comps true = py_join "/" comps /\ makepath comps false = "/" ++ py_join "/" comps.
Proof.
  intros N.
  assert (G : forall l acc, fold_left (fun x y : string => x ++ "/" ++ y) l acc = match l with [] => acc | _ => acc ++ "/" ++ py_join "/" l end).
  { induction l as [|y l IH]; intros acc; [reflexivity|]. cbn [fold_left]. rewrite IH. destruct l as [|z l]; [reflexivity|].
    rewrite (join_cons "/" y (z :: l)) by discriminate. now rewrite !str_app_assoc. }
  unfold makepath. rewrite G. destruct comps as [|c cs]; [congruence|]. split; reflexivity.
Qed.
Lemma makepath_splitpath p : ~ ends_in_slash p -> makepath (splitpath p) true = p.
Proof.
  intros E. destruct (string_dec p "") as [->|N]; [reflexivity|]. rewrite splitpath_plain by assumption.
  rewrite (proj1 (makepath_join _ (split_nonempty _ _))). exact (join_split slash p).
Qed.

(** ** rfind, dirname, parentpath *)
Lemma rfind_none c s : py_rfind c s = None <-> ~ In c (los s).
Proof.
  induction s as [|a s IH]; simpl; [tauto|]. destruct (py_rfind c s) as [n|].
  - split; [discriminate|]. intros H. assert (~ In c (los s)) by tauto. apply IH in H0. discriminate.
  - destruct (Ascii.eqb_spec a c) as [->|Ne].
    + split; [discriminate|]. tauto.
    + split; [|reflexivity]. intros _ [K|K]; [congruence|]. now apply IH in K.
Qed.
Lemma rfind_app c a b : ~ In c (los b) -> py_rfind c (a ++ String c b) = Some (String.length a).
Proof.
  intros H. induction a as [|x a IH].
  - simpl. apply rfind_none in H. rewrite H. now rewrite Ascii.eqb_refl.
  - simpl. now rewrite IH.
Qed.
Lemma take_app_cons a c b : py_take (S (String.length a)) (a ++ String c b) = a ++ String c "".
Proof. induction a as [|x a IH]; simpl; [now destruct b|]. simpl in IH. now rewrite IH. Qed.

Lemma all_slash_end p : p <> "" -> Forall (fun c => char_in c "/" = true) (los p) -> ends_in_slash p.
Proof.
  intros N F. destruct (exists_last (l := los p)) as (l & x & L); [intros K; apply N; now apply los_inj|].
  rewrite L in F. apply Forall_app in F as [_ F]. pose proof (Forall_inv F) as X. apply char_in_iff in X.
  destruct X as [X|[]]. exists (sol l). apply los_inj. rewrite L, los_app, list_ascii_of_string_of_list_ascii. now rewrite <- X.
Qed.
Lemma rstrip_none d : ~ ends_in_slash d -> py_rstrip "/" d = d.
Proof.
  intros E. destruct (rstrip_decomp "/" d) as (p & H & F & _). destruct (string_dec p "") as [->|N].
  - rewrite str_app_nil_r in H. congruence.
  - exfalso. apply E. destruct (all_slash_end p N F) as [t ->]. rewrite H. exists (py_rstrip "/" d ++ t). now rewrite str_app_assoc.
Qed.
Lemma all_slashes_iff s : all_slashes s = true <-> Forall (fun c => char_in c "/" = true) (los s).
Proof.
  induction s as [|a s IH]; simpl; [split; [constructor|reflexivity]|]. rewrite andb_true_iff, IH, Ascii.eqb_eq. split.
  - intros [-> H]. constructor; [reflexivity|assumption].
  - intros H. pose proof (Forall_inv H) as X. apply (char_in_iff a "/") in X. destruct X as [X|[]]. split; [symmetry; exact X|exact (Forall_inv_tail H)].
Qed.

Lemma dirname_under d n : d <> "" -> ~ ends_in_slash d -> free_of "/" n -> dirname (d ++ "/" ++ n) = d.
Proof.
  intros N E F. change (d ++ "/" ++ n) with (d ++ String slash n). unfold dirname. rewrite (rfind_app slash d n) by exact F. rewrite (take_app_cons d slash n).
  destruct (all_slashes (d ++ String slash "")) eqn:A.
  - exfalso. apply all_slashes_iff in A. rewrite los_app in A. apply Forall_app in A as [A _]. apply E. now apply all_slash_end.
  - change (String slash "") with "/". rewrite rstrip_app_in by (repeat constructor). now apply rstrip_none.
Qed.
Lemma dirname_top n : free_of "/" n -> dirname ("/" ++ n) = "/".
Proof.
  intros F. change ("/" ++ n) with ("" ++ String slash n). unfold dirname. rewrite (rfind_app slash "" n) by exact F. simpl. now destruct n.
Qed.
Lemma basename_under d n : free_of "/" n -> basename (d ++ "/" ++ n) = n.
Proof.
  intros F. change (d ++ "/" ++ n) with (d ++ String slash n). unfold basename. rewrite (rfind_app slash d n) by exact F.
  change (d ++ String slash n) with (d ++ (String slash "" ++ n)). rewrite <- str_app_assoc.
  replace (S (String.length d)) with (String.length (d ++ String slash "")) by (rewrite str_app_length; simpl; lia). apply drop_app.
Qed.
Lemma parentpath_under d n : n <> "" -> free_of "/" n -> parentpath (d ++ "/" ++ n) = d.
Proof.
  intros N F. unfold parentpath. rewrite rstrip_none.
  - change (d ++ "/" ++ n) with (d ++ String slash n). rewrite (rfind_app slash d n) by exact F. apply take_app.
  - intros K. rewrite <- str_app_assoc in K. apply ends_slash_app in K; [|assumption]. now apply free_no_end in K.
Qed.

(** ** Package names *)
Lemma build_part_shown b : build_part b = build_shown b.
Proof. destruct b as [[| |]|]; reflexivity. Qed.

Definition good_word (w : string) : Prop := w <> "" /\ free_of "-" w /\ ~ digit_first w.
Lemma words_list s : plain_words s -> exists ws, Forall good_word ws /\ forall w, py_join "-" (w :: ws) = w ++ s.
Proof.
  induction 1 as [|x s N F D H (ws & Fw & J)].
  - exists []. split; [constructor|]. intros w. now rewrite str_app_nil_r.
  - exists (x :: ws). split; [constructor; [split; auto|assumption]|]. intros w.
    rewrite (join_cons "-" w (x :: ws)) by discriminate. now rewrite J.
Qed.
Lemma name_parts_go ws name v parts : name <> [] -> Forall good_word ws -> digit_first v ->
  name_parts name (ws ++ v :: parts) = Ok (name ++ ws)%list.
Proof.
  revert name; induction ws as [|w ws IH]; intros name N F (c & t & -> & D).
  - destruct name as [|n name]; [congruence|]. simpl. rewrite D. now rewrite app_nil_r.
  - pose proof (Forall_inv F) as (Nw & Fw & Dw). destruct name as [|n name]; [congruence|]. destruct w as [|a w]; [congruence|].
    cbn [name_parts app]. destruct (is_digit a) eqn:Da; [exfalso; apply Dw; now exists a, w|].
    change ((n :: name ++ [String a w])%list) with (((n :: name) ++ [String a w])%list). rewrite IH.
    + now rewrite <- app_assoc.
    + discriminate.
    + exact (Forall_inv_tail F).
    + now exists c, t.
Qed.
Lemma split_digit v : digit_first v -> exists x l, py_split "-" v = x :: l /\ digit_first x.
Proof.
  intros (c & t & -> & D). cbn [py_split]. destruct (Ascii.eqb_spec c "-") as [->|Ne]; [discriminate|].
  destruct (py_split "-" t) as [|p ps] eqn:E; [now apply split_nonempty in E|]. exists (String c p), ps. split; [reflexivity|]. now exists c, p.
Qed.

Lemma parse_plain n rest : plain_name n -> digit_first rest -> parse_package_name (n ++ "-" ++ rest) = Ok (n, rest).
Proof.
  intros (w & s & Fw & P & ->) D. destruct (words_list s P) as (ws & F & J). unfold parse_package_name.
  assert (Sn : py_split "-" (w ++ s) = w :: ws).
  { rewrite <- J. apply split_join; [discriminate|]. constructor; [assumption|]. eapply Forall_impl; [|exact F]. now intros ? (_ & ? & _). }
  destruct (split_digit rest D) as (x & l & Sr & Dx).
  change ("-" ++ rest) with (String "-" rest). rewrite split_app, Sn, Sr. cbn [app]. 
  change (name_parts [] (w :: ws ++ x :: l)%list) with (name_parts [w] (ws ++ x :: l)%list).
  rewrite name_parts_go by (try assumption; discriminate). cbn [bind app]. rewrite J. f_equal. f_equal.
  change ((w ++ s) ++ String "-" rest) with ((w ++ s) ++ "-" ++ rest). rewrite <- (str_app_assoc (w ++ s) "-" rest).
  change 1%nat with (String.length "-"). rewrite <- (str_app_length (w ++ s) "-"). apply drop_app.
Qed.

Lemma digit_first_app a b : digit_first a -> digit_first (a ++ b).
Proof. intros (c & t & -> & D). now exists c, (t ++ b). Qed.

Lemma parse_generated n v r b : plain_name n -> digit_first v ->
  parse_package_name (package_name n v r b false) = Ok (n, v ++ "-" ++ r ++ build_shown b).
Proof.
  intros P D. unfold package_name. rewrite build_part_shown. apply parse_plain; [assumption|]. now apply digit_first_app.
Qed.

(** rstrip(".pisi") stops at the dash before the release at the latest. *)
Lemma rstrip_stop chars a c b : char_in c chars = false ->
  exists b', py_rstrip chars (a ++ String c b) = a ++ String c b'.
Proof.
  intros H. destruct (rstrip_decomp chars (a ++ String c b)) as (p & E & F & _).
  assert (L : los (a ++ String c b) = los (py_rstrip chars (a ++ String c b) ++ p)) by now rewrite <- E.
  revert L. generalize (py_rstrip chars (a ++ String c b)). intros r L. clear E. rewrite !los_app in L.
  exists (sol (skipn (S (length (los a))) (los r))).
  apply los_inj. rewrite los_app. simpl. rewrite list_ascii_of_string_of_list_ascii.
  assert (K : (length (los a) < length (los r))%nat).
  { destruct (Nat.lt_ge_cases (length (los a)) (length (los r))) as [G|G]; [exact G|]. exfalso.
    assert (N : nth_error (los a ++ los (String c b)) (length (los a)) = Some c) by (rewrite nth_error_app2, Nat.sub_diag by lia; reflexivity).
    rewrite L in N. rewrite nth_error_app2 in N by lia. apply nth_error_In in N. rewrite Forall_forall in F. apply F in N. congruence. }
  assert (Q : firstn (S (length (los a))) (los r) = (los a ++ [c])%list).
  { transitivity (firstn (S (length (los a))) (los r ++ los p)).
    - rewrite firstn_app. replace (S (length (los a)) - length (los r))%nat with 0%nat by lia. simpl (firstn 0 _). now rewrite app_nil_r.
    - rewrite <- L. rewrite firstn_app. replace (S (length (los a)) - length (los a))%nat with 1%nat by lia.
      rewrite firstn_all2 by lia. reflexivity. }
  rewrite <- (firstn_skipn (S (length (los a))) (los r)) at 1. rewrite Q, <- app_assoc. reflexivity.
Qed.

Lemma pure_generated n v r b : plain_name n -> digit_first v ->
  pure_package_name (package_name n v r b true) = Ok n /\ pure_package_name (package_name n v r b false) = Ok n.
Proof.
  intros P D. 
  assert (G : forall q, pure_package_name (n ++ "-" ++ v ++ "-" ++ q) = Ok n).
  { intros q. unfold pure_package_name. destruct (py_endswith _ _).
    - destruct (rstrip_stop package_suffix (n ++ "-" ++ v) "-" q eq_refl) as [q' Q].
      replace (n ++ "-" ++ v ++ "-" ++ q) with ((n ++ "-" ++ v) ++ String "-" q) by now rewrite !str_app_assoc.
      rewrite Q. replace ((n ++ "-" ++ v) ++ String "-" q') with (n ++ "-" ++ (v ++ "-" ++ q')) by now rewrite !str_app_assoc.
      rewrite parse_plain; [reflexivity|assumption|now apply digit_first_app].
    - rewrite parse_plain; [reflexivity|assumption|now apply digit_first_app]. }
  unfold package_name. split; [|apply G].
  replace ((n ++ "-" ++ v ++ "-" ++ r ++ build_part b) ++ package_suffix) with (n ++ "-" ++ v ++ "-" ++ (r ++ build_part b ++ package_suffix)); [apply G|].
  now rewrite !str_app_assoc.
Qed.

(** ** is_package_name *)
Lemma starts_with_digit_iff x : starts_with_digit x = true <-> digit_first x.
Proof.
  destruct x as [|c t]; simpl.
  - split; [discriminate|]. intros (c & t & H & _). discriminate.
  - split; [intros H; now exists c, t|]. intros (c' & t' & E & H). congruence.
Qed.
Lemma is_package_name_generated n v r b :
  is_package_name (package_name n v r b true) (Some n) = Ok true <->
  forall w, In w (py_split "-" (v ++ "-" ++ r ++ build_shown b)) -> digit_first w.
Proof.
  unfold is_package_name, package_name. rewrite build_part_shown.
  set (m := v ++ "-" ++ r ++ build_shown b).
  replace (n ++ "-" ++ v ++ "-" ++ r ++ build_shown b) with (n ++ "-" ++ m) by reflexivity.
  replace (py_startswith ((n ++ "-" ++ m) ++ package_suffix) (n ++ "-")) with true.
  2:{ symmetry. apply startswith_iff. exists (m ++ package_suffix). now rewrite !str_app_assoc. }
  replace (py_endswith ((n ++ "-" ++ m) ++ package_suffix) package_suffix) with true.
  2:{ symmetry. apply endswith_iff. now exists (n ++ "-" ++ m). }
  cbn [andb]. rewrite str_app_length, Nat.add_sub, take_app.
  replace (py_drop (String.length n + 1) (n ++ "-" ++ m)) with m.
  2:{ rewrite <- (str_app_assoc n "-" m). change 1%nat with (String.length "-"). rewrite <- (str_app_length n "-"). symmetry. apply drop_app. }
  split.
  - intros H w Hw. injection H as H. rewrite forallb_forall in H. apply starts_with_digit_iff. now apply H.
  - intros H. f_equal. apply forallb_forall. intros w Hw. apply starts_with_digit_iff. now apply H.
Qed.
Lemma is_package_name_unnamed n v r b : is_package_name (package_name n v r b true) None = Err EType.
Proof.
  unfold is_package_name, package_name. replace (py_endswith _ _) with true; [reflexivity|].
  symmetry. apply endswith_iff. eexists. reflexivity.
Qed.

Lemma digit_char d : (d < 10)%N -> is_digit (ascii_of_N (48 + d)) = true.
Proof.
  intros H. assert (E : exists k, (k < 10)%nat /\ d = N.of_nat k) by (exists (N.to_nat d); lia). destruct E as (k & K & ->).
  do 10 (destruct k as [|k]; [reflexivity|]). lia.
Qed.
Lemma nat_digits_first fuel n acc : (forall c t, acc = String c t -> is_digit c = true) -> fuel <> O ->
  digit_first (nat_digits_fuel fuel n acc).
Proof.
  revert n acc. induction fuel as [|f IH]; intros n acc H N; [congruence|]. cbn [nat_digits_fuel].
  assert (D : is_digit (ascii_of_N (48 + N.modulo n 10)) = true) by (apply digit_char, N.mod_lt; discriminate).
  destruct (N.eqb _ 0).
  - now exists (ascii_of_N (48 + N.modulo n 10)), acc.
  - destruct f as [|f].
    + simpl. now exists (ascii_of_N (48 + N.modulo n 10)), acc.
    + apply IH; [|discriminate]. intros c t E. congruence.
Qed.
Lemma nat_digits_free fuel n acc : free_of "-" acc -> free_of "-" (nat_digits_fuel fuel n acc).
Proof.
  revert n acc. induction fuel as [|f IH]; intros n acc H; [exact H|]. cbn [nat_digits_fuel].
  assert (D : free_of "-" (String (ascii_of_N (48 + N.modulo n 10)) acc)).
  { intros [E|E]; [|contradiction]. assert (K : is_digit (ascii_of_N (48 + N.modulo n 10)) = true) by (apply digit_char, N.mod_lt; discriminate).
    rewrite E in K. discriminate. }
  destruct (N.eqb _ 0); [exact D|]. now apply IH.
Qed.
Lemma str_of_pos z : (0 < z)%Z -> digit_first (str_of_Z z) /\ free_of "-" (str_of_Z z).
Proof.
  intros H. destruct z as [|p|p]; [lia| |lia]. unfold str_of_Z, str_of_N. split.
  - apply nat_digits_first; discriminate.
  - apply nat_digits_free. intros [].
Qed.
Lemma is_package_name_ok n v r b : digit_first v -> free_of "-" v -> digit_first r -> free_of "-" r ->
  (forall z, b = Some z -> (0 <= z)%Z) ->
  is_package_name (package_name n v r b true) (Some n) = Ok true.
Proof.
  intros Dv Fv Dr Fr B. apply is_package_name_generated. intros w.
  change ("-" ++ r ++ build_shown b) with (String "-" (r ++ build_shown b)). rewrite (split_app_sep "-" v _ Fv).
  intros [<-|Hw]; [assumption|]. destruct b as [z|].
  - specialize (B z eq_refl). destruct z as [|p|p]; [| |lia].
    + cbn [build_shown] in Hw. rewrite str_app_nil_r, (split_no_sep _ _ Fr) in Hw. destruct Hw as [<-|[]]. assumption.
    + destruct (str_of_pos (Zpos p)) as [Dp Fp]; [lia|]. cbn [build_shown] in Hw. change ("-" ++ str_of_Z (Z.pos p)) with (String "-" (str_of_Z (Z.pos p))) in Hw.
      rewrite (split_app_sep "-" r _ Fr), (split_no_sep _ _ Fp) in Hw. destruct Hw as [<-|[<-|[]]]; assumption.
  - cbn [build_shown] in Hw. rewrite str_app_nil_r, (split_no_sep _ _ Fr) in Hw. destruct Hw as [<-|[]]. assumption.
Qed.
