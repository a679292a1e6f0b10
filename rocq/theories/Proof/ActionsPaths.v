(** * Action scripts *)
From Coq Require Import String Ascii ZArith List Bool Lia.
From stdpp Require Import gmap strings.
From Verif Require Import Model.Py Model.InstallDB Model.Path Model.Fs Model.Trace Model.Actions Spec.PathSpec Spec.FsSpec Spec.ActionsSpec Proof.PyFacts Proof.PathFacts Proof.FsFacts Proof.TraceFacts.
Import ListNotations.
Open Scope string_scope.

(** ** Places *)
Lemma child_below d n ns : below d (n :: ns) = below (child d n) ns. Proof. reflexivity. Qed.
Lemma below_app d a b : below d (a ++ b) = below (below d a) b.
Proof. revert d. induction a as [|n a IH]; intros d; [reflexivity|]. cbn [app]. rewrite !child_below. apply IH. Qed.
Lemma below_snoc d a n : below d (a ++ [n]) = child (below d a) n.
Proof. rewrite below_app. reflexivity. Qed.
Lemma names_app a b : (forall n, In n (a ++ b) -> name n) <-> (forall n, In n a -> name n) /\ (forall n, In n b -> name n).
Proof. split; [intros H; split; intros n I; apply H; rewrite in_app_iff; tauto|]. intros [A B] n I. apply in_app_iff in I as [I|I]; auto. Qed.
Lemma child_located d n : child d n = located d n. Proof. reflexivity. Qed.
Lemma below_absolute d ns : d = "/" \/ absolute d -> (forall n, In n ns -> name n) -> ns <> [] -> absolute (below d ns).
Proof.
  revert d. induction ns as [|n ns IH]; intros d Hd Hn N; [congruence|]. rewrite child_below. destruct (Hn n (or_introl eq_refl)) as (N1 & _ & _ & F).
  destruct (absolute_under d n Hd N1 F) as [A _]. destruct ns as [|m ns]; [exact A|]. apply IH; [right; exact A|intros x I; apply Hn; now right|discriminate].
Qed.
Lemma below_dir d ns : d = "/" \/ absolute d -> (forall n, In n ns -> name n) -> below d ns = "/" \/ absolute (below d ns).
Proof. intros Hd Hn. destruct ns as [|n ns]; [exact Hd|]. right. now apply below_absolute. Qed.
Lemma below_dirname d ns n : d = "/" \/ absolute d -> (forall n, In n ns -> name n) -> name n -> dirname (below d (ns ++ [n])) = below d ns /\ basename (below d (ns ++ [n])) = n.
Proof.
  intros Hd Hn Nn. rewrite below_snoc, child_located. destruct Nn as (N1 & _ & _ & F). destruct (absolute_under (below d ns) n) as [_ E]; [now apply below_dir|exact N1|exact F|]. split; [exact E|].
  unfold located. destruct (String.eqb _ _); [exact (basename_under "" n F)|now apply basename_under].
Qed.
Lemma below_text d ns : d <> "/" -> d <> "" -> ns <> [] -> below d ns = d ++ "/" ++ String.concat "/" ns.
Proof.
  revert d. induction ns as [|n ns IH]; intros d Nd Ne N; [congruence|]. rewrite child_below. unfold child. rewrite (proj2 (String.eqb_neq _ _) Nd). destruct ns as [|m ns]; [reflexivity|].
  rewrite IH; [|intros E|intros E|discriminate].
  - change (String.concat "/" (n :: m :: ns)) with (n ++ "/" ++ String.concat "/" (m :: ns)). now rewrite !str_app_assoc.
  - apply (f_equal String.length) in E. rewrite !str_app_length in E. destruct d; [congruence|]. cbn in E. lia.
  - apply (f_equal String.length) in E. rewrite !str_app_length in E. cbn in E. lia.
Qed.
Lemma below_text_root ns : ns <> [] -> (forall n, In n ns -> name n) -> below "/" ns = "/" ++ String.concat "/" ns.
Proof.
  destruct ns as [|n ns]; [congruence|]. intros _ H. rewrite child_below. destruct ns as [|m ns]; [reflexivity|]. rewrite below_text; [reflexivity| |discriminate|discriminate].
  destruct (H n (or_introl eq_refl)) as (N & _). unfold child. cbn. intros E. injection E as E. congruence.
Qed.
Lemma names_free ns : (forall n, In n ns -> name n) -> List.Forall (fun p => ~ In "/"%char (list_ascii_of_string p)) ns.
Proof. intros H. apply List.Forall_forall. intros n I. apply (H n I). Qed.
Lemma split_below ns : ns <> [] -> (forall n, In n ns -> name n) -> py_split "/" (below "/" ns) = "" :: ns.
Proof.
  intros N H. rewrite below_text_root by assumption. change ("/" ++ String.concat "/" ns) with (String "/" (py_join "/" ns)). change (py_split "/" (String "/" (py_join "/" ns))) with ("" :: py_split "/" (py_join "/" ns)).
  f_equal. apply (split_join "/" ns N). now apply names_free.
Qed.
Lemma below_starts ns : ns <> [] -> (forall n, In n ns -> name n) -> forall r, py_startswith (below "/" ns ++ r) "/" = true.
Proof. intros N H r. rewrite below_text_root by assumption. apply startswith_iff. exists (String.concat "/" ns ++ r). now rewrite str_app_assoc. Qed.
Lemma lstrip_slashes s t : (forall c, In c (list_ascii_of_string s) -> c = "/"%char) -> (forall r, t <> "/" ++ r) -> py_lstrip "/" (s ++ t) = t.
Proof.
  induction s as [|c s IH]; intros H N.
  - change ("" ++ t) with t. destruct t as [|c t]; [reflexivity|]. cbn [py_lstrip]. destruct (char_in c "/") eqn:K; [|reflexivity]. exfalso. apply char_in_iff in K as [<-|[]]. now apply (N t).
  - change (String c s ++ t) with (String c (s ++ t)). cbn [py_lstrip]. rewrite (H c (or_introl eq_refl)). cbn. apply IH; [|exact N]. intros d I. apply H. now right.
Qed.
Lemma concat_no_slash ns : (forall n, In n ns -> name n) -> forall r, String.concat "/" ns <> "/" ++ r.
Proof.
  intros H r E. destruct ns as [|n ns]; [discriminate E|]. destruct (H n (or_introl eq_refl)) as (N & _ & _ & F). destruct n as [|c n]; [congruence|]. apply F.
  destruct ns as [|m ns]; cbn in E; injection E as -> _; now left.
Qed.
Lemma join_means root x ns : means x ns -> root <> "" -> ~ ends_in_slash root -> root <> "/" -> join_path2 root x = match ns with [] => root ++ "/" | _ => below root ns end.
Proof.
  intros (H & s & Hs & ->) N E Nr. unfold join_path2. rewrite lstrip_slashes by (exact Hs || now apply concat_no_slash). rewrite (proj2 (String.eqb_neq _ _) N).
  destruct (py_endswith root "/") eqn:K; [apply endswith_iff in K; contradiction|]. cbn [orb]. destruct ns as [|n ns]; [reflexivity|]. now rewrite below_text.
Qed.
Lemma concat_snoc a n : a <> [] -> String.concat "/" (a ++ [n]) = String.concat "/" a ++ "/" ++ n.
Proof.
  induction a as [|m a IH]; intros N; [congruence|]. destruct a as [|k a]; [reflexivity|].
  change (String.concat "/" ((m :: k :: a) ++ [n])) with (m ++ "/" ++ String.concat "/" ((k :: a) ++ [n])). rewrite IH by discriminate.
  change (String.concat "/" (m :: k :: a)) with (m ++ "/" ++ String.concat "/" (k :: a)). now rewrite !str_app_assoc.
Qed.
Lemma concat_ends a : a <> [] -> (forall n, In n a -> name n) -> forall s, ~ ends_in_slash (s ++ String.concat "/" a).
Proof.
  intros N H s. destruct a as [|n a _] using rev_ind; [congruence|]. assert (Nn : name n) by (apply H; rewrite in_app_iff; right; now left).
  assert (K : forall q, ~ ends_in_slash (q ++ n)).
  { intros q [t E]. destruct Nn as (N1 & _ & _ & F). destruct (str_snoc_cases n) as [->|(r & c & ->)]; [congruence|]. rewrite <- str_app_assoc in E. apply (f_equal str_rev) in E. rewrite !str_rev_app_distr in E. injection E as -> _.
    apply F. rewrite los_app. apply in_app_iff. right. now left. }
  destruct a as [|m a]; [apply K|]. rewrite concat_snoc by discriminate. rewrite <- !str_app_assoc. apply K.
Qed.
Lemma means_dirname x a n : means x (a ++ [n]) -> means (dirname x) a.
Proof.
  intros (H & s & Hs & ->). apply names_app in H as [Ha Hn]. assert (Nn : name n) by (apply Hn; now left). split; [exact Ha|]. exists s. split; [exact Hs|].
  destruct Nn as (N1 & _ & _ & F). destruct a as [|m a].
  - cbn [app String.concat]. rewrite str_app_nil_r. unfold dirname. destruct (str_snoc_cases s) as [->|(r & c & Es)].
    + change ("" ++ n) with n. rewrite (proj2 (rfind_none slash n)) by exact F. reflexivity.
    + assert (c = "/"%char) as -> by (apply Hs; rewrite Es, los_app; apply in_app_iff; right; now left). rewrite Es, str_app_assoc. change (String "/" "" ++ n) with (String slash n). rewrite rfind_app by exact F.
      rewrite (take_app_cons r slash n). replace (all_slashes (r ++ String slash "")) with true; [reflexivity|]. symmetry. apply all_slashes_iff. apply List.Forall_forall. intros c I. change (In c (list_ascii_of_string (r ++ String slash ""))) in I. change (String slash "") with (String "/" "") in I. rewrite <- Es in I. now rewrite (Hs c I).
  - rewrite concat_snoc by discriminate. rewrite <- !str_app_assoc. change ((s ++ String.concat "/" (m :: a)) ++ "/" ++ n) with ((s ++ String.concat "/" (m :: a)) ++ "/" ++ n). rewrite str_app_assoc.
    apply dirname_under; [|now apply concat_ends|exact F]. intros E.
    assert (Nm : name m) by (apply Ha; now left). destruct Nm as (Nm & _). destruct s; [|discriminate E]. destruct m; [congruence|]. destruct a; discriminate E.
Qed.

(** ** Following paths *)
Lemma walk_cons k fl f cur c names : walk k fl f cur (c :: names) =
  if String.eqb c "" || String.eqb c "." then walk k fl f cur names
  else if String.eqb c ".." then walk k fl f (dirname cur) names
  else match node_at f (child cur c) with
       | Some NDir => walk k fl f (child cur c) names
       | Some (NLink t) =>
           match names, fl with
           | [], false => Some (child cur c)
           | _, _ => match k with O => None | S k => walk k fl f (if py_startswith t "/" then "/" else cur) (py_split "/" t ++ names)%list end
           end
       | Some _ => match names with [] => Some (child cur c) | _ => None end
       | None => if forallb (String.eqb "") names then Some (child cur c) else None
       end.
Proof. destruct k; reflexivity. Qed.
Lemma walk_nil k fl f cur : walk k fl f cur [] = Some cur. Proof. destruct k; reflexivity. Qed.
Lemma walk_name k fl f cur c names : name c -> walk k fl f cur (c :: names) =
  match node_at f (child cur c) with
  | Some NDir => walk k fl f (child cur c) names
  | Some (NLink t) =>
      match names, fl with
      | [], false => Some (child cur c)
      | _, _ => match k with O => None | S k => walk k fl f (if py_startswith t "/" then "/" else cur) (py_split "/" t ++ names)%list end
      end
  | Some _ => match names with [] => Some (child cur c) | _ => None end
  | None => if forallb (String.eqb "") names then Some (child cur c) else None
  end.
Proof. intros (A & B & C & _). rewrite walk_cons. now rewrite (proj2 (String.eqb_neq _ _) A), (proj2 (String.eqb_neq _ _) B), (proj2 (String.eqb_neq _ _) C). Qed.
Lemma name_not_empty n ns : name n -> forallb (String.eqb "") (n :: ns) = false.
Proof. intros (A & _). cbn. destruct n; [congruence|reflexivity]. Qed.
(** Through directories *)
Lemma walk_dirs k fl f cur ns rest : (forall n, In n ns -> name n) -> (forall a b, ns = (a ++ b)%list -> a <> [] -> node_at f (below cur a) = Some NDir) ->
  walk k fl f cur (ns ++ rest) = walk k fl f (below cur ns) rest.
Proof.
  revert cur. induction ns as [|n ns IH]; intros cur H D; [reflexivity|]. cbn [app]. rewrite walk_name by (apply H; now left). assert (Dn : node_at f (child cur n) = Some NDir) by (apply (D [n] ns eq_refl); discriminate). rewrite Dn.
  rewrite IH; [reflexivity|intros m I; apply H; now right|]. intros a b E N. rewrite <- child_below. apply (D (n :: a) b); [now rewrite E|discriminate].
Qed.
(** Not through links: the place is the one the text says, or there is none. *)
Definition link_free (f : fs) (cur : string) (fl : bool) (ns : list string) : Prop :=
  forall a b, ns = (a ++ b)%list -> a <> [] -> (fl = true \/ b <> []) -> forall t, node_at f (below cur a) <> Some (NLink t).
Lemma walk_plain k fl f cur ns q : (forall n, In n ns -> name n) -> link_free f cur fl ns -> walk k fl f cur ns = Some q ->
  q = below cur ns /\ forall a b, ns = (a ++ b)%list -> a <> [] -> b <> [] -> node_at f (below cur a) = Some NDir.
Proof.
  revert cur. induction ns as [|n ns IH]; intros cur H L.
  - rewrite walk_nil. intros [= <-]. split; [reflexivity|]. intros a b E N. destruct a; [congruence|discriminate E].
  - rewrite walk_name by (apply H; now left). assert (Hn : forall m, In m ns -> name m) by (intros m I; apply H; now right).
    assert (One : ns = [] -> forall a b, n :: ns = (a ++ b)%list -> a <> [] -> b <> [] -> node_at f (below cur a) = Some NDir).
    { intros -> a b E Na Nb. destruct a as [|x [|y a]]; [congruence| |]; injection E as _ E; [congruence|destruct a; discriminate E]. }
    destruct (node_at f (child cur n)) as [[c| |t|]|] eqn:E.
    + destruct ns as [|m ns]; [|discriminate]. intros [= <-]. split; [reflexivity|now apply One].
    + intros W. apply IH in W as [-> D]; [|exact Hn|intros a b Ea Na Nb; rewrite <- child_below; apply (L (n :: a) b); [now rewrite Ea|discriminate|exact Nb]].
      split; [reflexivity|]. intros a b Ea Na Nb. destruct a as [|x a]; [congruence|]. injection Ea as <- Ea. destruct a as [|y a]; [exact E|]. rewrite child_below. apply (D (y :: a) b); [exact Ea|discriminate|exact Nb].
    + destruct ns as [|m ns], fl.
      * elim (L [n] [] eq_refl) with (t := t); [discriminate|now left|exact E].
      * intros [= <-]. split; [reflexivity|now apply One].
      * elim (L [n] (m :: ns) eq_refl) with (t := t); [discriminate|now left|exact E].
      * elim (L [n] (m :: ns) eq_refl) with (t := t); [discriminate|right; discriminate|exact E].
    + destruct ns as [|m ns]; [|discriminate]. intros [= <-]. split; [reflexivity|now apply One].
    + destruct ns as [|m ns]; [cbn [forallb]|rewrite name_not_empty by (apply Hn; now left); discriminate]. intros [= <-]. split; [reflexivity|now apply One].
Qed.
Lemma walk_reach k fl f cur ns : (forall n, In n ns -> name n) -> (forall a b, ns = (a ++ b)%list -> a <> [] -> b <> [] -> node_at f (below cur a) = Some NDir) ->
  (fl = true -> ns <> [] -> forall t, node_at f (below cur ns) <> Some (NLink t)) -> walk k fl f cur ns = Some (below cur ns).
Proof.
  intros H D L. destruct ns as [|n ns _] using rev_ind; [apply walk_nil|]. apply names_app in H as [Ha Hn]. rewrite walk_dirs.
  - rewrite walk_name by (apply Hn; now left). rewrite below_app in *. change (below (below cur ns) [n]) with (child (below cur ns) n) in *.
    destruct (node_at f (child (below cur ns) n)) as [[]|] eqn:E; [reflexivity|apply walk_nil| |reflexivity|reflexivity].
    destruct fl; [|reflexivity]. elim (L eq_refl) with (t := target); [destruct ns; discriminate|reflexivity].
  - exact Ha.
  - intros a b E N. apply (D a (b ++ [n])%list); [now rewrite E, app_assoc|exact N|destruct b; discriminate].
Qed.
(** What was found is still found when things are added. *)
Lemma walk_mono k fl f g cur ns q n : (forall p m, node_at f p = Some m -> node_at g p = Some m) -> walk k fl f cur ns = Some q -> node_at f q = Some n -> walk k fl g cur ns = Some q.
Proof.
  intros M. revert cur ns. induction k as [|k IHk]; intros cur ns; revert cur; induction ns as [|c ns IH]; intros cur; rewrite ?walk_nil; try tauto; rewrite !walk_cons.
  - destruct (_ || _); [apply IH|]. destruct (String.eqb c ".."); [apply IH|]. destruct (node_at f (child cur c)) as [m|] eqn:E.
    + rewrite (M _ _ E). destruct m; try tauto; apply IH.
    + destruct (forallb _ _); [|discriminate]. intros [= <-] K. congruence.
  - destruct (_ || _); [apply IH|]. destruct (String.eqb c ".."); [apply IH|]. destruct (node_at f (child cur c)) as [m|] eqn:E.
    + rewrite (M _ _ E). destruct m; try tauto; [apply IH|]. destruct ns, fl; try tauto; apply IHk.
    + destruct (forallb _ _); [|discriminate]. intros [= <-] K. congruence.
Qed.

(** ** Absolute and relative paths *)
Lemma locate_abs cwd fl f p : py_startswith p "/" = true -> locate cwd fl f p = walk 40 fl f "/" (py_split "/" p).
Proof. intros E. unfold locate. rewrite E. destruct (String.eqb_spec p "") as [->|]; [discriminate E|reflexivity]. Qed.
Lemma locate_relative cwd fl f p : p <> "" -> py_startswith p "/" = false -> locate cwd fl f p = walk 40 fl f cwd (py_split "/" p).
Proof. intros N E. unfold locate. rewrite E. now apply String.eqb_neq in N as ->. Qed.
