(** * Putting nodes into documents and finding them again *)
From Coq Require Import String Ascii ZArith NArith List Bool Lia.
From stdpp Require Import gmap strings.
From Verif Require Import Model.Py Model.Xml Spec.XmlSpec.
Import ListNotations.
Open Scope string_scope.

(** ** Paths *)
Fixpoint all (p : list string) (n : node) : list node :=
  match p with [] => [n] | t :: p => flat_map (all p) (getTagByName n t) end.

Lemma flat_map_flat_map {A B C} (f : B -> list C) (g : A -> list B) l :
  flat_map f (flat_map g l) = flat_map (fun x => flat_map f (g x)) l.
Proof. induction l as [|x l IH]; [reflexivity|]. cbn [flat_map]. now rewrite List.flat_map_app, IH. Qed.
Lemma flat_map_one {A} (l : list A) : flat_map (fun x => [x]) l = l.
Proof. induction l as [|x l IH]; [reflexivity|]. cbn. now rewrite IH. Qed.
Lemma getAllNodes_all n p : getAllNodes n p = all p n.
Proof.
  unfold getAllNodes.
  assert (K : forall l, fold_left (fun nodes tag => flat_map (fun x => getTagByName x tag) nodes) p l = flat_map (all p) l).
  { induction p as [|t p IH]; intros l; cbn [fold_left].
    - cbn [all]. symmetry. apply flat_map_one.
    - rewrite IH, flat_map_flat_map. reflexivity. }
  rewrite K. cbn. apply app_nil_r.
Qed.
Lemma all_one t n : all [t] n = getTagByName n t.
Proof. cbn [all]. apply flat_map_one. Qed.
Lemma getNode_all t n : getNode n [t] = hd_error (all [t] n).
Proof. rewrite all_one. cbn [getNode]. destruct (getTagByName n t); reflexivity. Qed.

Lemma apart_cons a b p q : apart (a :: p) (b :: q) = true <-> a <> b \/ apart p q = true.
Proof.
  unfold apart. cbn [begins_path]. rewrite !andb_true_iff, !negb_true_iff, !andb_false_iff, !String.eqb_neq.
  destruct (String.eqb_spec a b) as [->|N].
  - split; [intros [[K|K] [L|L]]; try congruence; right; auto|intros [K|[K L]]; [congruence|auto]].
  - split; [now left|]. intros _. split; left; congruence.
Qed.
Lemma apart_nil_l q : apart [] q = false.
Proof. reflexivity. Qed.
Lemma apart_nil_r q : apart q [] = false.
Proof. destruct q; reflexivity. Qed.
Lemma apart_sym p q : apart p q = apart q p.
Proof. unfold apart. apply andb_comm. Qed.

Definition is_elem (n : node) : Prop := exists t l cs, n = Elem t l cs.
Lemma all_empty p t l : p <> [] -> all p (Elem t l []) = [].
Proof. destruct p; [congruence|reflexivity]. Qed.

(** ** What encoding one member does to an element *)
Record extends (r : list string) (ws : list node) (n n' : node) : Prop := mkExtends {
  ex_elem : exists t l cs cs', n = Elem t l cs /\ n' = Elem t l cs' /\ forall x rest, cs = Data x :: rest -> exists rest', cs' = Data x :: rest';
  ex_all : all r n' = (all r n ++ ws)%list;
  ex_apart : forall p, apart p r = true -> all p n' = all p n
}.
Lemma extends_refl r n : is_elem n -> extends r [] n n.
Proof. intros (t & l & cs & ->). constructor; [|now rewrite app_nil_r|reflexivity]. exists t, l, cs, cs. eauto. Qed.
Lemma extends_trans r ws ws' n n' n'' : extends r ws n n' -> extends r ws' n' n'' -> extends r (ws ++ ws') n n''.
Proof.
  intros [(t & l & cs & cs' & -> & -> & F) A P] [(t2 & l2 & cs2 & cs2' & [= <- <- <-] & -> & F') A' P']. constructor.
  - exists t, l, cs, cs2'. split; [reflexivity|split; [reflexivity|]]. intros x rest E. destruct (F x rest E) as [r1 E1]. exact (F' x r1 E1).
  - rewrite A', A. symmetry. apply app_assoc.
  - intros p Hp. rewrite P', P; auto.
Qed.
Lemma extends_is_elem r ws n n' : extends r ws n n' -> is_elem n'.
Proof. intros [(t & l & cs & cs' & -> & -> & _) _ _]. now exists t, l, cs'. Qed.
Lemma extends_named r ws n n' tag : extends r ws n n' -> named tag n' = named tag n.
Proof. intros [(t & l & cs & cs' & -> & -> & _) _ _]. reflexivity. Qed.

Lemma named_other t t' c : named t c = true -> t' <> t -> named t' c = false.
Proof. destruct c; cbn; [|discriminate]. rewrite String.eqb_eq, String.eqb_neq. congruence. Qed.
Lemma all_app t p n l cs cs' : all (t :: p) (Elem n l (cs ++ cs')) = (all (t :: p) (Elem n l cs) ++ all (t :: p) (Elem n l cs'))%list.
Proof. cbn [all getTagByName children]. unfold getTagByName. cbn [children]. now rewrite List.filter_app, List.flat_map_app. Qed.
Lemma all_child t p n l c : all (t :: p) (Elem n l [c]) = if named t c then all p c else [].
Proof. cbn [all]. unfold getTagByName. cbn [children List.filter]. destruct (named t c); cbn; [apply app_nil_r|reflexivity]. Qed.
Lemma all_name t p n n' l l' cs : all (t :: p) (Elem n l cs) = all (t :: p) (Elem n' l' cs).
Proof. reflexivity. Qed.
Lemma all_none t p n l cs : existsb (named t) cs = false -> all (t :: p) (Elem n l cs) = [].
Proof.
  induction cs as [|c cs IH]; [reflexivity|]. cbn [existsb]. rewrite orb_false_iff. intros [A B].
  change (c :: cs) with ([c] ++ cs)%list. rewrite all_app, all_child, A, IH by exact B. reflexivity.
Qed.

(** A new child whose own changes are known *)
Lemma extends_child tag r ws n c : is_elem n -> named tag c = true -> all r c = ws -> (forall p, apart p r = true -> all p c = []) ->
  extends (tag :: r) ws n (insertNode n c).
Proof.
  intros (t & l & cs & ->) N A P. cbn [insertNode]. constructor.
  - exists t, l, cs, (cs ++ [c])%list. split; [reflexivity|split; [reflexivity|]]. intros x rest ->. now exists (rest ++ [c])%list.
  - rewrite all_app, all_child, N, A. reflexivity.
  - intros [|t' p]; [discriminate|]. rewrite apart_cons. intros H. rewrite all_app, all_child.
    destruct (String.eqb_spec t' tag) as [->|E].
    + destruct H as [H|H]; [congruence|]. rewrite N, (P p H). apply app_nil_r.
    + rewrite (named_other tag t' c N E). apply app_nil_r.
Qed.
Lemma extends_insert tag n c : is_elem n -> named tag c = true -> extends [tag] [c] n (insertNode n c).
Proof. intros E N. apply extends_child; auto. intros p. now rewrite apart_nil_r. Qed.

(** A chain of new tags *)
Lemma addTagPath_extends tags f r ws e : r <> [] -> (forall n n', is_elem n -> f n = Ok (n', e) -> extends r ws n n') ->
  forall n n', is_elem n -> addTagPath tags f n = Ok (n', e) -> extends (tags ++ r) ws n n'.
Proof.
  intros R F. induction tags as [|t tags IH]; intros n n' E; cbn [addTagPath]; [apply F, E|].
  destruct (addTagPath tags f (Elem t [] [])) as [[c e']|x] eqn:A; cbn [bind]; [|discriminate].
  cbn [fst snd]. intros [= <- ->].
  assert (K : extends (tags ++ r) ws (Elem t [] []) c) by (apply IH; [now exists t, [], []|exact A]).
  assert (NN : (tags ++ r)%list <> []) by (destruct tags; [exact R|discriminate]).
  change ((t :: tags) ++ r)%list with (t :: (tags ++ r))%list. apply extends_child; [exact E| | |].
  - rewrite (extends_named _ _ _ _ t K). cbn. apply String.eqb_refl.
  - rewrite (ex_all _ _ _ _ K), all_empty by exact NN. reflexivity.
  - intros p Hp. rewrite (ex_apart _ _ _ _ K p Hp). apply all_empty. intros ->. discriminate Hp.
Qed.

Lemma update_last_spec t f cs cs' e : existsb (named t) cs = true -> update_last t f cs = Ok (cs', e) ->
  exists l1 c c' l2, cs = (l1 ++ c :: l2)%list /\ named t c = true /\ existsb (named t) l2 = false /\ f c = Ok (c', e) /\ cs' = (l1 ++ c' :: l2)%list.
Proof.
  revert cs'. induction cs as [|x cs IH]; intros cs' H; [discriminate|]. cbn [update_last existsb] in *.
  destruct (existsb (named t) cs) eqn:E.
  - destruct (update_last t f cs) as [[l e']|ex] eqn:U; cbn [bind]; [|discriminate]. cbn [fst snd]. intros [= <- ->].
    destruct (IH l eq_refl eq_refl) as (l1 & c & c' & l2 & -> & B & C & D & ->). exists (x :: l1), c, c', l2. auto.
  - rewrite orb_false_r in H. rewrite H. destruct (f x) as [[y e']|ex] eqn:U; cbn [bind]; [|discriminate]. cbn [fst snd]. intros [= <- ->].
    exists [], x, y, cs. auto.
Qed.

Lemma addNode_extends tags f r ws e : r <> [] -> (forall n n', is_elem n -> f n = Ok (n', e) -> extends r ws n n') ->
  forall n n', is_elem n -> addNode tags f n = Ok (n', e) -> extends (tags ++ r) ws n n'.
Proof.
  intros R F. induction tags as [|t tags IH]; intros n n' E; cbn [addNode]; [apply F, E|].
  destruct (existsb (named t) (children n)) eqn:X; [|now apply addTagPath_extends].
  destruct E as (nm & l & cs & ->). cbn [children] in X.
  destruct (update_last t (addNode tags f) cs) as [[cs' e']|ex] eqn:U; cbn [bind]; [|discriminate]. cbn [fst snd]. intros [= <- ->].
  destruct (update_last_spec _ _ _ _ _ X U) as (l1 & c & c' & l2 & -> & N & L & A & ->).
  assert (Ec : is_elem c) by (destruct c; [now exists name, attrs, children|discriminate N]).
  pose proof (IH c c' Ec A) as K. change ((t :: tags) ++ r)%list with (t :: (tags ++ r))%list.
  assert (N' : named t c' = true) by (rewrite (extends_named _ _ _ _ t K); exact N).
  constructor.
  - exists nm, l, (l1 ++ c :: l2)%list, (l1 ++ c' :: l2)%list. split; [reflexivity|split; [reflexivity|]].
    intros x rest. destruct l1 as [|y l1]; cbn [app].
    + intros [= -> _]. discriminate N.
    + intros [= -> _]. now exists (l1 ++ c' :: l2)%list.
  - change (c' :: l2) with ([c'] ++ l2)%list. change (c :: l2) with ([c] ++ l2)%list. rewrite !all_app, !all_child, N, N', (ex_all _ _ _ _ K).
    rewrite !(all_none t (tags ++ r) nm l l2 L), !app_nil_r. apply app_assoc.
  - intros [|t' p]; [discriminate|]. rewrite apart_cons. intros H.
    change (c' :: l2) with ([c'] ++ l2)%list. change (c :: l2) with ([c] ++ l2)%list. rewrite !all_app, !all_child.
    destruct (String.eqb_spec t' t) as [->|Ne].
    + destruct H as [H|H]; [congruence|]. now rewrite N, N', (ex_apart _ _ _ _ K p H).
    + now rewrite (named_other t t' c N Ne), (named_other t t' c' N' Ne).
Qed.
