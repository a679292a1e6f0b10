(** * What is read can be written; what is complete can be written *)
From Coq Require Import String Ascii ZArith NArith List Bool Lia.
From stdpp Require Import gmap strings.
From Verif Require Import Model.Py Model.Xml Spec.XmlSpec Proof.PyFacts Proof.PathFacts Proof.XmlText Proof.XmlTree Proof.XmlRound Proof.XmlMain.
Import ListNotations.
Open Scope string_scope.

Definition member_complete (fields : list (string * value)) (m : member typ) : Prop :=
  let x := field fields (member_name m) in
  match m with
  | Attr _ _ mandatory | Str _ _ mandatory => mandatory = true -> x <> VNone
  | Tag _ t mandatory _ => (mandatory = true -> present t x) /\ complete t x
  end.
Lemma complete_each fields ms :
  (fix each (ms : list (member typ)) : Prop :=
     match ms with
     | [] => True
     | m :: ms =>
         (let x := field fields (member_name m) in
          match m with
          | Attr _ _ mandatory | Str _ _ mandatory => mandatory = true -> x <> VNone
          | Tag _ t mandatory _ => (mandatory = true -> present t x) /\ complete t x
          end) /\ each ms
     end) ms <-> (forall m, In m ms -> member_complete fields m).
Proof.
  induction ms as [|m ms IH]; [split; [intros _ m []|auto]|]. rewrite IH. cbn [In]. split.
  - intros [A B] x [<-|X]; [|exact (B x X)]. exact A.
  - intros H. split; [|intros x X; apply H; now right]. exact (H m (or_introl eq_refl)).
Qed.

(** ** Writing *)
Lemma addTagPath_ok tags f n : (forall m, exists m', f m = Ok (m', [])) -> exists n', addTagPath tags f n = Ok (n', []).
Proof.
  intros F. revert n. induction tags as [|t tags IH]; intros n; cbn [addTagPath]; [apply F|].
  destruct (IH (Elem t [] [])) as [c ->]. cbn [bind fst snd]. eauto.
Qed.
Lemma update_last_ok t f cs : (forall m, exists m', f m = Ok (m', [])) -> exists cs', update_last t f cs = Ok (cs', []).
Proof.
  intros F. induction cs as [|c cs IH]; cbn [update_last]; [eauto|]. destruct (existsb (named t) cs).
  - destruct IH as [cs' ->]. cbn. eauto.
  - destruct (named t c); [|eauto]. destruct (F c) as [c' ->]. cbn. eauto.
Qed.
Lemma addNode_ok tags f n : (forall m, exists m', f m = Ok (m', [])) -> exists n', addNode tags f n = Ok (n', []).
Proof.
  intros F. revert n. induction tags as [|t tags IH]; intros n; cbn [addNode]; [apply F|].
  destruct (existsb (named t) (children n)); [|now apply addTagPath_ok]. destruct n as [nm l cs|x]; [|eauto].
  destruct (update_last_ok t (addNode tags f) cs IH) as [cs' ->]. cbn. eauto.
Qed.
Lemma encode_local_ok tag d ks n : local_text d -> (forall k, In k ks -> is_Some (d !! k)) -> exists n', encode_local tag d ks n = Ok (n', []).
Proof.
  intros L. revert n. induction ks as [|k ks IH]; intros n K; cbn [encode_local]; [eauto|].
  destruct (K k (or_introl eq_refl)) as [c D]. destruct (L k c D) as (_ & t & -> & _). rewrite D. apply IH. intros k' K'. apply K. now right.
Qed.
Lemma simple_basic_ok token mandatory w v n b : simple b v -> (mandatory = true -> v <> VNone) -> exists n', encode_basic token mandatory w v n = Ok (n', []).
Proof.
  intros S M. unfold encode_basic. destruct (truth v) eqn:T.
  - destruct (simple_encodes b v S T) as (t & -> & _). cbn. eauto.
  - pose proof (simple_falsy b v S T) as ->. destruct mandatory; [destruct (M eq_refl eq_refl)|eauto].
Qed.
Lemma simple_attr_ok token mandatory w v n b : simple_attr b v -> (mandatory = true -> v <> VNone) -> exists n', encode_basic token mandatory w v n = Ok (n', []).
Proof.
  intros S M. unfold encode_basic. destruct (truth v) eqn:T.
  - destruct (simple_attr_encodes b v S T) as (t & -> & _). cbn. eauto.
  - pose proof (simple_attr_falsy b v S T) as ->. destruct mandatory; [destruct (M eq_refl eq_refl)|eauto].
Qed.
Lemma then_runs r f : (exists n, r = Ok (n, [])) -> (forall n, exists n', f n = Ok (n', [])) -> exists n', then_ r f = Ok (n', []).
Proof. intros [n ->] F. unfold then_. cbn [bind fst snd]. destruct (F n) as [n' ->]. cbn. eauto. Qed.
Lemma encode_members_ok keys fields ms n :
  (forall m, In m ms -> forall n, exists n', encode_member keys fields m n = Ok (n', [])) -> exists n', encode_members keys fields ms n = Ok (n', []).
Proof.
  revert n. induction ms as [|m ms IH]; intros n H; cbn [encode_members]; [eauto|].
  apply then_runs; [apply H; now left|]. intros n1. apply IH. intros x X. apply H. now right.
Qed.
Lemma present_item t v : is_item t -> v <> VNone -> present t v.
Proof. destruct t; try contradiction; intros _ H; exact H. Qed.

Theorem complete_encodes keys : any_order keys -> forall t, well_formed t = true -> forall token mandatory path v n,
  carried t v -> complete t v -> (mandatory = true -> present t v) -> exists n', encode_tag keys t token mandatory path v n = Ok (n', []).
Proof.
  intros O. refine (typ_induct _ _ _ _ _).
  - intros b _ token mandatory path v n C _ M. cbn [encode_tag]. apply (simple_basic_ok token mandatory _ v n b C M).
  - intros _ token mandatory path v n (d & -> & L) _ M. cbn [encode_tag]. destruct (truth (VLocal d)) eqn:T.
    + apply encode_local_ok; [exact L|]. intros k K. now apply (O d).
    + destruct mandatory; [|eauto]. destruct (M eq_refl) as (d' & [= <-] & N). cbn [truth] in T. apply negb_false_iff, bool_decide_eq_true in T. contradiction.
  - intros tag ms h IH WF token mandatory path v n C Cm M. cbn [well_formed] in WF. apply andb_true_iff in WF as [WF _].
    cbn [carried] in C. destruct C as [->|(fields & -> & N & R & C)].
    + cbn [encode_tag]. destruct mandatory; [destruct (M eq_refl eq_refl)|eauto].
    + pose proof (proj1 (carried_each fields ms) C) as C0. pose proof (proj1 (complete_each fields ms) Cm) as K0.
      rewrite encode_object_eq. destruct (encode_members_ok keys fields ms (Elem token [] [])) as [c ->]; [|cbn; eauto].
      intros m Hm n0. specialize (C0 m Hm). specialize (K0 m Hm). destruct m as [k b x|k b x|k t x p]; unfold encode_member; cbn [member_carried] in C0; unfold member_complete in K0.
      * exact (simple_attr_ok _ _ _ _ _ _ C0 K0).
      * exact (simple_basic_ok _ _ _ _ _ _ C0 K0).
      * rewrite List.Forall_forall in IH. pose proof (IH _ Hm) as I. cbn [member_all] in I. rewrite forallb_forall in WF. pose proof (WF _ Hm) as F. cbn beta iota in F.
        apply andb_true_iff in F as [F1 F2]. apply (I F1); [exact C0|apply K0|apply K0].
  - intros t IH WF token mandatory path v n (l & -> & C) Cm M. cbn [well_formed] in WF.
    assert (It : is_item t) by (destruct t; try discriminate; exact Logic.I).
    assert (WFt : well_formed t = true) by (destruct t; try discriminate; exact WF).
    destruct l as [|x l].
    + cbn [encode_tag]. destruct mandatory; [|eauto]. destruct (M eq_refl) as (l & [= <-] & N). congruence.
    + rewrite encode_list_eq. cbn [complete] in Cm. clear M. revert n. generalize dependent (x :: l). clear x l. intros l C Cm.
      induction l as [|x l IHl]; intros n; cbn [encode_items]; [eauto|]. inversion C; subst. inversion Cm as [|? ? [Nx Cx] ?]; subst.
      assert (It2 : forall m, exists m', encode_tag keys t (List.last (list_path token t path) "") true None x m = Ok (m', [])).
      { intros m. apply (IH WFt); [assumption|exact Cx|]. intros _. now apply present_item. }
      apply then_runs; [|intros n1; now apply IHl]. destruct (String.eqb _ ""); [apply It2|now apply addNode_ok].
Qed.

Theorem complete_object_encodes keys t o n : any_order keys -> well_formed t = true -> carried_object t o -> complete_object t o ->
  exists n', encode keys t o n = Ok (n', []).
Proof.
  intros O WF C Cm. destruct t as [| |tg ms h|].
  - cbn in C. destruct b; contradiction.
  - destruct C as (d & D & _). discriminate D.
  - unfold encode. cbn [members_of]. cbn [well_formed] in WF. apply andb_true_iff in WF as [WF _].
    destruct C as [C|(fields & [= <-] & N & R & C)]; [discriminate C|].
    pose proof (proj1 (carried_each o ms) C) as C0. pose proof (proj1 (complete_each o ms) Cm) as K0. apply encode_members_ok. intros m Hm n0.
    specialize (C0 m Hm). specialize (K0 m Hm). destruct m as [k b x|k b x|k t x p]; unfold encode_member; cbn [member_carried] in C0; unfold member_complete in K0.
    + exact (simple_attr_ok _ _ _ _ _ _ C0 K0).
    + exact (simple_basic_ok _ _ _ _ _ _ C0 K0).
    + rewrite forallb_forall in WF. pose proof (WF _ Hm) as F. cbn beta iota in F. apply andb_true_iff in F as [F1 F2].
      apply complete_encodes; [exact O|exact F1|exact C0|apply K0|apply K0].
  - destruct C as (l & L & _). discriminate L.
Qed.

(** ** Reading *)
Lemma from_text_simple b t v : trimmed t -> from_text b t = Some v -> ~ zero_inside v -> simple b v /\ v <> VNone.
Proof.
  intros T. destruct b; cbn [from_text].
  - destruct (ascii_encode t) as [s|] eqn:E; [|discriminate]. intros [= <-] _. apply ascii_encode_some in E as [A <-]. cbn. now split.
  - intros [= <-] _. cbn. now split.
  - destruct (ascii_encode t) as [s|]; [|discriminate]. destruct (py_int s) as [z|]; [|discriminate]. intros [= <-] Z. cbn. split; [|discriminate]. intros ->. apply Z. constructor.
  - destruct (ascii_encode t) as [s|]; [|discriminate]. destruct (py_int s) as [z|]; [|discriminate]. intros [= <-] Z. cbn. split; [|discriminate]. intros ->. apply Z. constructor.
Qed.
Lemma from_text_simple_attr b t v : t <> [] -> from_text b t = Some v -> ~ zero_inside v -> simple_attr b v /\ v <> VNone.
Proof.
  intros T. destruct b; cbn [from_text].
  - destruct (ascii_encode t) as [s|] eqn:E; [|discriminate]. intros [= <-] _. apply ascii_encode_some in E as [A <-]. cbn. split; [|discriminate]. split; [exact A|]. now rewrite codes_nil in T.
  - intros [= <-] _. cbn. now split.
  - destruct (ascii_encode t) as [s|]; [|discriminate]. destruct (py_int s) as [z|]; [|discriminate]. intros [= <-] Z. cbn. split; [|discriminate]. intros ->. apply Z. constructor.
  - destruct (ascii_encode t) as [s|]; [|discriminate]. destruct (py_int s) as [z|]; [|discriminate]. intros [= <-] Z. cbn. split; [|discriminate]. intros ->. apply Z. constructor.
Qed.
Lemma decode_basic_simple token b mandatory text v : (forall t, text = Some t -> t = [] \/ trimmed t) ->
  decode_basic token b mandatory text = (v, []) -> ~ zero_inside v -> simple b v /\ (mandatory = true -> v <> VNone).
Proof.
  intros T. unfold decode_basic. destruct text as [[|c t]|].
  - intros [= <- M]. split; [destruct b; exact Logic.I|]. intros ->. discriminate M.
  - destruct (from_text b (c :: t)) as [w|] eqn:F; [|discriminate]. intros [= <-] Z.
    destruct (T _ eq_refl) as [X|X]; [discriminate X|]. destruct (from_text_simple b _ w X F Z). auto.
  - intros [= <- M]. split; [destruct b; exact Logic.I|]. intros ->. discriminate M.
Qed.
Lemma decode_basic_attr token b mandatory text v :
  decode_basic token b mandatory text = (v, []) -> ~ zero_inside v -> simple_attr b v /\ (mandatory = true -> v <> VNone).
Proof.
  unfold decode_basic. destruct text as [[|c t]|].
  - intros [= <- M]. split; [destruct b; exact Logic.I|]. intros ->. discriminate M.
  - destruct (from_text b (c :: t)) as [w|] eqn:F; [|discriminate]. intros [= <-] Z.
    assert (X : c :: t <> []) by discriminate. destruct (from_text_simple_attr b _ w X F Z). auto.
  - intros [= <- M]. split; [destruct b; exact Logic.I|]. intros ->. discriminate M.
Qed.
Lemma getNodeText_trimmed n text : getNodeText n = Ok text -> forall t, text = Some t -> t = [] \/ trimmed t.
Proof.
  unfold getNodeText. destruct (children n) as [|[? ? ?|x] l]; [intros [= <-]; discriminate|discriminate|]. intros [= <-] t [= <-].
  destruct (ustrip x) eqn:E; [now left|]. right. rewrite <- E. apply ustrip_result. congruence.
Qed.
Lemma decode_local_text tag nodes d r : local_text d -> decode_local tag nodes d = Ok (r, []) -> local_text r /\ (d <> ∅ \/ nodes <> [] -> r <> ∅).
Proof.
  revert d. induction nodes as [|n nodes IH]; intros d L; cbn [decode_local].
  - intros [= <-]. split; [exact L|]. intros [H|H]; [exact H|congruence].
  - destruct (getNodeText n) as [c|] eqn:G; cbn [bind]; [|discriminate].
    set (lang := match getNodeAttribute n "xml:lang" with Some ((_ :: _) as t) => t | _ => [101; 110]%N end).
    destruct (decode_local tag nodes (<[lang:=c]> d)) as [[r0 e]|] eqn:D; cbn [bind fst snd]; [|discriminate]. intros [= -> E].
    apply app_eq_nil in E as [E ->]. destruct c as [[|x t]|]; try discriminate E.
    destruct (IH (<[lang:=Some (x :: t)]> d)) as [A B]; [|exact D|].
    + intros k c. destruct (decide (k = lang)) as [->|N].
      * rewrite lookup_insert. intros [= <-]. split.
        -- unfold lang. destruct (getNodeAttribute n "xml:lang") as [[|]|]; discriminate.
        -- exists (x :: t). split; [reflexivity|]. destruct (getNodeText_trimmed n _ G _ eq_refl) as [X|X]; [discriminate X|exact X].
      * rewrite lookup_insert_ne by congruence. apply L.
    + split; [exact A|]. intros _. apply B. left. apply insert_non_empty.
Qed.

Definition decoded (n : node) (m : member typ) : value := match decode_member n m with Ok (v, _) => v | _ => VNone end.
Lemma decode_members_each n ms acc fields : decode_members n ms acc = Ok (fields, []) ->
  (forall m, In m ms -> decode_member n m = Ok (decoded n m, [])) /\
  fields = fold_left (fun acc m => assign (member_name m) (decoded n m) acc) ms acc.
Proof.
  revert acc. induction ms as [|m ms IH]; intros acc; cbn [decode_members fold_left]; [intros [= <-]; split; [intros m []|reflexivity]|].
  destruct (decode_member n m) as [[v e]|] eqn:D; cbn [bind fst snd]; [|discriminate].
  destruct (decode_members n ms (assign (member_name m) v acc)) as [[r e']|] eqn:R; cbn [bind fst snd]; [|discriminate].
  intros [= -> E]. apply app_eq_nil in E as [-> ->]. destruct (IH _ R) as [A B].
  assert (V : decoded n m = v) by (unfold decoded; now rewrite D). split.
  - intros x [<-|X]; [now rewrite V, D|exact (A x X)].
  - now rewrite V.
Qed.
Lemma assign_fst {A} k (v : A) l : map fst (assign k v l) = add_name (map fst l) k.
Proof.
  unfold add_name. induction l as [|[x w] l IH]; [reflexivity|]. cbn [assign map fst existsb]. rewrite (String.eqb_sym k x).
  destruct (String.eqb_spec x k) as [->|N]; cbn [map fst orb]; [reflexivity|]. rewrite IH. now destruct (existsb (String.eqb k) (map fst l)).
Qed.
Lemma fold_assign_names {A} (f : member typ -> A) ms acc :
  map fst (fold_left (fun acc m => assign (member_name m) (f m) acc) ms acc) = fold_left add_name (map member_name ms) (map fst acc).
Proof. revert acc. induction ms as [|m ms IH]; intros acc; [reflexivity|]. cbn [fold_left map]. now rewrite IH, assign_fst. Qed.
Lemma fold_assign_field {A} (f : member typ -> A) ms acc m : (forall x, In x ms -> member_name x = member_name m -> f x = f m) ->
  In m ms \/ assoc (member_name m) acc = Some (f m) ->
  assoc (member_name m) (fold_left (fun acc m => assign (member_name m) (f m) acc) ms acc) = Some (f m).
Proof.
  revert acc. induction ms as [|x ms IH]; intros acc K H; cbn [fold_left].
  - destruct H as [[]|H]. exact H.
  - apply IH; [intros y Y; apply K; now right|]. rewrite assoc_assign. destruct (String.eqb_spec (member_name x) (member_name m)) as [E|N].
    + right. f_equal. apply K; [now left|exact E].
    + destruct H as [[->|H]|H]; [congruence|now left|now right].
Qed.
Lemma again_decoded n a b : again a b = true -> decoded n a = decoded n b.
Proof.
  intros A. destruct a as [| |k [x| | |] mandatory p], b as [| |k' [y| | |] mandatory' p']; cbn in A; try discriminate.
  apply andb_true_iff in A as [A B]. apply String.eqb_eq in A. subst k'. assert (x = y) by (destruct x, y; cbn in B; congruence). subst y.
  unfold decoded, decode_member. cbn [decode_tag]. destruct (text_of (getNode n [k])) as [text|]; cbn [bind]; [|reflexivity].
  unfold decode_basic. destruct text as [[|]|]; [reflexivity| |reflexivity]. now destruct (from_text x _).
Qed.
Lemma same_name_decoded n ms a b : pairs_ok ms = true -> In a ms -> In b ms -> member_name a = member_name b -> decoded n a = decoded n b.
Proof.
  induction ms as [|m ms IH]; [intros _ []|]. cbn [pairs_ok]. rewrite andb_true_iff. intros [P Q] A B E. rewrite forallb_forall in P.
  assert (K : forall x, In x ms -> member_name m = member_name x -> decoded n m = decoded n x).
  { intros x X N. specialize (P x X). unfold pair_ok in P. apply orb_true_iff in P as [P|P]; [now apply again_decoded|].
    apply andb_true_iff in P as [P _]. apply negb_true_iff, String.eqb_neq in P. contradiction. }
  destruct A as [<-|A], B as [<-|B]; [reflexivity|now apply K|symmetry; now apply K|now apply IH].
Qed.
Lemma field_value n ms fields m : pairs_ok ms = true -> decode_members n ms [] = Ok (fields, []) -> In m ms -> field fields (member_name m) = decoded n m.
Proof.
  intros P D M. destruct (decode_members_each _ _ _ _ D) as [_ ->]. unfold field. rewrite fold_assign_field; [reflexivity| |now left].
  intros x X E. now apply (same_name_decoded n ms).
Qed.
Lemma assoc_in {A} k (v : A) l : assoc k l = Some v -> In (k, v) l.
Proof. induction l as [|[x w] l IH]; [discriminate|]. cbn [assoc]. destruct (String.eqb_spec x k) as [->|]; [intros [= ->]; now left|]. intros H. right. auto. Qed.
Lemma field_no_zero fields k : ~ zero_inside (VObj fields) -> ~ zero_inside (field fields k).
Proof.
  intros Z. unfold field. destruct (assoc k fields) as [v|] eqn:A; [|intros H; inversion H]. intros H. apply Z. apply assoc_in in A. exact (zero_field k v fields A H).
Qed.
Lemma hook_ready h fields : run_hook h fields = Ok tt -> ready h fields.
Proof.
  destruct h; cbn; [trivial| |].
  - destruct (assoc "history" fields) as [[]|]; try discriminate. destruct l; [discriminate|]. eauto.
  - destruct (assoc "uri" fields) as [[]|]; try discriminate. eauto.
Qed.

Lemma members_read ms h n fields : pairs_ok ms = true ->
  (forall m, In m ms -> match m with
     | Tag k t _ _ => forall mandatory path n v, decode_tag t k mandatory path n = Ok (v, []) -> ~ zero_inside v ->
         carried t v /\ complete t v /\ (mandatory = true -> present t v)
     | _ => True end) ->
  decode_members n ms [] = Ok (fields, []) -> run_hook h fields = Ok tt -> ~ zero_inside (VObj fields) ->
  map fst fields = names_of ms /\ ready h fields /\ (forall m, In m ms -> member_carried fields m /\ member_complete fields m).
Proof.
  intros P IH D H Z. destruct (decode_members_each _ _ _ _ D) as [E F]. split; [rewrite F; apply fold_assign_names|].
  split; [now apply hook_ready|]. intros m M. pose proof (field_no_zero fields (member_name m) Z) as Zm. specialize (IH m M). specialize (E m M).
  unfold member_complete. cbn zeta. pose proof (field_value n ms fields m P D M) as V.
  revert E V. generalize (decoded n m). intros d E V. rewrite V in *.
  destruct m as [k b x|k b x|k t x p]; cbn [member_carried]; rewrite V; unfold decode_member in E.
  - injection E as E. destruct (decode_basic k b x (getNodeAttribute n k)) as [v e] eqn:Q. injection E as <- ->. exact (decode_basic_attr _ _ _ _ _ Q Zm).
  - destruct (getNodeText n) as [text|] eqn:G; cbn [bind] in E; [|discriminate E]. injection E as E.
    destruct (decode_basic k b x text) as [v e] eqn:Q. injection E as <- ->. exact (decode_basic_simple _ _ _ _ _ (getNodeText_trimmed n text G) Q Zm).
  - destruct (IH x p n _ E Zm) as (A & B & C). auto.
Qed.

Theorem read_carried : forall t, well_formed t = true -> forall token mandatory path n v,
  decode_tag t token mandatory path n = Ok (v, []) -> ~ zero_inside v -> carried t v /\ complete t v /\ (mandatory = true -> present t v).
Proof.
  refine (typ_induct _ _ _ _ _).
  - intros b _ token mandatory path n v. cbn [decode_tag]. destruct (text_of (getNode n [token])) as [text|] eqn:G; cbn [bind]; [|discriminate].
    intros [= E] Z. destruct (decode_basic token b mandatory text) as [w e] eqn:Q. injection E as -> ->.
    destruct (decode_basic_simple token b mandatory text v) as [A B]; [|exact Q|exact Z|].
    + unfold text_of in G. destruct (getNode n [token]) as [c|]; [exact (getNodeText_trimmed c text G)|]. injection G as <-. discriminate.
    + split; [exact A|]. split; [exact Logic.I|exact B].
  - intros _ token mandatory path n v. cbn [decode_tag]. destruct (getAllNodes n [token]) as [|c l] eqn:G.
    + intros [= <- M] _. split; [exists ∅; split; [reflexivity|]; intros k c; rewrite lookup_empty; discriminate|]. split; [exact Logic.I|]. intros ->. discriminate M.
    + destruct (decode_local token (c :: l) ∅) as [[r e]|] eqn:D; cbn [bind fst snd]; [|discriminate]. intros [= <- ->] _.
      destruct (decode_local_text token (c :: l) ∅ r) as [A B]; [intros k x; rewrite lookup_empty; discriminate|exact D|].
      split; [now exists r|]. split; [exact Logic.I|]. intros _. exists r. split; [reflexivity|]. apply B. right. discriminate.
  - intros tag ms h IH WF token mandatory path n v. cbn [well_formed] in WF. apply andb_true_iff in WF as [WF P].
    rewrite decode_object_eq. destruct (getNode n [token]) as [c|].
    + destruct (decode_members c ms []) as [[fields e]|] eqn:D; cbn [bind fst snd]; [|discriminate].
      destruct (run_hook h fields) as [[]|] eqn:H; cbn [bind]; [|discriminate]. intros [= <- ->] Z.
      destruct (members_read ms h c fields P) as (N & R & A); [|exact D|exact H|exact Z|].
      * intros m M. destruct m as [| |k t x p]; [exact Logic.I..|]. rewrite List.Forall_forall in IH. pose proof (IH _ M) as I. cbn [member_all] in I.
        rewrite forallb_forall in WF. pose proof (WF _ M) as F. cbn beta iota in F. apply andb_true_iff in F as [F1 F2]. intros y q n0 v Hv Zv. exact (I F1 k y q n0 v Hv Zv).
      * split; [|split].
        -- right. exists fields. split; [reflexivity|]. split; [exact N|]. split; [exact R|]. apply (proj2 (carried_each fields ms)). intros m M. apply A, M.
        -- apply (proj2 (complete_each fields ms)). intros m M. apply A, M.
        -- intros _. discriminate.
    + intros [= <- M] _. split; [now left|]. split; [exact Logic.I|]. intros ->. discriminate M.
  - intros t IH WF token mandatory path n v. cbn [well_formed] in WF.
    assert (It : is_item t) by (destruct t; try discriminate; exact Logic.I).
    assert (WFt : well_formed t = true) by (destruct t; try discriminate; exact WF).
    rewrite decode_list_eq. cbn zeta. generalize (getAllNodes n (list_path token t path)). generalize (List.last (list_path token t path) ""). intros tok nodes.
    destruct (decode_items t tok nodes) as [[l e]|] eqn:D; cbn [bind fst snd]; [|discriminate]. intros [= <- E] Z. apply app_eq_nil in E as [E ->].
    assert (K : Forall (fun x => carried t x /\ x <> VNone /\ complete t x) l /\ (nodes <> [] -> l <> [])).
    { clear E. revert l D Z. induction nodes as [|x nodes IHn]; intros l; cbn [decode_items]; [intros [= <-]; split; [constructor|congruence]|].
      destruct (decode_tag t tok true None (insertNode (Elem "Dummy" [] []) x)) as [[w e]|] eqn:W; cbn [bind fst snd]; [|discriminate].
      destruct (decode_items t tok nodes) as [[l0 e0]|] eqn:D; cbn [bind fst snd]; [|discriminate]. intros [= <- E] Z. apply app_eq_nil in E as [-> ->].
      split; [|discriminate]. constructor.
      - destruct (IH WFt tok true None _ w W) as (A & B & C); [intros Zw; apply Z; apply (zero_item w); [now left|exact Zw]|].
        split; [exact A|]. split; [|exact B]. specialize (C eq_refl). destruct t; try contradiction; exact C.
      - apply (IHn l0 eq_refl). intros Zl. apply Z. inversion Zl; subst. eapply zero_item; [right; eassumption|assumption]. }
    destruct K as [K Ne]. split; [|split].
    + exists l. split; [reflexivity|]. eapply List.Forall_impl; [|exact K]. cbn beta. tauto.
    + cbn [complete]. eapply List.Forall_impl; [|exact K]. cbn beta. tauto.
    + intros ->. exists l. split; [reflexivity|]. apply Ne. intros ->. discriminate E.
Qed.

Theorem read_object tag ms h n o : well_formed (Object tag ms h) = true -> decode (Object tag ms h) n = Ok (o, []) -> ~ zero_inside (VObj o) ->
  carried_object (Object tag ms h) o /\ complete_object (Object tag ms h) o.
Proof.
  intros WF D Z. unfold decode in D. cbn [members_of hook_of] in D. cbn [well_formed] in WF. apply andb_true_iff in WF as [WF P].
  destruct (decode_members n ms []) as [[fields e]|] eqn:Q; cbn [bind fst snd] in D; [|discriminate D].
  destruct (run_hook h fields) as [[]|] eqn:H; cbn [bind] in D; [|discriminate D]. injection D as -> ->.
  destruct (members_read ms h n o P) as (N & R & A); [|exact Q|exact H|exact Z|].
  - intros m M. destruct m as [| |k t x p]; [exact Logic.I..|]. rewrite forallb_forall in WF. pose proof (WF _ M) as F. cbn beta iota in F. apply andb_true_iff in F as [F1 F2].
    intros y q n0 v Hv Zv. exact (read_carried t F1 k y q n0 v Hv Zv).
  - split.
    + right. exists o. split; [reflexivity|]. split; [exact N|]. split; [exact R|]. apply (proj2 (carried_each o ms)). intros m M. apply A, M.
    + apply (proj2 (complete_each o ms)). intros m M. apply A, M.
Qed.

(** Reading, writing and reading again *)
Theorem reread keys tag ms h n o root : any_order keys -> well_formed (Object tag ms h) = true ->
  decode (Object tag ms h) n = Ok (o, []) -> ~ zero_inside (VObj o) ->
  exists n', encode keys (Object tag ms h) o (Elem root [] []) = Ok (n', []) /\ decode (Object tag ms h) n' = Ok (o, []).
Proof.
  intros O WF D Z. destruct (read_object tag ms h n o WF D Z) as [C Cm].
  destruct (complete_object_encodes keys (Object tag ms h) o (Elem root [] []) O WF C Cm) as [n' E]. exists n'. split; [exact E|].
  exact (object_round_trip keys _ o root n' O WF C E).
Qed.
