(** * Decoding what was encoded: objects *)
From Coq Require Import String Ascii ZArith NArith List Bool Lia.
From stdpp Require Import gmap strings.
From Verif Require Import Model.Py Model.Xml Spec.XmlSpec Proof.PyFacts Proof.PathFacts Proof.XmlText Proof.XmlTree Proof.XmlRound.
Import ListNotations.
Open Scope string_scope.

Section members.
  Variable keys : gmap utext (option utext) -> list utext.
  Variable fields : list (string * value).
  Notation val m := (field fields (member_name m)).

  Definition member_carried (m : member typ) : Prop :=
    match m with
    | Attr _ b _ => simple_attr b (val m)
    | Str _ b _ => simple b (val m)
    | Tag _ t _ _ => carried t (val m)
    end.
  Definition can_write (m : member typ) : Prop :=
    match m with Tag k t _ p => exists ws, writes keys t k p (val m) ws | _ => True end.
  Definition untouched (m : member typ) (n : node) : Prop :=
    match m with
    | Attr k _ _ => assoc k (attrs n) = None
    | Str _ _ _ => children n = []
    | Tag k t _ p => all (comps_of k t p) n = []
    end.
  Definition shows (m : member typ) (n : node) : Prop :=
    match m with
    | Attr k b _ =>
        (truth (val m) = true -> exists t, assoc k (attrs n) = Some t /\ t <> [] /\ from_text b t = Some (val m)) /\
        (truth (val m) = false -> assoc k (attrs n) = None)
    | Str _ b mandatory =>
        (truth (val m) = true -> exists t rest, children n = Data t :: rest /\ trimmed t /\ from_text b t = Some (val m)) /\
        (truth (val m) = false -> children n = [] /\ mandatory = false)
    | Tag k t _ p => exists ws, writes keys t k p (val m) ws /\ view t (all (comps_of k t p) n) = view t ws
    end.
  Definition settled (m : member typ) : Prop :=
    match m with
    | Attr _ _ mandatory | Str _ _ mandatory => mandatory = true -> truth (val m) = true
    | Tag k t mandatory p => encodes keys t k mandatory p (val m)
    end.
  Definition status (m : member typ) (n : node) : Prop :=
    untouched m n \/ (match m with Tag _ (Basic _) _ _ => True | _ => False end /\ shows m n).

  Lemma assoc_assign {A} k k' (v : A) l : assoc k (assign k' v l) = if String.eqb k' k then Some v else assoc k l.
  Proof.
    induction l as [|[x w] l IH]; cbn [assign assoc]; [reflexivity|].
    destruct (String.eqb_spec x k') as [->|N]; cbn [assoc].
    - destruct (String.eqb_spec k' k); reflexivity.
    - rewrite IH. destruct (String.eqb_spec x k) as [->|N2]; [|reflexivity]. destruct (String.eqb_spec k' k); [congruence|reflexivity].
  Qed.

  Lemma encode_attr token mandatory n n' v b : simple_attr b v ->
    encode_basic token mandatory (fun t n => setNodeAttribute n token t) v n = Ok (n', []) ->
    (mandatory = true -> truth v = true) /\
    ((truth v = true /\ exists t, n' = setNodeAttribute n token t /\ t <> [] /\ from_text b t = Some v) \/ (truth v = false /\ n' = n)).
  Proof.
    intros S. unfold encode_basic. destruct (truth v) eqn:T.
    - destruct (simple_attr_encodes b v S T) as (t & U & R & F). rewrite U. cbn [bind]. intros [= <-]. split; [auto|]. left. eauto.
    - intros [= <- M]. split; [|auto]. intros ->. discriminate M.
  Qed.
  Lemma encode_str token mandatory n n' v b : simple b v ->
    encode_basic token mandatory (fun t n => addText n t) v n = Ok (n', []) ->
    (mandatory = true -> truth v = true) /\
    ((truth v = true /\ exists t, n' = addText n t /\ trimmed t /\ from_text b t = Some v) \/ (truth v = false /\ n' = n)).
  Proof.
    intros S. unfold encode_basic. destruct (truth v) eqn:T.
    - destruct (simple_encodes b v S T) as (t & U & R & F). rewrite U. cbn [bind]. intros [= <-]. split; [auto|]. left. eauto.
    - intros [= <- M]. split; [|auto]. intros ->. discriminate M.
  Qed.
  Lemma all_setattr p n k t : p <> [] -> is_elem n -> all p (setNodeAttribute n k t) = all p n.
  Proof. intros P (nm & l & cs & ->). destruct p; [congruence|reflexivity]. Qed.
  Lemma all_addtext p n t : p <> [] -> is_elem n -> all p (addText n t) = all p n.
  Proof. intros P (nm & l & cs & ->). destruct p; [congruence|]. unfold addText. cbn [insertNode]. rewrite all_app, all_child. apply app_nil_r. Qed.
  Lemma comps_nonempty k t p : comps_of k t p <> [].
  Proof.
    destruct t; cbn [comps_of]; try discriminate. unfold list_path. destruct p; [apply split_nonempty|]. destruct t; apply split_nonempty.
  Qed.

  (** What encoding one member leaves alone *)
  Lemma member_frame m n n' : is_elem n -> member_carried m -> can_write m -> encode_member keys fields m n = Ok (n', []) ->
    is_elem n' /\ settled m /\
    match m with
    | Attr k _ _ => children n' = children n /\ (forall p, p <> [] -> all p n' = all p n) /\ (forall k', k' <> k -> assoc k' (attrs n') = assoc k' (attrs n))
    | Str _ _ _ => attrs n' = attrs n /\ (forall p, p <> [] -> all p n' = all p n)
    | Tag k t _ p => attrs n' = attrs n /\ (forall q, apart q (comps_of k t p) = true -> all q n' = all q n) /\
        (forall x rest, children n = Data x :: rest -> exists rest', children n' = Data x :: rest')
    end.
  Proof.
    intros E C W H. destruct m as [k b mandatory|k b mandatory|k t mandatory p]; unfold encode_member in H.
    - apply (encode_attr _ _ _ _ _ b C) in H as [M [(T & t & -> & _)|(T & ->)]].
      + split; [destruct E as (nm & l & cs & ->); now exists nm, (assign k t l), cs|]. split; [exact M|].
        split; [destruct E as (nm & l & cs & ->); reflexivity|]. split; [intros p P; now apply all_setattr|].
        intros k' N. destruct E as (nm & l & cs & ->). cbn [setNodeAttribute attrs]. rewrite assoc_assign. destruct (String.eqb_spec k k'); [congruence|reflexivity].
      + repeat split; auto.
    - apply (encode_str _ _ _ _ _ b C) in H as [M [(T & t & -> & _)|(T & ->)]].
      + split; [destruct E as (nm & l & cs & ->); now exists nm, l, (cs ++ [Data t])%list|]. split; [exact M|].
        split; [destruct E as (nm & l & cs & ->); reflexivity|]. intros p P. now apply all_addtext.
      + repeat split; auto.
    - destruct W as [ws W]. pose proof (wr_extends _ _ _ _ _ _ W mandatory n n' E H) as X. split; [exact (extends_is_elem _ _ _ _ X)|].
      split; [exists n, n'; auto|]. destruct X as [(nm & l & cs & cs' & -> & -> & F) A P]. split; [reflexivity|]. split; [exact P|exact F].
  Qed.

  Lemma self_step m n n' : is_elem n -> member_carried m -> can_write m -> status m n -> encode_member keys fields m n = Ok (n', []) -> shows m n'.
  Proof.
    intros E C W U H. destruct m as [k b mandatory|k b mandatory|k t mandatory p]; unfold encode_member in H; cbn [status shows].
    - destruct U as [U|[[] _]]. apply (encode_attr _ _ _ _ _ b C) in H as [M [(T & t & -> & R)|(T & ->)]].
      + rewrite T. split; [|discriminate]. intros _. exists t. destruct E as (nm & l & cs & ->). cbn [setNodeAttribute attrs]. now rewrite assoc_assign, String.eqb_refl.
      + rewrite T. split; [discriminate|]. intros _. exact U.
    - destruct U as [U|[[] _]]. apply (encode_str _ _ _ _ _ b C) in H as [M [(T & t & -> & R)|(T & ->)]].
      + rewrite T. split; [|discriminate]. intros _. exists t, []. destruct E as (nm & l & cs & ->). cbn in U. subst cs. now split.
      + rewrite T in *. split; [discriminate|]. intros _. split; [exact U|]. destruct mandatory; [discriminate (M eq_refl)|reflexivity].
    - destruct U as [U|[D (ws & W' & V)]].
      + destruct W as [ws W]. pose proof (wr_extends _ _ _ _ _ _ W mandatory n n' E H) as X. exists ws. split; [exact W|].
        cbn [untouched] in U. now rewrite (ex_all _ _ _ _ X), U.
      + destruct t; try contradiction. pose proof (wr_extends _ _ _ _ _ _ W' mandatory n n' E H) as X. exists ws. split; [exact W'|].
        rewrite (ex_all _ _ _ _ X). destruct (all (comps_of k (Basic b) p) n) as [|x l]; [|exact V]. cbn [app]. reflexivity.
  Qed.

  Lemma again_step m m' n n' : again m' m = true \/ again m m' = true -> is_elem n -> member_carried m -> can_write m -> status m n ->
    encode_member keys fields m' n = Ok (n', []) -> shows m n'.
  Proof.
    intros A E C W U H.
    assert (K : exists k b mandatory p mandatory' p', m = Tag k (Basic b) mandatory p /\ m' = Tag k (Basic b) mandatory' p').
    { assert (Q : forall x y, basic_eqb x y = true -> x = y) by (intros [] []; cbn; congruence).
      destruct A as [A|A]; destruct m as [| |k [b| | |] mandatory p], m' as [| |k' [b'| | |] mandatory' p']; cbn in A; try discriminate;
        apply andb_true_iff in A as [A B]; apply String.eqb_eq in A; apply Q in B; subst; repeat eexists. }
    destruct K as (k & b & mandatory & p & mandatory' & p' & -> & ->).
    assert (H' : encode_tag keys (Basic b) k mandatory' p (field fields (member_name (Tag k (Basic b) mandatory p))) n = Ok (n', [])) by exact H.
    cbn [shows]. destruct U as [U|[D (ws & W' & V)]].
    - destruct W as [ws W]. pose proof (wr_extends _ _ _ _ _ _ W mandatory' n n' E H') as X. exists ws. split; [exact W|].
      cbn [untouched] in U. now rewrite (ex_all _ _ _ _ X), U.
    - pose proof (wr_extends _ _ _ _ _ _ W' mandatory' n n' E H') as X. exists ws. split; [exact W'|].
      rewrite (ex_all _ _ _ _ X). destruct (all (comps_of k (Basic b) p) n) as [|x l]; [|exact V]. cbn [app]. reflexivity.
  Qed.

  (** Members that do not share a place *)
  Lemma keep_step m m' n n' : (pair_ok m m' = true \/ pair_ok m' m = true) -> is_elem n -> member_carried m -> member_carried m' -> can_write m -> can_write m' ->
    shows m n -> encode_member keys fields m' n = Ok (n', []) -> shows m n'.
  Proof.
    intros P E C C' W W' Sh H.
    destruct (again m m' || again m' m) eqn:A.
    { apply orb_true_iff in A. apply (again_step m m' n n'); [tauto|exact E|exact C|exact W| |exact H].
      right. split; [|exact Sh]. destruct A as [A|A]; destruct m as [| |k [b| | |] mandatory p], m' as [| |k' [b'| | |] mandatory' p']; cbn in A; try discriminate; exact Logic.I. }
    apply orb_false_iff in A as [A1 A2].
    destruct (member_frame m' n n' E C' W' H) as (_ & _ & F).
    unfold pair_ok in P. rewrite A1, A2 in P. cbn [orb] in P.
    assert (P' : (match m, m' with
      | Attr k _ _, Attr k' _ _ => k' <> k
      | Tag k t _ p, Tag k' t' _ p' => apart (comps_of k t p) (comps_of k' t' p') = true
      | Str _ _ x, Tag _ _ _ _ => x = true
      | Str _ _ _, Str _ _ _ => False
      | _, _ => True end)).
    { destruct P as [P|P]; apply andb_true_iff in P as [_ P]; destruct m, m'; try exact Logic.I; try discriminate P; try exact P;
        first [rewrite apart_sym; exact P | apply negb_true_iff, String.eqb_neq in P; congruence]. }
    clear P. destruct m as [k b mandatory|k b mandatory|k t mandatory p], m' as [k' b' mandatory'|k' b' mandatory'|k' t' mandatory' p']; try contradiction; cbn [shows] in *.
    - destruct F as (_ & _ & F). rewrite (F k) by congruence. exact Sh.
    - destruct F as [F _]. rewrite F. exact Sh.
    - destruct F as [F _]. rewrite F. exact Sh.
    - destruct F as [F _]. rewrite F. exact Sh.
    - destruct F as (_ & _ & F). subst mandatory. destruct Sh as [S1 S2]. split.
      + intros T. destruct (S1 T) as (x & rest & X & R). destruct (F x rest X) as [rest' X']. exists x, rest'. auto.
      + intros T. destruct (S2 T) as [_ S3]. discriminate S3.
    - destruct F as (_ & F & _). rewrite F; [exact Sh|]. apply comps_nonempty.
    - destruct F as (_ & F). rewrite F; [exact Sh|]. apply comps_nonempty.
    - destruct F as (_ & F & _). rewrite F; [exact Sh|exact P'].
  Qed.

  Lemma untouched_step m m' n n' : pair_ok m' m = true -> again m' m = false -> again m m' = false -> is_elem n -> member_carried m' -> can_write m' ->
    untouched m n -> encode_member keys fields m' n = Ok (n', []) -> untouched m n'.
  Proof.
    intros P A A' E C' W' U H. destruct (member_frame m' n n' E C' W' H) as (_ & _ & F).
    unfold pair_ok in P. rewrite A in P. cbn [orb] in P. apply andb_true_iff in P as [_ P].
    destruct m' as [k' b' mandatory'|k' b' mandatory'|k' t' mandatory' p'], m as [k b mandatory|k b mandatory|k t mandatory p]; try discriminate P; cbn [untouched] in *.
    - apply negb_true_iff, String.eqb_neq in P. destruct F as (_ & _ & F). now rewrite F by congruence.
    - destruct F as [F _]. now rewrite F.
    - destruct F as (_ & F & _). now rewrite F by apply comps_nonempty.
    - destruct F as [F _]. now rewrite F.
    - destruct F as [_ F]. now rewrite F by apply comps_nonempty.
    - destruct F as [F _]. now rewrite F.
    - destruct F as (_ & F & _). rewrite F; [exact U|]. now rewrite apart_sym.
  Qed.
  Lemma status_step m m' n n' : pair_ok m' m = true -> is_elem n -> member_carried m -> member_carried m' -> can_write m -> can_write m' ->
    status m n -> encode_member keys fields m' n = Ok (n', []) -> status m n'.
  Proof.
    intros P E C C' W W' U H. destruct (again m' m || again m m') eqn:A.
    - apply orb_true_iff in A. right. split; [|exact (again_step m m' n n' A E C W U H)].
      destruct A as [A|A]; destruct m as [| |k [b| | |] mandatory p], m' as [| |k' [b'| | |] mandatory' p']; cbn in A; try discriminate; exact Logic.I.
    - apply orb_false_iff in A as [A1 A2]. destruct U as [U|[D Sh]].
      + left. exact (untouched_step m m' n n' P A1 A2 E C' W' U H).
      + right. split; [exact D|]. exact (keep_step m m' n n' (or_intror P) E C C' W W' Sh H).
  Qed.

  Lemma pairs_ok_app l m r : pairs_ok (l ++ m :: r) = true -> (forall x, In x l -> pair_ok x m = true) /\ (forall x, In x r -> pair_ok m x = true).
  Proof.
    induction l as [|y l IH]; cbn [app pairs_ok]; rewrite andb_true_iff; intros [A B].
    - split; [intros x []|]. rewrite forallb_forall in A. exact A.
    - destruct (IH B) as [I1 I2]. split; [|exact I2]. intros x [<-|X]; [|exact (I1 x X)].
      rewrite forallb_forall in A. apply A, in_or_app. right. now left.
  Qed.
  Lemma encode_all done todo n n' : pairs_ok (done ++ todo) = true -> is_elem n ->
    (forall m, In m (done ++ todo) -> member_carried m /\ can_write m) ->
    (forall m, In m done -> shows m n) -> (forall m, In m todo -> status m n) ->
    encode_members keys fields todo n = Ok (n', []) ->
    (forall m, In m (done ++ todo) -> shows m n') /\ (forall m, In m todo -> settled m) /\ is_elem n'.
  Proof.
    revert done n. induction todo as [|m todo IH]; intros done n P E C D T; cbn [encode_members].
    - intros [= <-]. rewrite app_nil_r in *. split; [exact D|]. split; [intros m []|exact E].
    - intros H. apply then_ok in H as (n1 & H1 & H2).
      assert (Cm : member_carried m /\ can_write m) by (apply C, in_or_app; right; now left). destruct Cm as [Cm Wm].
      destruct (member_frame m n n1 E Cm Wm H1) as (E1 & Sm & _).
      assert (Q : (done ++ m :: todo)%list = ((done ++ [m]) ++ todo)%list) by (rewrite <- app_assoc; reflexivity).
      destruct (pairs_ok_app done m todo P) as [PA PB].
      destruct (IH (done ++ [m])%list n1) as (R1 & R2 & R3).
      + now rewrite <- Q.
      + exact E1.
      + intros x X. apply C. now rewrite Q.
      + intros x X. apply in_app_or in X as [X|[<-|[]]].
        * assert (Cx : member_carried x /\ can_write x) by (apply C, in_or_app; now left). destruct Cx as [Cx Wx].
          exact (keep_step x m n n1 (or_introl (PA x X)) E Cx Cm Wx Wm (D x X) H1).
        * exact (self_step m n n1 E Cm Wm (T m (or_introl eq_refl)) H1).
      + intros x X. assert (Cx : member_carried x /\ can_write x) by (apply C, in_or_app; right; now right). destruct Cx as [Cx Wx].
        exact (status_step x m n n1 (PB x X) E Cx Cm Wx Wm (T x (or_intror X)) H1).
      + exact H2.
      + rewrite Q. split; [exact R1|]. split; [|exact R3]. intros x [<-|X]; [exact Sm|exact (R2 x X)].
  Qed.

  (** Reading *)
  Lemma decode_shown m n : member_carried m -> settled m -> shows m n -> decode_member n m = Ok (val m, []).
  Proof.
    intros C Se Sh. destruct m as [k b mandatory|k b mandatory|k t mandatory p]; cbn [shows settled member_carried] in *; unfold decode_member.
    - destruct (truth (field fields (member_name (Attr (T:=typ) k b mandatory)))) eqn:T.
      + destruct Sh as [Sh _]. destruct (Sh eq_refl) as (t & A & N & F). unfold getNodeAttribute. rewrite A. unfold decode_basic. destruct t; [congruence|]. now rewrite F.
      + destruct Sh as [_ Sh]. unfold getNodeAttribute. rewrite (Sh eq_refl). pose proof (simple_attr_falsy _ _ C T) as ->. cbn. destruct mandatory; [discriminate (Se eq_refl)|reflexivity].
    - destruct (truth (field fields (member_name (Str (T:=typ) k b mandatory)))) eqn:T.
      + destruct Sh as [Sh _]. destruct (Sh eq_refl) as (t & rest & A & N & F). unfold getNodeText. rewrite A. cbn [bind]. rewrite (ustrip_trimmed t N). unfold decode_basic.
        destruct N as [N _]. destruct t; [congruence|]. now rewrite F.
      + destruct Sh as [_ Sh]. unfold getNodeText. destruct (Sh eq_refl) as [-> ->]. pose proof (simple_falsy _ _ C T) as ->. reflexivity.
    - destruct Sh as (ws & W & V). exact (wr_decode _ _ _ _ _ _ W mandatory n Se V).
  Qed.
  Lemma decode_all ms n acc : (forall m, In m ms -> decode_member n m = Ok (val m, [])) ->
    decode_members n ms acc = Ok (fold_left (fun acc m => assign (member_name m) (val m) acc) ms acc, []).
  Proof.
    revert acc. induction ms as [|m ms IH]; intros acc H; [reflexivity|]. cbn [decode_members fold_left].
    rewrite (H m (or_introl eq_refl)). cbn [bind fst snd]. rewrite IH by (intros; apply H; now right). reflexivity.
  Qed.
End members.

(** ** The fields *)
Lemma existsb_eqb x l : existsb (String.eqb x) l = true <-> In x l.
Proof. rewrite existsb_exists. split; [intros (y & A & B); apply String.eqb_eq in B; now subst|intros H; exists x; now rewrite String.eqb_refl]. Qed.
Lemma names_nodup l acc : NoDup acc -> NoDup (fold_left add_name l acc).
Proof.
  revert acc. induction l as [|x l IH]; intros acc H; [exact H|]. cbn [fold_left]. apply IH. unfold add_name.
  destruct (existsb (String.eqb x) acc) eqn:E; [exact H|]. apply NoDup_app. split; [exact H|]. split; [|apply NoDup_singleton].
  intros y Y Z. apply elem_of_list_singleton in Z as ->. apply elem_of_list_In in Y. apply existsb_eqb in Y. congruence.
Qed.
Lemma assign_present {A} x (v : A) (f : string -> A) l : In x l -> NoDup l -> v = f x -> assign x v (map (fun y => (y, f y)) l) = map (fun y => (y, f y)) l.
Proof.
  induction l as [|y l IH]; intros I N E; [destruct I|]. cbn [map assign]. apply NoDup_cons in N as [N1 N2].
  destruct (String.eqb_spec y x) as [->|Ne]; [now rewrite E|]. destruct I as [I|I]; [congruence|]. now rewrite IH.
Qed.
Lemma assign_absent {A} x (v : A) (f : string -> A) l : ~ In x l -> assign x v (map (fun y => (y, f y)) l) = (map (fun y => (y, f y)) l ++ [(x, v)])%list.
Proof.
  induction l as [|y l IH]; intros I; [reflexivity|]. cbn [map assign app]. cbn [In] in I.
  destruct (String.eqb_spec y x) as [->|Ne]; [tauto|]. rewrite IH by tauto. reflexivity.
Qed.
Lemma assign_all {A} (f : string -> A) l acc : NoDup acc ->
  fold_left (fun a x => assign x (f x) a) l (map (fun y => (y, f y)) acc) = map (fun y => (y, f y)) (fold_left add_name l acc).
Proof.
  revert acc. induction l as [|x l IH]; intros acc N; [reflexivity|]. cbn [fold_left]. unfold add_name at 2.
  destruct (existsb (String.eqb x) acc) eqn:E.
  - rewrite assign_present; [now apply IH|now apply existsb_eqb|exact N|reflexivity].
  - assert (X : ~ In x acc) by (intros X; apply existsb_eqb in X; congruence). rewrite assign_absent by exact X.
    change [(x, f x)] with (map (fun y => (y, f y)) [x]). rewrite <- map_app. apply IH.
    apply NoDup_app. split; [exact N|]. split; [|apply NoDup_singleton]. intros y Y Z. apply elem_of_list_singleton in Z as ->. apply elem_of_list_In in Y. contradiction.
Qed.
Lemma fold_left_map {A B C} (f : C -> B -> C) (g : A -> B) l c : fold_left (fun a x => f a (g x)) l c = fold_left f (map g l) c.
Proof. revert c. induction l as [|x l IH]; intros c; [reflexivity|]. cbn. apply IH. Qed.
Lemma fields_by_name (fields : list (string * value)) : NoDup (map fst fields) -> map (fun y => (y, field fields y)) (map fst fields) = fields.
Proof.
  induction fields as [|[k v] l IH]; intros N; [reflexivity|]. cbn [map fst]. apply NoDup_cons in N as [N1 N2].
  unfold field at 1. cbn [assoc]. rewrite String.eqb_refl. f_equal. rewrite <- (IH N2) at 2. apply map_ext_in. intros y Y. f_equal.
  unfold field. cbn [assoc]. destruct (String.eqb_spec k y) as [->|]; [|reflexivity]. exfalso. apply N1, elem_of_list_In, Y.
Qed.
Lemma fields_back fields ms : map fst fields = names_of ms ->
  fold_left (fun acc m => assign (member_name m) (field fields (member_name m)) acc) ms [] = fields.
Proof.
  intros H. rewrite (fold_left_map (fun acc x => assign x (field fields x) acc) (@member_name typ)).
  change (@nil (string * value)) with (map (fun y => (y, field fields y)) []). rewrite assign_all by constructor.
  fold (names_of ms). rewrite <- H. apply fields_by_name. rewrite H. apply names_nodup. constructor.
Qed.
Lemma ready_hook h fields : ready h fields -> run_hook h fields = Ok tt.
Proof. destruct h; cbn; [reflexivity| |]; [intros (x & l & ->); reflexivity|intros (s & ->); reflexivity]. Qed.

(** ** Everything *)
Lemma carried_each fields ms : 
  (fix each (ms : list (member typ)) : Prop :=
     match ms with
     | [] => True
     | m :: ms =>
         (let x := field fields (member_name m) in
          match m with
          | Attr _ b _ => simple_attr b x
          | Str _ b _ => simple b x
          | Tag _ t _ _ => carried t x
          end) /\ each ms
     end) ms <-> (forall m, In m ms -> member_carried fields m).
Proof.
  induction ms as [|m ms IH]; [split; [intros _ m []|auto]|]. rewrite IH. cbn [In]. split.
  - intros [A B] x [<-|X]; [|exact (B x X)]. destruct m; exact A.
  - intros H. split; [|intros x X; apply H; now right]. pose proof (H m (or_introl eq_refl)) as A. destruct m; exact A.
Qed.

Lemma round_trip_members keys fields ms token n : pairs_ok ms = true -> map fst fields = names_of ms ->
  (forall m, In m ms -> member_carried fields m /\ can_write keys fields m) ->
  encode_members keys fields ms (Elem token [] []) = Ok (n, []) ->
  decode_members n ms [] = Ok (fields, []) /\ is_elem n /\ named token n = true.
Proof.
  intros P N C H.
  destruct (encode_all keys fields [] ms (Elem token [] []) n P) as (A & B & E).
  - now exists token, [], [].
  - exact C.
  - intros m [].
  - intros m M. left. destruct m as [k b x|k b x|k t x p]; cbn [untouched]; [reflexivity|reflexivity|]. apply all_empty, comps_nonempty.
  - exact H.
  - split.
    + rewrite (decode_all fields ms n []).
      * now rewrite fields_back.
      * intros m M. apply (decode_shown keys); [apply C, M|apply B, M|apply A, M].
    + split; [exact E|].
      assert (Q : forall ms n0 n1, (forall m, In m ms -> member_carried fields m /\ can_write keys fields m) -> is_elem n0 -> encode_members keys fields ms n0 = Ok (n1, []) -> named token n1 = named token n0).
      { clear. induction ms as [|m ms IH]; intros n0 n1 C E; cbn [encode_members]; [now intros [= <-]|]. intros H. apply then_ok in H as (n2 & H1 & H2).
        destruct (C m (or_introl eq_refl)) as [Cm Wm]. destruct (member_frame keys fields m n0 n2 E Cm Wm H1) as (E2 & _ & _).
        rewrite (IH n2 n1) by (auto; intros x X; apply C; now right).
        destruct m as [k b x|k b x|k t x p]; unfold encode_member in H1.
        - apply (encode_attr _ _ _ _ _ b Cm) in H1 as [_ [(_ & t & -> & _)|(_ & ->)]]; [|reflexivity]. destruct E as (nm & l & cs & ->). reflexivity.
        - apply (encode_str _ _ _ _ _ b Cm) in H1 as [_ [(_ & t & -> & _)|(_ & ->)]]; [|reflexivity]. destruct E as (nm & l & cs & ->). reflexivity.
        - destruct Wm as [ws Wm]. apply (extends_named (comps_of k t p) ws). exact (wr_extends _ _ _ _ _ _ Wm x n0 n2 E H1). }
      rewrite (Q ms (Elem token [] []) n C); [apply String.eqb_refl|now exists token, [], []|exact H].
Qed.

Theorem everything_written keys : any_order keys -> forall t, well_formed t = true -> forall token path v,
  (forall c, In c (comps_of token t path) -> c <> "") -> carried t v -> exists ws, writes keys t token path v ws.
Proof.
  intros O. refine (typ_induct _ _ _ _ _).
  - intros b _ token path v _ C. now apply writes_basic.
  - intros _ token path v _ C. now apply writes_local.
  - intros tag ms h IH WF token path v NE C. cbn [well_formed] in WF. apply andb_true_iff in WF as [WF P].
    cbn [carried] in C. destruct C as [->|(fields & -> & N & R & C)].
    + exists []. constructor.
      * intros mandatory n n' E. cbn [encode_tag]. intros [= <- _]. now apply extends_refl.
      * intros mandatory n M V. rewrite decode_object_eq, getNode_all. cbn [comps_of] in V. apply view_hd in V; [|exact Logic.I]. rewrite V. cbn [hd_error].
        destruct mandatory; [apply encodes_truth in M; discriminate M|reflexivity].
      * discriminate.
    + pose proof (proj1 (carried_each fields ms) C) as C0. clear C. rename C0 into C.
      assert (CW : forall m, In m ms -> member_carried fields m /\ can_write keys fields m).
      { intros m M. split; [exact (C m M)|]. pose proof (C m M) as Cm. destruct m as [k b x|k b x|k t x p]; cbn [can_write]; [exact Logic.I..|].
        rewrite List.Forall_forall in IH. pose proof (IH _ M) as I. cbn [member_all] in I. rewrite forallb_forall in WF. pose proof (WF _ M) as F. cbn beta iota in F.
        apply andb_true_iff in F as [F1 F2]. apply (I F1); [|exact Cm]. intros c X. rewrite forallb_forall in F2. specialize (F2 c X). now apply negb_true_iff, String.eqb_neq in F2. }
      destruct (encode_members keys fields ms (Elem token [] [])) as [[c [|e es]]|x] eqn:En.
      * destruct (round_trip_members keys fields ms token c P N CW En) as (D & E & Nm). exists [c]. constructor.
        -- intros mandatory n n' En'. rewrite encode_object_eq, En. cbn [bind fst snd]. intros [= <-]. cbn [comps_of]. now apply extends_insert.
        -- intros mandatory n _ V. rewrite decode_object_eq, getNode_all. cbn [comps_of] in V. apply view_hd in V; [|exact Logic.I]. rewrite V. cbn [hd_error].
           rewrite D. cbn [bind fst snd]. rewrite (ready_hook h fields R). reflexivity.
        -- intros _. eauto.
      * exists [Elem token [] []]. constructor.
        -- intros mandatory n n' _. rewrite encode_object_eq, En. discriminate.
        -- intros mandatory n (m & m' & _ & M). rewrite encode_object_eq, En in M. discriminate M.
        -- intros _. exists (Elem token [] []). split; [reflexivity|apply String.eqb_refl].
      * exists [Elem token [] []]. constructor.
        -- intros mandatory n n' _. rewrite encode_object_eq, En. discriminate.
        -- intros mandatory n (m & m' & _ & M). rewrite encode_object_eq, En in M. discriminate M.
        -- intros _. exists (Elem token [] []). split; [reflexivity|apply String.eqb_refl].
  - intros t IH WF token path v NE (l & -> & C). cbn [well_formed] in WF. cbn [comps_of] in NE.
    assert (I : is_item t) by (destruct t; try discriminate; exact Logic.I).
    assert (WFt : well_formed t = true) by (destruct t; try discriminate; exact WF).
    assert (NN : list_path token t path <> []) by (exact (comps_nonempty token (ListOf t) path)).
    apply writes_list; [exact I|exact NN|exact NE|]. exists l. split; [reflexivity|].
    apply List.Forall_forall. intros x X. apply (IH WFt).
    + intros c Hc. rewrite (item_comps t _ None I) in Hc. destruct Hc as [<-|[]]. apply NE.
      rewrite (app_removelast_last "" NN) at 2. apply in_or_app. right. now left.
    + rewrite List.Forall_forall in C. apply C, X.
Qed.

Theorem object_round_trip keys t o tag n : any_order keys -> well_formed t = true -> carried_object t o ->
  encode keys t o (Elem tag [] []) = Ok (n, []) -> decode t n = Ok (o, []).
Proof.
  intros O WF C. destruct t as [| |tg ms h|]; try (cbn in C; destruct C as [? ?]; try discriminate; destruct C; discriminate).
  - cbn in C. destruct b; contradiction.
  - destruct C as (d & D & _). discriminate D.
  - unfold encode, decode. cbn [members_of hook_of]. intros En. pose proof WF as WF0. cbn [well_formed] in WF. apply andb_true_iff in WF as [WF P].
    destruct C as [C|(fields & [= <-] & N & R & C)]; [discriminate C|]. pose proof (proj1 (carried_each o ms) C) as C0. clear C. rename C0 into C.
    assert (CW : forall m, In m ms -> member_carried o m /\ can_write keys o m).
    { intros m M. split; [exact (C m M)|]. pose proof (C m M) as Cm. destruct m as [k b x|k b x|k t x p]; cbn [can_write]; [exact Logic.I..|].
      rewrite forallb_forall in WF. pose proof (WF _ M) as F. cbn beta iota in F. apply andb_true_iff in F as [F1 F2].
      apply everything_written; [exact O|exact F1| |exact Cm]. intros c X. rewrite forallb_forall in F2. specialize (F2 c X). now apply negb_true_iff, String.eqb_neq in F2. }
    destruct (round_trip_members keys o ms tag n P N CW En) as (D & _ & _). rewrite D. cbn [bind fst snd]. now rewrite (ready_hook h o R).
  - destruct C as (l & L & _). discriminate L.
Qed.
