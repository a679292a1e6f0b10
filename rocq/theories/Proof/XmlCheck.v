(** * Deciding what can be carried *)
From Coq Require Import String Ascii ZArith NArith List Bool.
From stdpp Require Import gmap strings.
From Verif Require Import Model.Py Model.Xml Spec.XmlSpec Proof.XmlText Proof.XmlRound Proof.XmlMain.
Import ListNotations.
Open Scope string_scope.

Definition white_b (c : N) : bool := existsb (N.eqb c) white.
Definition trimmed_b (t : utext) : bool :=
  match t with [] => false | c :: _ => negb (white_b c) end && match rev t with [] => false | c :: _ => negb (white_b c) end.
Lemma white_b_in c : white_b c = true <-> In c white.
Proof. unfold white_b. rewrite existsb_exists. split; [intros (x & X & E); apply N.eqb_eq in E; now subst|intros H; exists c; now rewrite N.eqb_refl]. Qed.
Lemma trimmed_b_ok t : trimmed_b t = true -> trimmed t.
Proof.
  unfold trimmed_b. rewrite andb_true_iff. intros [A B]. split; [intros ->; discriminate A|]. split.
  - intros c r ->. intros W. apply white_b_in in W. rewrite W in A. discriminate A.
  - intros r c ->. rewrite rev_app_distr in B. cbn [rev app] in B. intros W. apply white_b_in in W. rewrite W in B. discriminate B.
Qed.
Definition ascii_b (s : string) : bool := forallb (fun c => (c <? 128)%N) (codes s).
Lemma ascii_b_ok s : ascii_b s = true -> ascii_only s.
Proof. unfold ascii_b, ascii_only. rewrite forallb_forall. intros H. apply List.Forall_forall. intros c C. now apply N.ltb_lt, H. Qed.
Definition simple_b (b : basic) (v : value) : bool :=
  match b, v with
  | _, VNone => true
  | TString, VStr s => ascii_b s && trimmed_b (codes s)
  | TText, VText t => trimmed_b t
  | (TInteger | TLong), VInt z => negb (z =? 0)%Z
  | _, _ => false
  end.
Lemma simple_b_ok b v : simple_b b v = true -> simple b v.
Proof.
  destruct b, v; cbn; try discriminate; try trivial.
  - rewrite andb_true_iff. intros [A B]. split; [now apply ascii_b_ok|now apply trimmed_b_ok].
  - apply trimmed_b_ok.
  - intros H. now apply negb_true_iff, Z.eqb_neq in H.
  - intros H. now apply negb_true_iff, Z.eqb_neq in H.
Qed.
Definition simple_attr_b (b : basic) (v : value) : bool :=
  match b, v with
  | _, VNone => true
  | TString, VStr s => ascii_b s && negb (String.eqb s "")
  | TText, VText t => match t with [] => false | _ => true end
  | (TInteger | TLong), VInt z => negb (z =? 0)%Z
  | _, _ => false
  end.
Lemma simple_attr_b_ok b v : simple_attr_b b v = true -> simple_attr b v.
Proof.
  destruct b, v; cbn; try discriminate; try trivial.
  - rewrite andb_true_iff. intros [A B]. split; [now apply ascii_b_ok|now apply negb_true_iff, String.eqb_neq in B].
  - destruct t; [discriminate|discriminate].
  - intros H. now apply negb_true_iff, Z.eqb_neq in H.
  - intros H. now apply negb_true_iff, Z.eqb_neq in H.
Qed.
Definition local_b (d : gmap utext (option utext)) : bool :=
  forallb (fun x => match x with (_ :: _, Some t) => trimmed_b t | _ => false end) (map_to_list d).
Lemma local_b_ok d : local_b d = true -> local_text d.
Proof.
  unfold local_b. rewrite forallb_forall. intros H lang c L. apply elem_of_map_to_list, elem_of_list_In in L. specialize (H _ L). cbn in H.
  destruct lang; [discriminate H|]. destruct c as [t|]; [|discriminate H]. split; [discriminate|]. exists t. split; [reflexivity|now apply trimmed_b_ok].
Qed.
Definition ready_b (h : hook) (fields : list (string * value)) : bool :=
  match h with
  | NoHook => true
  | FirstOfHistory => match assoc "history" fields with Some (VList (_ :: _)) => true | _ => false end
  | BaseOfUri => match assoc "uri" fields with Some (VStr _) => true | _ => false end
  end.
Lemma ready_b_ok h fields : ready_b h fields = true -> ready h fields.
Proof.
  destruct h; cbn; [trivial| |].
  - destruct (assoc "history" fields) as [[]|]; try discriminate. destruct l; [discriminate|]. eauto.
  - destruct (assoc "uri" fields) as [[]|]; try discriminate. eauto.
Qed.
Fixpoint carried_b (t : typ) (v : value) {struct t} : bool :=
  match t with
  | Basic b => simple_b b v
  | LocalText => match v with VLocal d => local_b d | _ => false end
  | Object _ ms h =>
      match v with
      | VNone => true
      | VObj fields =>
          bool_decide (map fst fields = names_of ms) && ready_b h fields &&
          (fix each (ms : list (member typ)) : bool :=
             match ms with
             | [] => true
             | m :: ms =>
                 (let x := field fields (member_name m) in
                  match m with
                  | Attr _ b _ => simple_attr_b b x
                  | Str _ b _ => simple_b b x
                  | Tag _ t _ _ => carried_b t x
                  end) && each ms
             end) ms
      | _ => false
      end
  | ListOf t => match v with VList l => forallb (carried_b t) l | _ => false end
  end.
Lemma carried_b_ok : forall t v, carried_b t v = true -> carried t v.
Proof.
  refine (typ_induct _ _ _ _ _).
  - intros b v. apply simple_b_ok.
  - intros v H. destruct v; try discriminate H. exists d. split; [reflexivity|now apply local_b_ok].
  - intros tag ms h IH v H. cbn [carried_b] in H. destruct v as [| | | | | |fields]; try discriminate H; [now left|]. right. exists fields. split; [reflexivity|].
    apply andb_true_iff in H as [H E]. apply andb_true_iff in H as [N R]. apply bool_decide_eq_true in N. split; [exact N|]. split; [now apply ready_b_ok|].
    clear N R. induction IH as [|m ms Hm IH IHm]; [exact Logic.I|]. apply andb_true_iff in E as [E1 E2]. split; [|exact (IHm E2)].
    destruct m as [k b x|k b x|k t x p]; [now apply simple_attr_b_ok|now apply simple_b_ok|]. cbn [member_all] in Hm. now apply Hm.
  - intros t IH v H. destruct v; try discriminate H. exists l. split; [reflexivity|]. cbn [carried_b] in H. rewrite forallb_forall in H.
    apply List.Forall_forall. intros x X. apply IH, H, X.
Qed.
