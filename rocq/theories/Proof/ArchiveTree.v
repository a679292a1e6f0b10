(** * Archives: a tree packed and unpacked *)
From Coq Require Import String Ascii ZArith NArith List Bool Lia.
From stdpp Require Import gmap strings.
From Verif Require Import Model.Py Model.InstallDB Model.Path Model.Fs Model.Trace Model.Actions Model.Index Model.Archive Spec.PathSpec Spec.FsSpec Spec.ActionsSpec Spec.ArchiveSpec.
From Verif Require Import Proof.PyFacts Proof.PathFacts Proof.FsFacts Proof.TraceFacts Proof.ActionsPaths Proof.ActionsFacts Proof.ActionsTop Proof.ActionsExact Proof.ActionsMove Proof.ArchiveFacts.
Import ListNotations.
Open Scope string_scope.
Open Scope prog_scope.

Lemma does_app {S A} (h : A -> prog S unit) l k s (Q R : S -> Prop) : does (each h l) s Q -> (forall s', Q s' -> does (each h k) s' R) -> does (each h (l ++ k)) s R.
Proof.
  revert s. induction l as [|x l IH]; intros s [E H] K; [now apply K|]. cbn [each app] in *. apply andthen_result in E as ([] & E1 & E2 & E3). rewrite E3 in H. eapply does_then with (Q := fun s' => s' = final (h x) s); [now split|]. intros s' ->. apply IH; [now split|exact K].
Qed.

Lemma same_at_refl d q : same_at d d q. Proof. now split. Qed.
Lemma same_at_trans d e f q : same_at d e q -> same_at e f q -> same_at d f q.
Proof. intros [A1 A2] [B1 B2]. split; [congruence|]. intros N. rewrite B2 by now rewrite A1. now apply A2. Qed.

(** Names next to each other *)
Lemma first_name x r y s : free_of "/" x -> free_of "/" y -> (r = "" \/ exists u, r = "/" ++ u) -> (s = "" \/ exists u, s = "/" ++ u) -> x ++ r = y ++ s -> x = y.
Proof.
  revert y. induction x as [|c x IH]; intros y Fx Fy R S E.
  - destruct y as [|c y]; [reflexivity|]. exfalso. destruct R as [->|[u ->]]; [discriminate E|]. injection E as E _; apply Fy; rewrite <- E; now left.
  - destruct y as [|c' y].
    + exfalso. destruct S as [->|[u ->]]; [discriminate E|]. injection E as E _; apply Fx; rewrite E; now left.
    + injection E as E0 E; rewrite E0 in *; f_equal; apply IH; [intros I; apply Fx; now right|intros I; apply Fy; now right|exact R|exact S|exact E].
Qed.
Lemma at_or_in_text P q : at_or_in P q <-> exists r, q = P ++ r /\ (r = "" \/ exists u, r = "/" ++ u).
Proof.
  split.
  - intros [->|[r ->]]; [exists ""; rewrite str_app_nil_r; auto|exists ("/" ++ r); eauto].
  - intros (r & -> & [->|[u ->]]); [left; apply str_app_nil_r|right; now exists u].
Qed.
Lemma siblings_apart Q x y q : free_of "/" x -> free_of "/" y -> at_or_in (Q ++ "/" ++ x) q -> at_or_in (Q ++ "/" ++ y) q -> x = y.
Proof.
  intros Fx Fy A B. apply at_or_in_text in A as (r & -> & R). apply at_or_in_text in B as (s & E & S). rewrite !str_app_assoc in E. apply str_app_inv_l in E. injection E as E. now apply (first_name x r y s).
Qed.
Lemma at_or_in_up Q x q : at_or_in (Q ++ "/" ++ x) q -> beneath Q q.
Proof. intros A. apply at_or_in_text in A as (r & -> & _). exists (x ++ r). now rewrite !str_app_assoc. Qed.

Section tree.
  Context (d : disk) (C : string) (SC : stands (nodes d) C) (Rd : real (nodes d)).
  Lemma C1 : C <> "/". Proof. now destruct (stands_root C _ SC) as (_ & ? & _). Qed.
  Lemma C2 : C <> "". Proof. now destruct (stands_root C _ SC) as (_ & _ & ? & _). Qed.
  Lemma below_child r ns x : r <> "/" -> r <> "" -> below r (ns ++ [x]) = below r ns ++ "/" ++ x.
  Proof. intros A B. rewrite below_snoc. unfold child. now rewrite not_top. Qed.
  Lemma real_below q : nodes d !! q <> None -> forall ns, (forall n, In n ns -> name n) -> beneath (below C ns) q -> exists ks, ks <> [] /\ (forall n, In n ks -> name n) /\ q = below C (ns ++ ks) /\ dirs_to C (nodes d) (ns ++ ks).
  Proof.
    intros N ns H [u E]. destruct (nodes d !! q) as [x|] eqn:X; [|congruence]. destruct (Rd q x X) as (ts & Nt & Ht & Eq & Dt). destruct SC as (rs & Nr & Hr & Er & Dr).
    assert (Nrs : (rs ++ ns)%list <> []) by (destruct rs; [congruence|discriminate]). assert (Hrs : forall n, In n (rs ++ ns) -> name n) by (apply names_app; now split).
    assert (P : exists ks, ks <> [] /\ ts = ((rs ++ ns) ++ ks)%list).
    { rewrite E in Eq. rewrite Er, <- below_app in Eq. rewrite !below_text_root in Eq by assumption. rewrite str_app_assoc in Eq. apply str_app_inv_l in Eq.
      assert (G : forall a b v, a <> [] -> (forall n, In n a -> name n) -> (forall n, In n b -> name n) -> String.concat "/" a ++ "/" ++ v = String.concat "/" b -> exists k, k <> [] /\ b = (a ++ k)%list); [|destruct (G (rs ++ ns)%list ts u Nrs Hrs Ht Eq) as (k & Nk & ->); now exists k].
      clear. induction a as [|n a IH]; intros b v N Ha Hb E; [congruence|]. destruct b as [|m b]; [exfalso; destruct a; cbn in E; destruct n; discriminate E|].
      destruct (Ha n (or_introl eq_refl)) as (_ & _ & _ & Fn). destruct (Hb m (or_introl eq_refl)) as (_ & _ & _ & Fm).
      assert (Em : n = m).
      { destruct a as [|n' a]; destruct b as [|m' b]; cbn [String.concat] in E.
        - apply (first_name n ("/" ++ v) m ""); auto; [eauto|now rewrite str_app_nil_r].
        - apply (first_name n ("/" ++ v) m ("/" ++ String.concat "/" (m' :: b))); eauto.
        - rewrite !str_app_assoc in E. apply (first_name n ("/" ++ String.concat "/" (n' :: a) ++ "/" ++ v) m ""); eauto. now rewrite str_app_nil_r.
        - rewrite !str_app_assoc in E. apply (first_name n ("/" ++ String.concat "/" (n' :: a) ++ "/" ++ v) m ("/" ++ String.concat "/" (m' :: b))); eauto. }
      subst m. destruct a as [|n' a].
      - destruct b as [|m' b].
        + exfalso. cbn [String.concat] in E. apply (f_equal String.length) in E. rewrite !str_app_length in E. cbn in E. lia.
        + now exists (m' :: b).
      - destruct b as [|m' b].
        + exfalso. apply (f_equal String.length) in E. change (String.concat "/" (n :: n' :: a)) with (n ++ "/" ++ String.concat "/" (n' :: a)) in E. cbn [String.concat] in E. rewrite !str_app_length in E. cbn in E. lia.
        + change (String.concat "/" (n :: n' :: a)) with (n ++ "/" ++ String.concat "/" (n' :: a)) in E. change (String.concat "/" (n :: m' :: b)) with (n ++ "/" ++ String.concat "/" (m' :: b)) in E. rewrite !str_app_assoc in E. apply str_app_inv_l in E. injection E as E.
          destruct (IH (m' :: b) v) as (k & Nk & Ek); [discriminate|intros z I; apply Ha; now right|intros z I; apply Hb; now right|exact E|]. exists k. split; [exact Nk|]. now rewrite Ek. }
    destruct P as (ks & Nk & ->). exists ks. split; [exact Nk|]. split; [intros n I; apply Ht; rewrite in_app_iff; now right|]. split; [rewrite Eq, Er, <- below_app, app_assoc; reflexivity|].
    intros a b Ea Na Nb. rewrite Er, <- below_app. apply (Dt (rs ++ a)%list b); [now rewrite <- !app_assoc, Ea|destruct rs; [congruence|discriminate]|exact Nb].
  Qed.
  Lemma dirname_below_inv ns q : nodes d !! q <> None -> (forall n, In n ns -> name n) -> dirname q = below C ns -> exists x, name x /\ q = below C (ns ++ [x]).
  Proof.
    intros N H E. destruct (nodes d !! q) as [x|] eqn:X; [|congruence]. destruct (Rd q x X) as (ts & Nt & Ht & Eq & _). destruct (exists_last Nt) as (a & n & Ea). subst ts. apply names_app in Ht as [Ha Hn]. assert (Nn : name n) by (apply Hn; now left).
    destruct (below_dirname "/" a n) as [Dn _]; [now left|exact Ha|exact Nn|]. rewrite Eq, Dn in E. exists n. split; [exact Nn|]. rewrite Eq, !below_snoc. now rewrite E.
  Qed.
  Lemma child_names ns x : (forall n, In n ns -> name n) -> In x (map basename (children (nodes d) (below C ns))) <-> name x /\ nodes d !! below C (ns ++ [x]) <> None.
  Proof.
    intros H. assert (A : C = "/" \/ absolute C) by (right; now destruct (stands_root C _ SC)). split.
    - intros I. apply in_map_iff in I as (q & <- & I). apply children_iff in I as [[y Y] E]. destruct (dirname_below_inv ns q) as (z & Nz & Eq); [rewrite Y; discriminate|exact H|exact E|].
      destruct (below_dirname C ns z A H Nz) as [_ B]. rewrite Eq, B. split; [exact Nz|]. rewrite <- Eq, Y. discriminate.
    - intros [Nx K]. destruct (below_dirname C ns x A H Nx) as [Dn B]. apply in_map_iff. exists (below C (ns ++ [x])). split; [exact B|]. apply children_iff. split; [|exact Dn]. destruct (nodes d !! below C (ns ++ [x])); [now eexists|congruence].
  Qed.
  Lemma child_names_once ns : (forall n, In n ns -> name n) -> List.NoDup (map basename (children (nodes d) (below C ns))).
  Proof.
    intros H. assert (A : C = "/" \/ absolute C) by (right; now destruct (stands_root C _ SC)).
    assert (K : forall l, List.NoDup l -> (forall q, In q l -> exists x, name x /\ q = below C (ns ++ [x])) -> List.NoDup (map basename l)).
    { induction l as [|q l IH]; intros N K; [constructor|]. inversion N as [|? ? N1 N2]; subst. cbn [map]. constructor; [|apply IH; [exact N2|intros p I; apply K; now right]].
      intros I. apply in_map_iff in I as (p & E & I). destruct (K q (or_introl eq_refl)) as (x & Nx & ->). destruct (K p (or_intror I)) as (y & Ny & ->).
      destruct (below_dirname C ns x A H Nx) as [_ Bx]. destruct (below_dirname C ns y A H Ny) as [_ By]. rewrite Bx, By in E. now subst y. }
    apply K.
    - unfold children. apply List.NoDup_filter. apply NoDup_ListNoDup. apply NoDup_fst_map_to_list.
    - intros q I. apply children_iff in I as [[y Y] E]. apply dirname_below_inv; [rewrite Y; discriminate|exact H|exact E].
  Qed.
End tree.
