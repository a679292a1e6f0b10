(** * Deciding the conditions on file systems, for the samples *)
From Coq Require Import String Ascii ZArith List.
From stdpp Require Import gmap strings relations.
From Verif Require Import Model.Py Model.InstallDB Model.System Model.Path Model.Fs Model.Ops Spec.PathSpec Spec.FsSpec Spec.SystemSpec Spec.OpsSpec
  Proof.PyFacts Proof.PathFacts Proof.InstallDBFacts Proof.FsFacts.
Open Scope string_scope.

Definition rel_check (s : string) : bool := forallb (fun c => negb (String.eqb c "")) (py_split slash s).
Lemma rel_check_ok s : rel_check s = true -> relative_path s.
Proof.
  intros H. unfold rel_check in H. rewrite forallb_forall in H. rewrite <- (join_split slash s). pose proof (split_pieces_no_sep slash s) as N. pose proof (split_nonempty slash s) as E.
  destruct (py_split slash s) as [|c cs]; [congruence|]. clear E. revert c H N. induction cs as [|d cs IH]; intros c H N.
  - apply rel_name; [|exact (Forall_inv N)]. specialize (H c (or_introl eq_refl)). now destruct (String.eqb_spec c "").
  - rewrite join_cons by discriminate. apply rel_under; [specialize (H c (or_introl eq_refl)); now destruct (String.eqb_spec c "")|exact (Forall_inv N)|].
    apply IH; [intros x Hx; apply H; now right|exact (Forall_inv_tail N)].
Qed.
Definition abs_check (p : string) : bool := match p with String "/" r => rel_check r | _ => false end.
Lemma abs_check_ok p : abs_check p = true -> absolute p.
Proof.
  destruct p as [|a r]; [discriminate|]. cbn [abs_check]. destruct a as [[|] [|] [|] [|] [|] [|] [|] [|]]; try discriminate.
  intros H. exists r. split; [now apply rel_check_ok|reflexivity].
Qed.
Definition tree_check (f : fs) : bool :=
  forallb (fun pn => abs_check pn.1 && bool_decide (node_at f (dirname pn.1) = Some NDir)) (map_to_list f).
Lemma tree_check_ok f : tree_check f = true -> tree f.
Proof.
  intros H p n E. unfold tree_check in H. rewrite forallb_forall in H. specialize (H (p, n)). rewrite <- elem_of_list_In in H. specialize (H (proj2 (elem_of_map_to_list f p n) E)).
  apply andb_prop in H as [H1 H2]. split; [now apply abs_check_ok|]. now apply bool_decide_eq_true in H2.
Qed.
Definition relative_check (s : sys) : bool :=
  forallb (fun n => match list_of s n with Ok l => forallb (fun fi => rel_check (f_path fi)) l | Err _ => true end) (list_installed (y_inst s)).
Lemma relative_check_ok s : relative_check s = true -> relative_lists s.
Proof.
  intros H n files fi I L Hf. unfold relative_check in H. rewrite forallb_forall in H. specialize (H n (proj2 (list_installed_spec _ _) I)). rewrite L in H.
  rewrite forallb_forall in H. apply rel_check_ok. now apply H.
Qed.
