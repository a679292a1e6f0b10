From Coq Require Import String Ascii ZArith List Bool Lia.
From stdpp Require Import gmap strings.
From Verif Require Import Model.Py Model.Version Model.Path Model.Rebuild Spec.VersionSpec Spec.PathSpec Spec.RebuildSpec
  Proof.PyFacts Proof.VersionFacts Proof.PathFacts Proof.RebuildFacts.
Import ListNotations.
Open Scope string_scope.

Lemma last_app {A} (l m : list A) x : List.last (l ++ m) x = List.last m (List.last l x).
Proof.
  destruct m as [|a m _] using rev_ind; [now rewrite app_nil_r|]. now rewrite app_assoc, !last_last.
Qed.

(** ** Stamps *)
Lemma first_line_none c : first_line c = None <-> c = "".
Proof. destruct c as [|a c]; [tauto|]. cbn [first_line]. split; intros H; [|discriminate H]. destruct (Ascii.eqb a newline); [discriminate H|]. destruct (first_line c); discriminate H. Qed.
Lemma first_line_says c l : first_line c = Some l <-> says c l.
Proof.
  revert l; induction c as [|a c IH]; intros l; cbn [first_line].
  - split; [discriminate|]. inversion 1 as [b rest F E E'|b N F E E']; subst; [destruct b; discriminate|congruence].
  - destruct (Ascii.eqb_spec a newline) as [->|Ne].
    + split.
      * intros [= <-]. apply (says_line "" c). easy.
      * inversion 1 as [b rest F E E'|b N F E E']; subst.
        -- destruct b as [|x b]; [reflexivity|]. cbn [String.append] in E. injection E as E1 E2. subst x. exfalso. apply F. now left.
        -- exfalso. apply F. now left.
    + destruct (first_line c) as [l0|] eqn:E0.
      * pose proof (proj1 (IH l0) eq_refl) as S0. split.
        -- intros [= <-]. inversion S0 as [b rest F E E'|b N F E E']; subst.
           ++ apply (says_line (String a b) rest). intros [K|K]; [now apply Ne|contradiction].
           ++ apply says_all; [discriminate|]. intros [K|K]; [now apply Ne|contradiction].
        -- intros H. inversion H as [b rest F E E'|b N F E E']; subst.
           ++ destruct b as [|x b]; [injection E as E1 E2; now elim Ne|]. cbn [String.append] in E. injection E as E1 E2. subst x c.
              assert (K : says (b ++ String newline rest) (b ++ String newline "")) by (apply says_line; intros K; apply F; now right).
              apply IH in K. injection K as ->. reflexivity.
           ++ inversion S0 as [b' rest' F' E1 E2|b' N' F' E1 E2]; subst; [|reflexivity]. exfalso. apply F. right.
              change (In newline (los (b' ++ String newline rest'))). rewrite los_app. apply in_app_iff. right. now left.
      * apply first_line_none in E0 as ->. split.
        -- intros [= <-]. apply says_all; [discriminate|]. intros [K|[]]. now apply Ne.
        -- intros H. inversion H as [b rest F E E'|b N F E E']; subst; [|reflexivity].
           destruct b as [|x b]; cbn [String.append] in E; injection E as E1 E2; [now elim Ne|]. destruct b; discriminate.
Qed.
Lemma says_fun c l l' : says c l -> says c l' -> l = l'.
Proof. rewrite <- !first_line_says. congruence. Qed.

Lemma stamp_cases c ver : readable_version ver ->
  c = "" \/ stamp_unreadable c \/ stamp_older c ver \/ stamp_same c ver \/ stamp_newer c ver.
Proof.
  intros (b & B). destruct (first_line c) as [l|] eqn:E; [right|left; now apply first_line_none]. apply first_line_says in E.
  destruct (parse_version l) as [a|e] eqn:P.
  - right. apply parse_syntax in P. destruct (vcompare_cases a b) as [[_ H]|[[_ H]|[_ H]]].
    + left. exists l. split; [assumption|]. now exists b, a.
    + right; left. exists l, a, b. auto.
    + right; right. exists l. split; [assumption|]. now exists a, b.
  - left. exists l. split; [assumption|]. intros (a & A). apply parse_syntax in A. congruence.
Qed.

Section home.
  Context {D : Type}.
  Implicit Types h s : home D.

  Definition stamp_with h f c : home D := set_stamps D h (<[ f := c ]> (h_stamps D h)).
  (** What stamping does, step by step *)
  Definition stamping (f ver : string) (write : bool) h : list (home D) * res unit :=
    if write && h_writable D h then ([stamp_with h f ""; stamp_with h f ver], Ok tt) else ([], Err EError).

  Lemma stamp_twice h f c c' : stamp_with (stamp_with h f c) f c' = stamp_with h f c'.
  Proof. unfold stamp_with, set_stamps. cbn. now rewrite insert_insert. Qed.

  Lemma write_stamp_eq h f ver write update first : update || first = true ->
    write_stamp D f ver write update first h = stamping f ver write h.
  Proof.
    intros H. unfold write_stamp, stamping. rewrite H, andb_true_r. destruct write; [|reflexivity]. cbn. destruct (h_writable D h); [|reflexivity].
    cbn. f_equal. f_equal. f_equal. unfold stamp_with, set_stamps. cbn. now rewrite insert_insert.
  Qed.

  Lemma check_missing h f ver write update : h_stamps D h !! f = None ->
    check_dbversion D f ver write update h = stamping f ver write h.
  Proof.
    intros H. unfold check_dbversion, andthen, ask. rewrite H. cbn [List.last].
    rewrite write_stamp_eq by apply orb_true_r. now destruct (stamping f ver write h).
  Qed.
  Lemma check_empty h f ver write update : h_stamps D h !! f = Some "" -> check_dbversion D f ver write update h = ([], Err EIndex).
  Proof. intros H. unfold check_dbversion, andthen, ask. rewrite H. reflexivity. Qed.
  Lemma check_unreadable h f ver write update c : h_stamps D h !! f = Some c -> stamp_unreadable c ->
    check_dbversion D f ver write update h = ([], Err EValue).
  Proof.
    intros H (l & S & U). unfold check_dbversion, andthen, ask. rewrite H. cbn [List.last]. apply first_line_says in S. rewrite S.
    apply parse_unreadable in U. unfold pure. rewrite U. reflexivity.
  Qed.
  Lemma check_older h f ver write update c : h_stamps D h !! f = Some c -> stamp_older c ver ->
    check_dbversion D f ver write update h = if update then stamping f ver write h else ([], Err EError).
  Proof.
    intros H (l & S & b & a & B & A & V). unfold check_dbversion, andthen, ask. rewrite H. cbn [List.last]. apply first_line_says in S. rewrite S.
    apply parse_syntax in A, B. unfold pure. rewrite A, B. cbn [List.last].
    apply vcompare_lt in V. unfold v_lt. rewrite V. cbn. destruct update; [|reflexivity]. cbn.
    rewrite write_stamp_eq by reflexivity. now destruct (stamping f ver write h).
  Qed.
  Lemma check_newer h f ver write update c : h_stamps D h !! f = Some c -> stamp_newer c ver ->
    check_dbversion D f ver write update h = ([], Err EError).
  Proof.
    intros H (l & S & a & b & A & B & V). unfold check_dbversion, andthen, ask. rewrite H. cbn [List.last]. apply first_line_says in S. rewrite S.
    apply parse_syntax in A, B. unfold pure. rewrite A, B. cbn [List.last].
    apply vcompare_gt in V. unfold v_lt, v_gt. rewrite V. reflexivity.
  Qed.
  Lemma check_same h f ver write update c : h_stamps D h !! f = Some c -> stamp_same c ver ->
    check_dbversion D f ver write update h = if update then stamping f ver write h else ([], Ok tt).
  Proof.
    intros H (l & a & b & S & A & B & V). unfold check_dbversion, andthen, ask. rewrite H. cbn [List.last]. apply first_line_says in S. rewrite S.
    apply parse_syntax in A, B. unfold pure. rewrite A, B. cbn [List.last].
    apply vcompare_eq in V. unfold v_lt, v_gt. rewrite V. cbn. destruct update; [|reflexivity]. cbn.
    rewrite write_stamp_eq by reflexivity. now destruct (stamping f ver write h).
  Qed.

  Lemma stamp_disjoint c ver :
    (c = "" -> ~ stamp_unreadable c /\ ~ stamp_older c ver /\ ~ stamp_same c ver /\ ~ stamp_newer c ver) /\
    (stamp_unreadable c -> ~ stamp_older c ver /\ ~ stamp_same c ver /\ ~ stamp_newer c ver) /\
    (stamp_older c ver -> ~ stamp_same c ver /\ ~ stamp_newer c ver) /\ (stamp_same c ver -> ~ stamp_newer c ver).
  Proof.
    split; [|split; [|split]].
    - intros ->. assert (N : forall l, ~ says "" l). { intros l S. apply first_line_says in S. discriminate. }
      repeat split; intros (l & H); [| | |]; first [now apply (N l)|destruct H as (? & ? & ?); now apply (N l)|idtac].
      all: try (destruct H as [S _]; now apply (N l)).
    - intros (l & S & U). repeat split.
      + intros (l' & S' & b & a & B & A & _). rewrite (says_fun _ _ _ S S') in U. apply U. now exists a.
      + intros (l' & a & b & S' & A & _). rewrite (says_fun _ _ _ S S') in U. apply U. now exists a.
      + intros (l' & S' & a & b & A & B & _). rewrite (says_fun _ _ _ S S') in U. apply U. now exists a.
    - intros (l & S & b & a & B & A & V). repeat split.
      + intros (l' & a' & b' & S' & A' & B' & V'). pose proof (says_fun _ _ _ S S') as <-.
        rewrite (syntax_fun _ _ _ A A'), (syntax_fun _ _ _ B B') in V. now apply (ver_before_not_same _ _ V).
      + intros (l' & S' & a' & b' & A' & B' & V'). pose proof (says_fun _ _ _ S S') as <-.
        rewrite (syntax_fun _ _ _ A A'), (syntax_fun _ _ _ B B') in V. now apply (ver_before_asym _ _ V).
    - intros (l & a & b & S & A & B & V) (l' & S' & a' & b' & A' & B' & V'). pose proof (says_fun _ _ _ S S') as <-.
      rewrite (syntax_fun _ _ _ A A'), (syntax_fun _ _ _ B B') in V. apply (ver_before_not_same _ _ V'). now apply ver_same_sym.
  Qed.

  Lemma stamping_ok h f ver write : snd (stamping f ver write h) = Ok tt <-> write = true /\ h_writable D h = true.
  Proof. unfold stamping. destruct write, (h_writable D h); cbn; split; intros H; try tauto; try discriminate; destruct H; discriminate. Qed.

  Lemma check_ok h f ver write update : readable_version ver ->
    snd (check_dbversion D f ver write update h) = Ok tt <-> acceptable ver write update (h_writable D h) (h_stamps D h !! f).
  Proof.
    intros R. unfold acceptable. destruct (h_stamps D h !! f) as [c|] eqn:E.
    - destruct (stamp_disjoint c ver) as (D1 & D2 & D3 & D4).
      destruct (stamp_cases c ver R) as [->|[U|[O|[S|N]]]].
      + rewrite (check_empty _ _ _ _ _ E). cbn. specialize (D1 eq_refl). split; [discriminate|].
        intros [(c & [= <-] & S & _)|(_ & _ & [?|(c & [= <-] & _ & [O|S])])]; try discriminate; tauto.
      + rewrite (check_unreadable _ _ _ _ _ _ E U). cbn. specialize (D2 U). split; [discriminate|].
        intros [(c' & [= <-] & S & _)|(_ & _ & [?|(c' & [= <-] & _ & [O|S])])]; try discriminate; tauto.
      + rewrite (check_older _ _ _ _ _ _ E O). specialize (D3 O). destruct update.
        * rewrite stamping_ok. split; [intros [-> ->]; right; repeat split; right; exists c; auto|].
          intros [(c' & [= <-] & S & _)|(-> & -> & _)]; [tauto|auto].
        * cbn. split; [discriminate|]. intros [(c' & [= <-] & S & _)|(_ & _ & [?|(c' & [= <-] & ? & _)])]; try discriminate; tauto.
      + rewrite (check_same _ _ _ _ _ _ E S). destruct update.
        * rewrite stamping_ok. split; [intros [-> ->]; right; repeat split; right; exists c; auto|].
          intros [(c' & _ & _ & ?)|(-> & -> & _)]; [discriminate|auto].
        * cbn. split; [intros _; left; exists c; auto|auto].
      + rewrite (check_newer _ _ _ _ _ _ E N). cbn. split; [discriminate|].
        intros [(c' & [= <-] & S & _)|(_ & _ & [?|(c' & [= <-] & _ & [O|S])])]; try discriminate; tauto.
    - rewrite check_missing by assumption. rewrite stamping_ok. split; [intros [-> ->]; right; auto|].
      intros [(c & ? & _)|(-> & -> & _)]; [discriminate|auto].
  Qed.

  (** The states passed through *)
  Lemma stamping_states h f ver write s : In s (fst (stamping f ver write h)) ->
    write = true /\ h_writable D h = true /\ (s = stamp_with h f "" \/ s = stamp_with h f ver).
  Proof. unfold stamping. destruct write, (h_writable D h); cbn; try easy. intros [<-|[<-|[]]]; auto. Qed.
  Lemma check_states h f ver write update s : readable_version ver -> In s (fst (check_dbversion D f ver write update h)) ->
    write = true /\ h_writable D h = true /\ (s = stamp_with h f "" \/ s = stamp_with h f ver) /\
    (h_stamps D h !! f = None \/ update = true).
  Proof.
    intros R H. destruct (h_stamps D h !! f) as [c|] eqn:E.
    - destruct (stamp_cases c ver R) as [->|[U|[O|[S|N]]]].
      + now rewrite (check_empty _ _ _ _ _ E) in H.
      + now rewrite (check_unreadable _ _ _ _ _ _ E U) in H.
      + rewrite (check_older _ _ _ _ _ _ E O) in H. destruct update; [|easy]. apply stamping_states in H. tauto.
      + rewrite (check_same _ _ _ _ _ _ E S) in H. destruct update; [|easy]. apply stamping_states in H. tauto.
      + now rewrite (check_newer _ _ _ _ _ _ E N) in H.
    - rewrite (check_missing _ _ _ _ _ E) in H. apply stamping_states in H. tauto.
  Qed.
  (** After a successful check *)
  Lemma check_final h f ver write update : readable_version ver -> snd (check_dbversion D f ver write update h) = Ok tt ->
    final D (check_dbversion D f ver write update) h =
    match h_stamps D h !! f with
    | Some _ => if update then stamp_with h f ver else h
    | None => stamp_with h f ver
    end.
  Proof.
    intros R H. unfold final. destruct (h_stamps D h !! f) as [c|] eqn:E.
    - destruct (stamp_cases c ver R) as [->|[U|[O|[S|N]]]].
      + now rewrite (check_empty _ _ _ _ _ E) in H.
      + now rewrite (check_unreadable _ _ _ _ _ _ E U) in H.
      + rewrite (check_older _ _ _ _ _ _ E O) in H |- *. destruct update; [|easy]. apply stamping_ok in H as [-> W]. unfold stamping. now rewrite W.
      + rewrite (check_same _ _ _ _ _ _ E S) in H |- *. destruct update; [|easy]. apply stamping_ok in H as [-> W]. unfold stamping. now rewrite W.
      + now rewrite (check_newer _ _ _ _ _ _ E N) in H.
    - rewrite (check_missing _ _ _ _ _ E) in H |- *. apply stamping_ok in H as [-> W]. unfold stamping. now rewrite W.
  Qed.

  Lemma readable_112 : readable_version "1.1.2".
  Proof. destruct (parse_version "1.1.2") as [v|] eqn:E; [exists v; now apply parse_syntax|discriminate]. Qed.
  Lemma same_112 : stamp_same "1.1.2" "1.1.2".
  Proof.
    destruct readable_112 as (v & V). exists "1.1.2", v, v. split; [apply first_line_says; reflexivity|]. repeat split; try assumption.
  Qed.
End home.
