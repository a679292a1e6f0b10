(** * pisi clean *)
From Coq Require Import String Ascii List Bool Arith Lia.
From stdpp Require Import gmap strings.
From Verif Require Import Model.Py Model.InstallDB Model.Path Model.Fs Model.Trace Model.CleanLocks Spec.PathSpec Spec.FsSpec Spec.ActionsSpec Spec.CleanLocksSpec.
From Verif Require Import Proof.PyFacts Proof.PathFacts Proof.FsFacts Proof.TraceFacts Proof.CacheFacts.
Import ListNotations.
Open Scope string_scope.
Open Scope prog_scope.

(** ** Following links *)
Lemma follow_more f n : forall m p, n <= m -> follow n f p = Some NDir -> follow m f p = Some NDir.
Proof.
  induction n as [|n IH]; intros m p L H.
  - destruct m; [exact H|]. cbn in *. destruct (node_at f p) as [[]|]; congruence.
  - destruct m as [|m]; [lia|]. cbn in *. destruct (node_at f p) as [[]|]; try congruence. apply IH; [lia|exact H].
Qed.

Section walk.
  Context (f : fs).
  (** Only things that are no directories are gone. *)
  Definition less (g : fs) : Prop := forall q, g !! q = f !! q \/ (g !! q = None /\ stat f q <> Some NDir).

  Lemma less_follow g n : less g -> n <= 40 -> forall p, follow n g p = Some NDir <-> follow n f p = Some NDir.
  Proof.
    intros L. induction n as [|n IH]; intros B p; (destruct (String.eqb p "/") eqn:E; [cbn; unfold node_at; rewrite E; tauto|]);
      (assert (Ng : forall h : fs, node_at h p = h !! p) by (intros h; unfold node_at; now rewrite E));
      (destruct (L p) as [K|[K N]];
        [cbn; rewrite !Ng, K; destruct (f !! p) as [[]|]; try tauto; apply IH; lia
        |split; intros H; [exfalso; cbn in H; rewrite Ng, K in H; discriminate|exfalso; apply N; eapply follow_more; [|exact H]; exact B]]).
  Qed.
  Lemma less_isdir g p : less g -> isdir g p = isdir f p.
  Proof.
    intros L. pose proof (less_follow g 40 L (le_n _) p) as K. unfold isdir, stat. destruct (follow 40 g p) as [[]|] eqn:A, (follow 40 f p) as [[]|] eqn:B; try reflexivity; exfalso; destruct K as [K1 K2]; (discriminate (K1 eq_refl) || discriminate (K2 eq_refl)).
  Qed.
  Lemma isdir_stat p : isdir f p = true <-> stat f p = Some NDir.
  Proof. unfold isdir. destruct (stat f p) as [[]|]; split; congruence. Qed.
  Lemma less_dir g p : less g -> g !! p = Some NDir <-> f !! p = Some NDir.
  Proof.
    intros L. destruct (L p) as [->|[K N]]; [tauto|]. rewrite K. split; [discriminate|]. intros H. exfalso. apply N. unfold stat. cbn. unfold node_at. destruct (String.eqb p "/"); [reflexivity|]. now rewrite H.
  Qed.

  (** What is in [R] is gone, the rest as before. *)
  Definition cleared (R : string -> Prop) (g h : fs) : Prop := forall q, (R q -> h !! q = None) /\ (h !! q = g !! q \/ (h !! q = None /\ R q)).
  Lemma cleared_same (R : string -> Prop) g h : cleared R g h -> same_but R g h.
  Proof. intros C q N. destruct (C q) as [_ [E|[_ K]]]; [exact E|contradiction]. Qed.
  Lemma cleared_then (R S : string -> Prop) g h k : cleared R g h -> cleared S h k -> cleared (fun q => R q \/ S q) g k.
  Proof.
    intros A B q. destruct (A q) as [A1 A2], (B q) as [B1 B2]. split.
    - intros [K|K]; [|now apply B1]. destruct B2 as [->|[E _]]; [now apply A1|exact E].
    - destruct B2 as [->|[E K]]; [|right; auto]. destruct A2 as [->|[E K]]; [now left|right; auto].
  Qed.
  Lemma cleared_less (R : string -> Prop) g h : (forall q, R q -> stat f q <> Some NDir) -> less g -> cleared R g h -> less h.
  Proof. intros N L C q. destruct (C q) as [_ [->|[E K]]]; [apply L|right; auto]. Qed.
  Definition does_clear (p : prog fs unit) (g : fs) (R : string -> Prop) : Prop := exists h, did p g R tt h /\ cleared R g h.
  Lemma does_iff p g (R S : string -> Prop) : (forall q, R q <-> S q) -> does_clear p g R -> does_clear p g S.
  Proof.
    intros E (h & D & C). exists h. split; [eapply did_weaken; [|exact D]; intros q; apply E|]. intros q. destruct (C q) as [A B]. split; [intros K; now apply A, E|]. destruct B as [B|[B K]]; [now left|right; split; [exact B|now apply E]].
  Qed.
  Lemma does_ret g (R : string -> Prop) : (forall q, R q -> g !! q = None) -> does_clear (ret tt) g R.
  Proof. intros N. exists g. split; [apply did_ret|]. intros q. split; [apply N|now left]. Qed.
  Lemma does_then p q g (R S : string -> Prop) : (forall x, R x -> stat f x <> Some NDir) -> less g -> does_clear p g R -> (forall h, less h -> cleared R g h -> does_clear (q tt) h S) -> does_clear (x <~ p ;; q x) g (fun x => R x \/ S x).
  Proof.
    intros N L (h & D & C) K. destruct (K h (cleared_less R g h N L C) C) as (k & D2 & C2). exists k. split; [eapply did_then; [exact D|exact D2|now apply cleared_same]|eapply cleared_then; eassumption].
  Qed.

  Lemma ends_lock p : py_endswith p ".lock" = true <-> exists s, p = s ++ ".lock".
  Proof. apply endswith_iff. Qed.

  Lemma file_clear g p : g !! p <> Some NDir -> p <> "/" -> g !! p <> None -> does_clear (clean_file p) g (fun q => q = p /\ exists s, basename q = s ++ ".lock").
  Proof.
    intros N T E. unfold clean_file. destruct (py_endswith (basename p) ".lock") eqn:L.
    - apply ends_lock in L. exists (delete p g).
      assert (Run : unlink_now p g = ([delete p g], Ok tt)). { unfold unlink_now. rewrite ask_eq. unfold unlink. rewrite node_at_map by exact T. destruct (g !! p) as [[]|]; try congruence; reflexivity. }
      split.
      + unfold did, result, final, states. rewrite Run. repeat split. repeat constructor. cbn [fst]. intros q K. apply lookup_delete_ne. intros <-. apply K. now split.
      + intros q. split; [intros [-> _]; apply lookup_delete|]. destruct (string_dec p q) as [<-|Ne]; [right; split; [apply lookup_delete|now split]|left; now apply lookup_delete_ne].
    - apply does_ret. intros q [-> K]. apply ends_lock in K. congruence.
  Qed.

  Lemma files_clear l : List.NoDup l -> forall g, less g -> (forall p, In p l -> isdir f p = false /\ p <> "/" /\ g !! p <> None) ->
    does_clear (each clean_file l) g (fun q => In q l /\ exists s, basename q = s ++ ".lock").
  Proof.
    induction 1 as [|p l Np ND IH]; intros g L H.
    - apply does_ret. intros q [[] _].
    - cbn [each]. assert (St : forall q, isdir f q = false -> stat f q <> Some NDir) by (intros q A B; apply isdir_stat in B; congruence).
      destruct (H p (or_introl eq_refl)) as (Hp & Tp & Ep).
      eapply does_iff; [|eapply does_then; [|exact L|apply (file_clear g p)|]].
      2: { intros x [-> _]. now apply St. }
      2: { rewrite (less_dir g p L). intros K. apply (St p Hp). unfold stat. cbn. rewrite node_at_map by exact Tp. now rewrite K. }
      2: exact Tp. 2: exact Ep.
      2: { intros h Lh C. apply IH; [exact Lh|]. intros r I. destruct (H r (or_intror I)) as (A & B & D). split; [exact A|]. split; [exact B|]. destruct (C r) as [_ [->|[_ [-> _]]]]; [exact D|contradiction]. }
      intros q. cbn [In]. split; [intros [[-> K]|[I K]]; auto|intros [[->|I] K]; auto].
  Qed.

  (** ** The walk *)
  Hypothesis T : tree f.
  Definition gone (d q : string) : Prop := lies_in f d q /\ a_lock f q.

  Lemma child_longer d q n : f !! q = Some n -> dirname q = d -> String.length d < String.length q.
  Proof. intros E <-. destruct (T q n E) as [A _]. now apply absolute_dirname. Qed.

  Lemma not_root q n : f !! q = Some n -> q <> "/".
  Proof. intros E. apply absolute_root. now apply (T q n). Qed.

  Lemma dirs_clear n (IH : forall d g, less g -> f !! d = Some NDir -> (forall q, f !! q <> None -> String.length q < n + String.length d) -> does_clear (clean_walk n d) g (gone d)) :
    forall l g, less g -> (forall d, In d l -> isdir f d = true /\ f !! d <> None /\ forall q, f !! q <> None -> String.length q < n + String.length d) ->
    does_clear (each (fun d => g <~ ask (fun g => g) ;; if islink g d then ret tt else clean_walk n d) l) g (fun q => exists d, In d l /\ f !! d = Some NDir /\ gone d q).
  Proof.
    induction l as [|d l IHl]; intros g L H.
    - apply does_ret. intros q (d & [] & _).
    - cbn [each]. destruct (H d (or_introl eq_refl)) as (Hd & Ed & Fd).
      eapply does_iff; [|eapply (does_then _ _ g (fun q => f !! d = Some NDir /\ gone d q)); [|exact L| |intros h Lh _; apply IHl; [exact Lh|intros e I; apply H; now right]]].
      + intros q. split; [intros [[A B]|(e & I & A & B)]; [exists d; split; [now left|auto]|exists e; split; [now right|auto]]|intros (e & [<-|I] & A & B); [left; auto|right; now exists e]].
      + intros q (_ & _ & K). apply K.
      + assert (Gd : g !! d = f !! d). { destruct (L d) as [K|[_ K]]; [exact K|]. apply isdir_stat in Hd. contradiction. }
        assert (R : d <> "/") by (destruct (f !! d) eqn:X; [now apply (not_root d _ X)|congruence]).
        destruct (f !! d) as [[c| |t|]|] eqn:X; [| | | |congruence].
        * exfalso. apply isdir_stat in Hd. unfold stat in Hd. cbn in Hd. rewrite node_at_map, X in Hd by exact R. discriminate.
        * destruct (IH d g L X Fd) as (h & D & C). exists h. assert (E : (g0 <~ ask (fun g0 : fs => g0) ;; if islink g0 d then ret tt else clean_walk n d) g = clean_walk n d g) by (rewrite ask_eq; unfold islink; rewrite node_at_map by exact R; now rewrite Gd).
          split; [destruct D as (D1 & D2 & D3); unfold did, result, final, states in *; rewrite E; repeat split; [exact D1|exact D2|]; eapply List.Forall_impl; [|exact D3]; intros s K q N; apply K; intros G; now apply N|].
          intros q. destruct (C q) as [C1 C2]. split; [intros [_ G]; now apply C1|destruct C2 as [C2|[C2 G]]; [now left|right; auto]].
        * exists g. assert (E : (g0 <~ ask (fun g0 : fs => g0) ;; if islink g0 d then ret tt else clean_walk n d) g = ([], Ok tt)) by (rewrite ask_eq; unfold islink; rewrite node_at_map by exact R; now rewrite Gd).
          split; [unfold did, result, final, states; rewrite E; repeat split; repeat constructor|]. intros q. split; [intros [K _]; discriminate|now left].
        * exfalso. apply isdir_stat in Hd. unfold stat in Hd. cbn in Hd. rewrite node_at_map, X in Hd by exact R. discriminate.
  Qed.

  Lemma children_nodup (g : fs) d : List.NoDup (children g d).
  Proof. unfold children. apply List.NoDup_filter. apply NoDup_ListNoDup. apply NoDup_fst_map_to_list. Qed.

  Lemma walk_clear n : forall d g, less g -> node_at f d = Some NDir -> (forall q, f !! q <> None -> String.length q < n + String.length d) -> (n = O -> f !! d <> None) -> does_clear (clean_walk n d) g (gone d).
  Proof.
    induction n as [|n IH]; intros d g L Hd F Z; [exfalso; specialize (F d (Z eq_refl)); lia|].
    assert (Ld : listdir g d = Ok (children g d)).
    { unfold listdir. destruct (String.eqb d "/") eqn:E; [unfold node_at; now rewrite E|]. unfold node_at in Hd |- *. rewrite E in *. apply (less_dir g d L) in Hd. now rewrite Hd. }
    assert (Step : clean_walk (S n) d g = (_ <~ each clean_file (List.filter (fun p => negb (isdir g p)) (children g d)) ;;
          each (fun d => g <~ ask (fun g => g) ;; if islink g d then ret tt else clean_walk n d) (List.filter (isdir g) (children g d))) g) by (cbn [clean_walk]; now rewrite ask_eq, Ld).
    assert (In_g : forall q, g !! q <> None -> f !! q <> None) by (intros q; destruct (L q) as [->|[-> _]]; congruence).
    assert (K : does_clear (_ <~ each clean_file (List.filter (fun p => negb (isdir g p)) (children g d)) ;;
          each (fun d => g <~ ask (fun g => g) ;; if islink g d then ret tt else clean_walk n d) (List.filter (isdir g) (children g d))) g
          (fun q => (In q (List.filter (fun p => negb (isdir g p)) (children g d)) /\ exists s, basename q = s ++ ".lock") \/
                    exists e, In e (List.filter (isdir g) (children g d)) /\ f !! e = Some NDir /\ gone e q)).
    { apply does_then; [|exact L| |].
      - intros x [I _] St. apply List.filter_In in I as [_ I]. rewrite (less_isdir g x L) in I. apply isdir_stat in St. rewrite St in I. discriminate.
      - apply files_clear; [apply List.NoDup_filter, children_nodup|exact L|]. intros p I. apply List.filter_In in I as [I J]. rewrite (less_isdir g p L) in J. apply negb_true_iff in J. split; [exact J|].
        apply children_iff in I as [[x Ix] _]. split; [|congruence]. assert (X : f !! p <> None) by (apply In_g; congruence). destruct (f !! p) eqn:Y; [now apply (not_root p _ Y)|congruence].
      - intros h Lh _. apply dirs_clear; [|exact Lh|].
        + intros e k Lk Ee Fe. apply IH; [exact Lk|rewrite node_at_map by (now apply (not_root e _ Ee)); exact Ee|exact Fe|congruence].
        + intros e I. apply List.filter_In in I as [I J]. rewrite (less_isdir g e L) in J. split; [exact J|]. apply children_iff in I as [[x Ix] De]. assert (X : f !! e <> None) by (apply In_g; congruence). split; [exact X|].
          intros q Q. specialize (F q Q). destruct (f !! e) as [y|] eqn:Y; [|congruence]. pose proof (child_longer d e y Y De). lia. }
    destruct K as (h & D & C). exists h. split.
    - destruct D as (D1 & D2 & D3). unfold did, result, final, states in *. rewrite Step. split; [exact D1|]. split; [exact D2|]. eapply List.Forall_impl; [|exact D3]. intros s K q N. apply K. intros [[I E]|(e & I & Ee & G)].
      + apply N. apply List.filter_In in I as [I J]. apply children_iff in I as [[x Ix] De]. rewrite (less_isdir g q L) in J. split; [apply lies_here; [apply In_g; congruence|exact De]|]. split; [exact E|]. intros St. apply isdir_stat in St. rewrite St in J. discriminate.
      + apply N. apply List.filter_In in I as [I J]. apply children_iff in I as [_ De]. destruct G as [G1 G2]. split; [|exact G2]. now apply (lies_deeper f d e q).
    - intros q. destruct (C q) as [C1 C2]. split.
      + intros [G1 G2]. inversion G1 as [? ? Q De|? e ? Ee De G3]; subst.
        * destruct C2 as [C2|[C2 _]]; [|exact C2]. destruct (g !! q) as [x|] eqn:X; [|exact C2]. apply C1. left. split; [|apply G2]. apply List.filter_In. split; [apply children_iff; split; [now exists x|reflexivity]|]. rewrite (less_isdir g q L). apply negb_true_iff, not_true_iff_false. rewrite isdir_stat. apply G2.
        * apply C1. right. exists e. split; [|split; [exact Ee|now split]]. apply (less_dir g e L) in Ee as Ge. apply List.filter_In. split; [apply children_iff; split; [now exists NDir|reflexivity]|]. rewrite (less_isdir g e L). apply isdir_stat. unfold stat. cbn. rewrite node_at_map by (now apply (not_root e _ Ee)). now rewrite Ee.
      + destruct C2 as [C2|[C2 [[I E]|(e & I & Ee & G)]]]; [now left| |]; right; (split; [exact C2|]).
        * apply List.filter_In in I as [I J]. apply children_iff in I as [[x Ix] De]. rewrite (less_isdir g q L) in J. split; [apply lies_here; [apply In_g; congruence|exact De]|]. split; [exact E|]. intros St. apply isdir_stat in St. rewrite St in J. discriminate.
        * apply List.filter_In in I as [I J]. apply children_iff in I as [_ De]. destruct G as [G1 G2]. split; [|exact G2]. now apply (lies_deeper f d e q).
  Qed.

  Lemma clean_locks_did cwd : node_at f cwd = Some NDir ->
    result (clean_locks cwd) f = Ok tt /\ without_locks cwd f (final (clean_locks cwd) f) /\
    forall s q, In s (states (clean_locks cwd) f) -> ~ (lies_in f cwd q /\ a_lock f q) -> s !! q = f !! q.
  Proof.
    intros Hd. set (n := S (list_max (map (fun kv : string * node => String.length (fst kv)) (map_to_list f)))).
    destruct (walk_clear n cwd f) as (h & (D1 & D2 & D3) & C); [intros q; now left|exact Hd| |discriminate|].
    - intros q Q. destruct (f !! q) as [x|] eqn:X; [|congruence]. apply elem_of_map_to_list in X. apply elem_of_list_In in X.
      assert (M : String.length q <= list_max (map (fun kv : string * node => String.length (fst kv)) (map_to_list f))).
      { pose proof (proj1 (list_max_le (map (fun kv : string * node => String.length (fst kv)) (map_to_list f)) _) (le_n _)) as B. rewrite List.Forall_forall in B. apply B. apply in_map_iff. now exists (q, x). }
      unfold n. lia.
    - assert (E : clean_locks cwd f = clean_walk n cwd f) by (unfold clean_locks; now rewrite ask_eq).
      unfold result, final, states in *. rewrite E. split; [exact D1|]. split.
      + rewrite D2. split; [intros q A B; apply (C q); now split|]. intros q N. apply (cleared_same _ _ _ C). exact N.
      + intros s q I N. rewrite List.Forall_forall in D3. now apply (D3 s I).
  Qed.
End walk.
