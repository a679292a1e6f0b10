From Coq Require Import String Ascii List Bool Arith Lia.
From stdpp Require Import gmap strings.
From Verif Require Import Model.Py Model.Path Model.Contents Model.Abandoned Spec.PathSpec Spec.ContentsSpec Spec.AbandonedSpec.
From Verif Require Import Proof.PyFacts Proof.PathFacts Proof.ContentsFacts Proof.ContentsTop Proof.WildFacts.
Import ListNotations.
Open Scope string_scope.

Section abandoned.
  Context (install : string) (Pd : proper_dir install).

  Definition file_node (c : node) : bool := match c with NDir _ | NLink _ ToDir => false | _ => true end.
  Lemma file_node_iff c : file_node c = true <-> is_file c.
  Proof.
    destruct c as [ct|g [ct| |]|es]; cbn; split; intros H; try discriminate; try reflexivity.
    - left. now exists ct.
    - right. left. now exists g, ct.
    - destruct H as [[c K]|[(g' & c & K)|[g' K]]]; discriminate K.
    - right. right. now exists g.
    - destruct H as [[c K]|[(g' & c & K)|[g' K]]]; discriminate K.
  Qed.
  Definition deeper (root : string) : list (string * node) -> list string :=
    fix dirs (es : list (string * node)) : list string :=
      match es with
      | [] => []
      | (n, c) :: es => (match c with NDir _ => walk_files (join_path root [n]) c | _ => [] end ++ dirs es)%list
      end.
  Lemma walk_files_dir root es : walk_files root (NDir es) =
    (flat_map (fun e => match snd e with NDir _ | NLink _ ToDir => [] | _ => [join_path root [fst e]] end) es ++ deeper root es)%list.
  Proof. reflexivity. Qed.
  Lemma deeper_iff root es m : In m (deeper root es) <-> exists n c, In (n, c) es /\ is_directory c /\ In m (walk_files (join_path root [n]) c).
  Proof.
    induction es as [|[n c] es IH]; cbn [deeper]; [split; [intros []|intros (n & c & [] & _)]|]. rewrite in_app_iff. fold (deeper root es). rewrite IH. split.
    - intros [H|(n' & c' & I & R)]; [|exists n', c'; split; [now right|exact R]]. destruct c as [ct|g to|ds]; [destruct H|destruct H|]. exists n, (NDir ds). split; [now left|]. split; [now exists ds|exact H].
    - intros (n' & c' & [I|I] & D & H); [|right; now exists n', c']. injection I as -> ->. left. destruct D as [ds ->]. exact H.
  Qed.
  Lemma walk_files_iff t : well_formed t -> forall r, List.Forall good_name r -> forall m,
    In m (walk_files (install ++ text r) t) <-> exists f x, f <> [] /\ m = install ++ text (r ++ f)%list /\ lies_at t f x /\ is_file x.
  Proof.
    induction t as [c|g to|es IH] using node_induction; intros W r Fr m.
    - split; [intros []|]. intros (f & x & N & _ & L & _). inversion L; subst; congruence.
    - split; [intros []|]. intros (f & x & N & _ & L & _). inversion L; subst; congruence.
    - inversion W as [| |es' Nd K]; subst. rewrite walk_files_dir, in_app_iff, in_flat_map, deeper_iff. split.
      + intros [((n & c) & I & H)|(n & c & I & D & H)].
        * cbn [fst snd] in H. assert (F : file_node c = true) by (destruct c as [ct|g [ct| |]|ds]; [reflexivity|reflexivity|destruct H|reflexivity|destruct H]).
          assert (H' : In m [join_path (install ++ text r) [n]]) by (destruct c as [ct|g [ct| |]|ds]; [exact H|exact H|destruct H|exact H|destruct H]).
          destruct (K n c I) as [Gn _]. destruct H' as [<-|[]]. exists [n], c. split; [discriminate|]. split; [now apply join_root|]. split; [apply (lies_below es n c); [exact I|constructor]|now apply file_node_iff].
        * destruct (K n c I) as [Gn Wc]. rewrite join_root in H by assumption. apply (IH n c I Wc) in H as (f & x & N & -> & L & X); [|apply List.Forall_app; auto].
          exists (n :: f), x. split; [discriminate|]. split; [now rewrite <- app_assoc|]. split; [now apply (lies_below es n c)|exact X].
      + intros (f & x & N & -> & L & X). inversion L as [|es' n c q y I L']; subst; [congruence|]. destruct (K n c I) as [Gn Wc]. destruct q as [|n' q].
        * left. inversion L'; subst. exists (n, x). split; [exact I|]. cbn [fst snd]. apply file_node_iff in X. destruct x as [ct|g [ct| |]|ds]; try discriminate X; left; now apply join_root.
        * right. exists n, c. split; [exact I|]. split; [inversion L'; subst; now eexists|]. rewrite join_root by assumption.
          apply (IH n c I Wc); [apply List.Forall_app; auto|]. exists (n' :: q), x. split; [discriminate|]. split; [now rewrite <- app_assoc|]. now split.
  Qed.

  Context (t : node) (W : well_formed t) (D : is_directory t) (pkgs : list (list pathinfo)).
  Lemma all_paths_spec (X : all_patterns pkgs) m : In m (all_paths_in_packages install t pkgs) <-> exists q, m = install ++ text q /\ collected t pkgs q.
  Proof.
    unfold all_paths_in_packages. rewrite in_flat_map. split.
    - intros (l & Il & H). apply in_flat_map in H as (pi & Ip & H). apply In_nth_error in Il as [i Ei]. destruct (X i pi) as [p Ep]; [now exists l|].
      pose proof Ep as (_ & _ & Tp & _). rewrite Tp in H. apply (glob_iff install t Pd W pi p Ep) in H as (q & z & -> & M & L). exists q. split; [reflexivity|]. split; [|now exists z].
      exists i, pi, p. split; [now exists l|]. now split.
    - intros (q & -> & (i & pi & p & (l & El & Il) & Ep & M) & z & L). exists l. split; [exact (nth_error_In _ _ El)|]. apply in_flat_map. exists pi. split; [exact Il|].
      pose proof Ep as (_ & _ & Tp & _). rewrite Tp. apply (glob_iff install t Pd W pi p Ep). now exists q, z.
  Qed.
  Lemma already_iff (X : all_patterns pkgs) f : already_in_package (all_paths_in_packages install t pkgs) (install ++ text f) = true <->
    exists q, collected t pkgs q /\ begins_like f q.
  Proof.
    unfold already_in_package. rewrite existsb_exists. split.
    - intros (m & I & S). apply (all_paths_spec X) in I as (q & -> & C). exists q. split; [exact C|]. apply startswith_iff in S as [r S]. rewrite str_app_assoc in S. exists r.
      revert S. clear. induction install as [|a s IH]; [auto|]. cbn. intros H. injection H as H. now apply IH.
    - intros (q & C & r & E). exists (install ++ text q). split; [apply (all_paths_spec X); now exists q|]. apply startswith_iff. exists r. now rewrite E, str_app_assoc.
  Qed.
  Lemma lies_nonempty f x : lies_at t f x -> is_file x -> f <> [].
  Proof. intros L F ->. destruct D as [es ->]. inversion L; subst. destruct F as [[c K]|[(g & c & K)|[g K]]]; discriminate K. Qed.
  Lemma abandoned_iff (X : all_patterns pkgs) m : In m (get_abandoned_files install t pkgs) <->
    exists f x, m = install ++ text f /\ lies_at t f x /\ is_file x /\ ~ exists q, collected t pkgs q /\ begins_like f q.
  Proof.
    unfold get_abandoned_files. rewrite filter_In. assert (E0 : install = install ++ text []) by (cbn; now rewrite str_app_nil_r).
    assert (Wk : In m (walk_files install t) <-> exists f x, f <> [] /\ m = install ++ text f /\ lies_at t f x /\ is_file x).
    { rewrite E0 at 1. rewrite walk_files_iff by (assumption || constructor). reflexivity. }
    rewrite Wk. split.
    - intros [(f & x & N & -> & L & F) H]. exists f, x. split; [reflexivity|]. split; [exact L|]. split; [exact F|]. intros K. apply (already_iff X) in K. rewrite K in H. discriminate H.
    - intros (f & x & -> & L & F & H). split; [exists f, x; split; [exact (lies_nonempty f x L F)|auto]|]. apply negb_true_iff, not_true_is_false. intros K. now apply H, (already_iff X).
  Qed.
  Lemma file_produced f x : lies_at t f x -> is_file x -> produced t f x.
  Proof. intros L F. split; [exact L|]. intros es ->. destruct F as [[c K]|[(g & c & K)|[g K]]]; discriminate K. Qed.
  Lemma same_place (X : all_patterns pkgs) f x m : lies_at t f x -> is_file x -> m = install ++ text f -> In m (get_abandoned_files install t pkgs) ->
    ~ exists q, collected t pkgs q /\ begins_like f q.
  Proof.
    intros L F -> H. apply (abandoned_iff X) in H as (g & y & E & Lg & _ & H).
    assert (f = g) as ->; [|exact H]. apply text_inj; [exact (proj1 (lies_names _ _ _ W L))|exact (proj1 (lies_names _ _ _ W Lg))|].
    revert E. clear. induction install as [|a s IH]; [auto|]. cbn. intros H. injection H as H. now apply IH.
  Qed.
  (** What is reported is in no package *)
  Lemma reported_in_none (X : all_patterns pkgs) sha1 f i d : In (install ++ text f) (get_abandoned_files install t pkgs) -> List.Forall good_name f ->
    gen_files_xml sha1 install t pkgs i = Ok d -> d !! short f = None.
  Proof.
    intros H G E. destruct (wild_exact sha1 install t Pd W pkgs X i) as (d' & E' & C). rewrite E in E'. injection E' as <-.
    destruct (d !! short f) as [v|] eqn:Ed; [|reflexivity]. exfalso. destruct (proj1 (C (short f))) as (g & Eg & B); [rewrite Ed; now eexists|].
    destruct B as (x & q & [Lx Px] & Fu & Cq & _). assert (f = g) as <-.
    { apply short_inj; [exact G|exact (proj1 (lies_names _ _ _ W Lx))|exact Eg]. }
    apply (abandoned_iff X) in H as (g & y & E2 & Lg & Fy & H). assert (f = g) as <-.
    { apply text_inj; [exact G|exact (proj1 (lies_names _ _ _ W Lg))|]. revert E2. clear. induction install as [|a s IH]; [auto|]. cbn. intros H. injection H as H. now apply IH. }
    apply H. destruct Cq as [r ->]. exists q. split; [split; [now exists i|]|].
    - apply lies_split in Lx as (z & Lz & _). now exists z.
    - exists (text r). apply text_app.
  Qed.
  Lemma explicit_pattern pi p : explicit pi p -> pattern pi p.
  Proof. intros (N & F & T & _ & _ & B). split; [exact N|]. split; [exact F|]. now split. Qed.
  Lemma explicit_patterns : all_explicit pkgs -> all_patterns pkgs.
  Proof. intros X i pi L. destruct (X i pi L) as [p E]. exists p. now apply explicit_pattern. Qed.
  Lemma explicit_self pi p q p' : explicit pi p' -> pattern pi p -> matches_path p q -> q = p'.
  Proof.
    intros (N & F & T & A & B & C) (N' & F' & T' & _) M. assert (p = p') as -> by (apply text_inj; congruence). clear N N' T T' F'. apply free_text in A, B, C.
    assert (K : forall q, matches_path p' q -> q = p'); [|now apply K]. clear q M F. induction p' as [|a p' IH]; intros q M; inversion M as [|a' n p'' q' S M']; subst; [reflexivity|].
    inversion A; inversion B; inversion C; subst. f_equal; [|now apply IH]. destruct S as [[[H|H] _]|[_ ->]]; [contradiction|contradiction|reflexivity].
  Qed.
  (** ... and with explicit, unambiguous paths, the other way round *)
  Lemma in_none_reported (X : all_explicit pkgs) (U : unambiguous install t pkgs) sha1 f x : distinct_paths pkgs -> no_sandwich pkgs ->
    lies_at t f x -> is_file x ->
    In (install ++ text f) (get_abandoned_files install t pkgs) <-> forall i d, gen_files_xml sha1 install t pkgs i = Ok d -> d !! short f = None.
  Proof.
    intros Dp Sw L F. pose proof (explicit_patterns X) as Xp. pose proof (file_produced f x L F) as Pf. assert (G : List.Forall good_name f) by exact (proj1 (lies_names _ _ _ W L)). split.
    - intros H i d. exact (reported_in_none Xp sha1 f i d H G).
    - intros H. apply (abandoned_iff Xp). exists f, x. split; [reflexivity|]. split; [exact L|]. split; [exact F|].
      intros (q & [(i & pi & p & Li & Ep & M) z] & r & E). destruct (X i pi Li) as [p' Ep']. pose proof (explicit_self pi p q p' Ep' Ep M) as ->.
      assert (Np : names pkgs i p') by (exists pi; now split). assert (C : covers p' f).
      { apply (U i p' f x Np Pf). exists "", r. cbn. now rewrite E, str_app_assoc. }
      destruct (exactly_one sha1 install t pkgs Pd W X U f x i p' Dp Sw Pf Np C) as (j & q & _ & K). destruct (proj2 (K j) eq_refl) as (d & Ed & [v Hv]). rewrite (H j d Ed) in Hv. discriminate Hv.
  Qed.
End abandoned.
