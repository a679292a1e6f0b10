(** * Action scripts: what the functions change *)
From Coq Require Import String Ascii ZArith List Bool Lia.
From stdpp Require Import gmap strings.
From Verif Require Import Model.Py Model.InstallDB Model.Path Model.Fs Model.Trace Model.Actions Spec.PathSpec Spec.FsSpec Spec.ActionsSpec Proof.PyFacts Proof.PathFacts Proof.FsFacts Proof.TraceFacts Proof.ActionsPaths.
Import ListNotations.
Open Scope string_scope.
Open Scope prog_scope.

(** ** The install directory *)
Lemma str_app_inv_l (a b c : string) : a ++ b = a ++ c -> b = c.
Proof. induction a as [|x a IH]; [exact (fun e => e)|]. intros E. injection E as E. now apply IH. Qed.
Lemma below_length d ns : d <> "/" -> d <> "" -> String.length d + List.length ns <= String.length (below d ns).
Proof.
  intros A B. induction ns as [|n ns IH] using rev_ind; [cbn; lia|]. rewrite below_snoc, app_length. cbn [List.length]. unfold child.
  destruct (String.eqb_spec (below d ns) "/") as [E|_]; [|rewrite !str_app_length; cbn; lia].
  rewrite E in IH. cbn in IH. destruct d as [|c d]; [congruence|]. destruct d as [|c' d]; [|cbn in IH; lia]. destruct ns as [|m ns _] using rev_ind; [cbn in E; congruence|].
  rewrite app_length in IH. cbn in IH. lia.
Qed.
Lemma slash_length d r : String.length (d ++ "/" ++ r) = S (String.length d + String.length r).
Proof. rewrite !str_app_length. cbn. lia. Qed.
Lemma not_beneath_short d q : String.length q <= String.length d -> ~ beneath d q.
Proof. intros L [r ->]. rewrite slash_length in L. lia. Qed.
Lemma beneath_app d q r : beneath d q -> beneath d (q ++ r).
Proof. intros [s ->]. exists (s ++ r). now rewrite !str_app_assoc. Qed.
Lemma beneath_under d a q : beneath d a -> under a q = true -> beneath d q.
Proof.
  intros B H. unfold under in H. apply orb_true_iff in H as [H|H]; [apply String.eqb_eq in H as ->; exact B|]. apply startswith_iff in H as [r ->]. rewrite str_app_assoc. now apply beneath_app.
Qed.

Section place.
  Context (cwd root : string).

  Lemma stands_root f : stands f root -> absolute root /\ root <> "/" /\ root <> "" /\ ~ ends_in_slash root.
  Proof.
    intros (rs & N & H & -> & _). assert (A : absolute (below "/" rs)) by (apply below_absolute; auto). split; [exact A|]. split; [now apply absolute_root|].
    rewrite below_text_root by assumption. split; [discriminate|]. now apply concat_ends.
  Qed.
  Lemma below_prefix d a b : d = "/" \/ absolute d -> (forall n, In n (a ++ b) -> name n) -> a <> [] -> String.length (below d a) <= String.length (below d (a ++ b)).
  Proof.
    intros Hd H N. apply names_app in H as [Ha Hb]. rewrite below_app. assert (A : absolute (below d a)) by now apply below_absolute.
    pose proof (below_length (below d a) b (absolute_root _ A)) as L. assert (E : below d a <> "") by (destruct A as (r & _ & ->); discriminate). specialize (L E). lia.
  Qed.
  Lemma stands_same f g : same_but (beneath root) f g -> stands f root -> stands g root.
  Proof.
    intros E (rs & N & H & -> & D). exists rs. split; [exact N|]. split; [exact H|]. split; [reflexivity|]. intros a b Ea Na. rewrite E; [now apply (D a b)|].
    apply not_beneath_short. rewrite Ea. apply below_prefix; [now left|now rewrite <- Ea|exact Na].
  Qed.
  Lemma below_beneath ns : root <> "/" -> root <> "" -> ns <> [] -> beneath root (below root ns).
  Proof. intros A B N. rewrite below_text by assumption. now eexists. Qed.
  Lemma below_inj a b : root <> "/" -> root <> "" -> (forall n, In n a -> name n) -> (forall n, In n b -> name n) -> below root a = below root b -> a = b.
  Proof.
    intros R1 R2 Ha Hb E. destruct a as [|x a], b as [|y b]; [reflexivity| | |].
    - exfalso. pose proof (below_length root (y :: b) R1 R2) as L. rewrite <- E in L. cbn in L. lia.
    - exfalso. pose proof (below_length root (x :: a) R1 R2) as L. rewrite E in L. cbn in L. lia.
    - rewrite !below_text in E by (assumption || discriminate). rewrite <- !str_app_assoc in E. apply str_app_inv_l in E.
      rewrite <- (split_join "/" (x :: a)), <- (split_join "/" (y :: b)); [now f_equal|discriminate|now apply names_free|discriminate|now apply names_free].
  Qed.
  Lemma locate_below fl f ns : stands f root -> (forall n, In n ns -> name n) -> locate cwd fl f (below root ns) = walk 40 fl f root ns.
  Proof.
    intros (rs & N & H & -> & D) Hn. rewrite <- below_app. assert (A : (rs ++ ns)%list <> []) by (destruct rs; [congruence|discriminate]). assert (B : forall n, In n (rs ++ ns) -> name n) by (apply names_app; now split).
    pose proof (below_starts (rs ++ ns) A B "") as S1. rewrite str_app_nil_r in S1. rewrite locate_abs, split_below by assumption. rewrite walk_cons. cbn [String.eqb orb].
    rewrite walk_dirs; [reflexivity|exact H|]. intros a b E Na. rewrite node_at_map; [now apply (D a b)|]. apply absolute_root, below_absolute; [now left| |exact Na]. intros n I. apply H. rewrite E, in_app_iff. now left.
  Qed.
  Lemma locate_slash fl f : stands f root -> locate cwd fl f (root ++ "/") = Some root.
  Proof.
    intros (rs & N & H & -> & D). rewrite locate_abs by now apply below_starts.
    assert (E : py_split "/" (below "/" rs ++ "/") = (cons "" (app rs [""]))).
    { rewrite <- (split_join "/" (cons "" (app rs [""]))); [|discriminate|constructor; [intros []|]; apply List.Forall_app; split; [now apply names_free|repeat constructor; intros []]].
      f_equal. change (cons "" (app rs [""])) with (app (cons "" rs) [""]). change (py_join (String "/" "")) with (String.concat "/"). rewrite concat_snoc by discriminate. rewrite below_text_root by assumption. destruct rs; [congruence|]. reflexivity. }
    rewrite E, walk_cons. cbn [String.eqb orb]. rewrite walk_dirs; [|exact H|].
    - rewrite walk_cons. cbn [String.eqb orb]. apply walk_nil.
    - intros a b Ea Na. rewrite node_at_map; [now apply (D a b)|]. apply absolute_root, below_absolute; [now left| |exact Na]. intros n I. apply H. rewrite Ea, in_app_iff. now left.
  Qed.
  Definition place (ns : list string) : string := match ns with [] => root ++ "/" | _ => below root ns end.
  Lemma node_at_below f ns : root <> "/" -> root <> "" -> node_at f (below root ns) = f !! below root ns.
  Proof.
    intros A B. apply node_at_map. intros E. pose proof (below_length root ns A B) as L. rewrite E in L. cbn in L. destruct ns as [|n ns].
    - cbn in E. congruence.
    - destruct root as [|c r]; [congruence|]. cbn in L. lia.
  Qed.
  Lemma clear_link_free f ns (fl : bool) : root <> "/" -> root <> "" -> (if fl then clear f root ns else clear_to f root ns) -> link_free f root fl ns.
  Proof.
    intros R1 R2 C a b E N K t. rewrite node_at_below by assumption. destruct fl; [exact (C a b E N t)|]. destruct K as [|K]; [discriminate|]. exact (C a b E N K t).
  Qed.
  (** Where a path leads, if it leads anywhere *)
  Lemma locate_place (fl : bool) f ns q : stands f root -> (forall n, In n ns -> name n) -> (if fl then clear f root ns else clear_to f root ns) -> locate cwd fl f (place ns) = Some q ->
    q = below root ns /\ forall a b, ns = (a ++ b)%list -> a <> [] -> b <> [] -> f !! below root a = Some NDir.
  Proof.
    intros S H C L. destruct (stands_root f S) as (_ & R1 & R2 & _). destruct ns as [|n ns].
    - cbn [place] in L. rewrite locate_slash in L by exact S. injection L as <-. split; [reflexivity|]. intros a b E N. destruct a; [congruence|discriminate E].
    - cbn [place] in L. rewrite locate_below in L by assumption. apply walk_plain in L as [-> D]; [|exact H|now apply clear_link_free]. split; [reflexivity|].
      intros a b E N1 N2. rewrite <- (D a b E N1 N2). symmetry. now apply node_at_below.
  Qed.
  Lemma locate_reach fl f ns : stands f root -> (forall n, In n ns -> name n) -> (forall a b, ns = (a ++ b)%list -> a <> [] -> b <> [] -> f !! below root a = Some NDir) ->
    (fl = true -> ns <> [] -> no_link f (below root ns)) -> locate cwd fl f (place ns) = Some (below root ns).
  Proof.
    intros S H D L. destruct (stands_root f S) as (_ & R1 & R2 & _). destruct ns as [|n ns]; [now apply locate_slash|]. cbn [place]. rewrite locate_below by assumption. apply walk_reach; [exact H| |].
    - intros a b E N1 N2. rewrite node_at_below by assumption. now apply (D a b).
    - intros F N t. rewrite node_at_below by assumption. now apply L.
  Qed.
  Lemma root_there f : stands f root -> f !! root = Some NDir.
  Proof. intros (rs & N & H & -> & D). apply (D rs []); [now rewrite app_nil_r|exact N]. Qed.
  Lemma join_place f x ns ms : stands f root -> means x ms -> ns <> [] \/ ms <> [] -> (forall n, In n ns -> name n) ->
    join_path2 (below root ns) x = match ms with [] => below root ns ++ "/" | _ => below root (ns ++ ms) end.
  Proof.
    intros S M _ H. destruct (stands_root f S) as (A & R1 & R2 & R3). rewrite (join_means _ x ms M).
    - destruct ms; [reflexivity|]. now rewrite <- below_app.
    - destruct ns as [|n ns]; [exact R2|]. destruct (below_absolute root (n :: ns)) as (r & _ & ->); [now right|exact H|discriminate|discriminate].
    - destruct ns as [|n ns]; [exact R3|]. rewrite below_text by (assumption || discriminate). rewrite <- str_app_assoc. now apply concat_ends.
    - destruct ns as [|n ns]; [exact R1|]. apply absolute_root, below_absolute; [now right|exact H|discriminate].
  Qed.
  Lemma join_root f x ns : stands f root -> means x ns -> join_path2 root x = place ns.
  Proof. intros S M. destruct (stands_root f S) as (A & R1 & R2 & R3). now apply join_means. Qed.
  Lemma e_exists_root f : stands f root -> e_exists cwd f root = true.
  Proof.
    intros S. unfold e_exists, os_stat. destruct (stands_root f S) as (_ & R1 & _). pose proof (locate_below true f [] S) as L. rewrite walk_nil in L. cbn [below] in L. rewrite L by (intros ? []).
    rewrite node_at_map by exact R1. now rewrite root_there.
  Qed.
  Lemma e_exists_slash f : stands f root -> e_exists cwd f (root ++ "/") = true.
  Proof. intros S. unfold e_exists, os_stat. destruct (stands_root f S) as (_ & R1 & _). rewrite locate_slash by exact S. rewrite node_at_map by exact R1. now rewrite root_there. Qed.
  Strategy 100 [locate] 1000 [walk].

  (** ** Staying in the install directory *)
  Section inv.
    Context (f0 : fs) (S0 : stands f0 root).
    Definition inv (T : list string -> Prop) (g : fs) : Prop := same_but (beneath root) f0 g /\ forall ns, T ns -> clear g root ns.
    Lemma inv_stands T g : inv T g -> stands g root.
    Proof. intros [E _]. now apply (stands_same f0). Qed.
    Lemma R1 : root <> "/". Proof. now destruct (stands_root f0 S0) as (_ & ? & _). Qed.
    Lemma R2 : root <> "". Proof. now destruct (stands_root f0 S0) as (_ & _ & ? & _). Qed.
    Lemma inv_less T g g' : inv T g -> (forall q, ~ beneath root q -> g' !! q = g !! q) -> (forall q t, g' !! q = Some (NLink t) -> g !! q = Some (NLink t)) -> inv T g'.
    Proof.
      intros [E C] O L. split; [intros q N; rewrite O by exact N; now apply E|]. intros ns Hns a b Ea Na t K. apply L in K. now apply (C ns Hns a b Ea Na t).
    Qed.
    Lemma inv_insert T g q n : inv T g -> beneath root q -> (forall t, n <> NLink t) -> inv T (<[q := n]> g).
    Proof.
      intros I B N. apply (inv_less T g); [exact I| |].
      - intros p O. apply lookup_insert_ne. intros <-. contradiction.
      - intros p t. destruct (decide (q = p)) as [<-|Ne]; [rewrite lookup_insert; intros [= K]; now elim (N t)|now rewrite lookup_insert_ne].
    Qed.
    Lemma inv_delete T g q : inv T g -> beneath root q -> inv T (delete q g).
    Proof.
      intros I B. apply (inv_less T g); [exact I| |].
      - intros p O. apply lookup_delete_ne. intros <-. contradiction.
      - intros p t. destruct (decide (q = p)) as [<-|Ne]; [rewrite lookup_delete; intros K; discriminate K|now rewrite lookup_delete_ne].
    Qed.
    Lemma inv_rmtree T g q : inv T g -> beneath root q -> inv T (rmtree g q).
    Proof.
      intros I B. apply (inv_less T g); [exact I| |].
      - intros p O. unfold rmtree. destruct (g !! p) as [n|] eqn:E.
        + apply map_filter_lookup_Some. split; [exact E|]. cbn. destruct (under q p) eqn:U; [|reflexivity]. elim O. now apply (beneath_under root q).
        + apply map_filter_lookup_None. now left.
      - intros p t K. apply map_filter_lookup_Some in K as [K _]. exact K.
    Qed.
    Lemma inv_link T g ns t : inv T g -> (forall n, In n ns -> name n) -> ns <> [] -> (forall ms, T ms -> (forall n, In n ms -> name n) /\ forall b, ms <> (ns ++ b)%list) -> inv T (<[below root ns := NLink t]> g).
    Proof.
      intros [E C] H N K. split.
      - intros q O. rewrite lookup_insert_ne; [now apply E|]. intros <-. apply O. now apply below_beneath; [apply R1|apply R2|].
      - intros ms Hms a b Ea Na u. destruct (K ms Hms) as [Hn Hp]. rewrite lookup_insert_ne; [now apply (C ms Hms a b)|]. intros X. apply below_inj in X; [subst a; now apply (Hp b)|apply R1|apply R2|exact H|].
        intros n I. apply Hn. rewrite Ea, in_app_iff. now left.
    Qed.
    Lemma inv_weaken (T U : list string -> Prop) g : (forall ns, U ns -> T ns) -> inv T g -> inv U g.
    Proof. intros H [E C]. split; [exact E|]. intros ns Hns. apply C. now apply H. Qed.

    (** Making directories *)
    Definition dinv (ns : list string) (g : fs) : Prop := dirs_made root ns f0 g.
    Lemma dinv_inv ns T g : (forall n, In n ns -> name n) -> inv T f0 -> dinv ns g -> inv T g.
    Proof.
      intros H I D. apply (inv_less T f0); [exact I| |].
      - intros q O. destruct (D q) as [E|(_ & _ & a & b & -> & Na & ->)]; [exact E|]. elim O. now apply below_beneath; [apply R1|apply R2|].
      - intros q t K. destruct (D q) as [E|(_ & E & _)]; congruence.
    Qed.
    Lemma inv_self (T : list string -> Prop) : (forall ns, T ns -> clear f0 root ns) -> inv T f0.
    Proof. intros H. split; [intros q _; reflexivity|exact H]. Qed.
    Lemma dinv_refl ns : dinv ns f0. Proof. intros q. now left. Qed.
    Lemma dinv_stands ns g : (forall n, In n ns -> name n) -> dinv ns g -> stands g root.
    Proof. intros H D. apply (inv_stands (fun _ => False)). apply (dinv_inv ns); [exact H|now apply inv_self|exact D]. Qed.
    Lemma dinv_clear ns ms g : (forall n, In n ns -> name n) -> clear f0 root ms -> dinv ns g -> clear g root ms.
    Proof. intros H C D. apply (dinv_inv ns (eq ms)) in D as [_ D]; [now apply D|exact H|]. apply inv_self. now intros ? <-. Qed.
    Lemma dinv_mkdir full ns more g : full = (ns ++ more)%list -> ns <> [] -> g !! below root ns = None -> dinv full g -> dinv full (<[below root ns := NDir]> g).
    Proof.
      intros E N K D q. destruct (decide (below root ns = q)) as [<-|Ne].
      - right. rewrite lookup_insert. destruct (D (below root ns)) as [F|(_ & F & _)]; [|congruence]. rewrite <- F. split; [exact K|]. split; [reflexivity|]. now exists ns, more.
      - rewrite lookup_insert_ne by exact Ne. apply D.
    Qed.
    Lemma clear_prefix g ns more : clear g root (ns ++ more) -> clear g root ns.
    Proof. intros C a b -> N. apply (C a (b ++ more)%list); [now rewrite app_assoc|exact N]. Qed.
    Lemma clear_clear_to g ns : clear g root ns -> clear_to g root ns.
    Proof. intros C a b E N _. now apply (C a b). Qed.
    Lemma clear_to_snoc g a n : clear_to g root (a ++ [n]) <-> clear g root a.
    Proof.
      split.
      - intros C b c -> N. apply (C b (c ++ [n])%list); [now rewrite app_assoc|exact N|destruct c; discriminate].
      - intros C b c E Nb Nc. destruct c as [|m c _] using rev_ind; [congruence|]. rewrite app_assoc in E. apply app_inj_tail in E as [-> _]. now apply (C b c).
    Qed.
    Lemma place_below ns : ns <> [] -> place ns = below root ns. Proof. destruct ns; [congruence|reflexivity]. Qed.
    Lemma os_mkdir_keeps full ns more (P : fs -> Prop) : (forall n, In n full -> name n) -> clear f0 root full -> full = (ns ++ more)%list -> ns <> [] ->
      keeps (dinv full) P (os_mkdir cwd (below root ns)) (fun _ g => g !! below root ns = Some NDir).
    Proof.
      intros H C E N. unfold os_mkdir. apply keeps_read. intros g D _. destruct (locate cwd false g (below root ns)) as [q|] eqn:L; [|apply keeps_raise].
      assert (Hn : forall n, In n ns -> name n) by (intros n I; apply H; rewrite E, in_app_iff; now left).
      rewrite <- place_below in L by exact N. apply locate_place in L as [-> _]; [|now apply (dinv_stands full)|exact Hn|].
      - rewrite node_at_below by (apply R1 || apply R2). destruct (g !! below root ns) eqn:K; [apply keeps_raise|].
        apply keeps_change. intros s Ds ->. split; [now apply (dinv_mkdir full ns more)|apply lookup_insert].
      - apply clear_clear_to, (clear_prefix g ns more). rewrite <- E. now apply (dinv_clear full).
    Qed.
    Lemma below_parts ns n : (forall m, In m (ns ++ [n]) -> name m) -> dirname (below root (ns ++ [n])) = below root ns /\ basename (below root (ns ++ [n])) = n /\ n <> "" /\ below root ns <> "".
    Proof.
      intros H. destruct (stands_root f0 S0) as (A & _ & Rn & _). apply names_app in H as [Ha Hn]. assert (Nn : name n) by (apply Hn; now left). destruct (below_dirname root ns n) as [D B]; [now right|exact Ha|exact Nn|].
      split; [exact D|]. split; [exact B|]. split; [apply Nn|]. destruct ns as [|m ns]; [exact Rn|]. destruct (below_absolute root (m :: ns)) as (r & _ & ->); [now right|exact Ha|discriminate|discriminate].
    Qed.
    Lemma os_makedirs_keeps full k (P : fs -> Prop) : (forall n, In n full -> name n) -> clear f0 root full -> forall ns more, full = (ns ++ more)%list -> ns <> [] ->
      keeps (dinv full) P (os_makedirs cwd k (below root ns)) (fun _ g => g !! below root ns = Some NDir).
    Proof.
      intros H C. revert P. induction k as [|k IH]; intros P ns more E N; cbn [os_makedirs]; [apply keeps_raise|].
      destruct ns as [|n ns _] using rev_ind; [congruence|]. destruct (below_parts ns n) as (D & B & Nn & Nb); [intros m I; apply H; rewrite E, in_app_iff; now left|].
      rewrite B, (proj2 (String.eqb_neq _ _) Nn), D, B, (proj2 (String.eqb_neq _ _) Nb), (proj2 (String.eqb_neq _ _) Nn). cbn [negb andb].
      apply keeps_read. intros g Dg _. destruct (e_exists cwd g (below root ns)) eqn:X; cbn [negb].
      - now apply (os_mkdir_keeps full _ more).
      - destruct ns as [|m ns].
        + exfalso. change (below root []) with root in X. rewrite e_exists_root in X by exact (dinv_stands full g H Dg). discriminate X.
        + eapply keeps_then; [apply (IH (fun s => s = g) (m :: ns) ([n] ++ more)%list); [now rewrite app_assoc|discriminate]|]. intros u. apply (os_mkdir_keeps full _ more); assumption.
    Qed.
    Lemma error_keeps ig (I P : fs -> Prop) : keeps I P (error ig) (fun _ _ => ig = true).
    Proof. unfold error. destruct ig; [|apply keeps_raise]. eapply keeps_weaken; [apply (keeps_ret I P tt)|auto|auto]. Qed.
    Lemma or_error_keeps ig (I P : fs -> Prop) p (Q : unit -> fs -> Prop) : keeps I P p Q -> keeps I P (or_error ig p) (fun u g => ig = true \/ Q u g).
    Proof.
      intros K. unfold or_error. apply keeps_try; [eapply keeps_weaken; [exact K|auto|auto]|]. eapply keeps_weaken; [apply (error_keeps ig I (fun _ => True))|auto|auto].
    Qed.
    (** shelltools.makedirs of a place in the install directory *)
    Lemma makedirs_keeps ig ns (P : fs -> Prop) : (forall n, In n ns -> name n) -> clear f0 root ns ->
      keeps (dinv ns) P (makedirs cwd ig (place ns)) (fun _ g => ig = true \/ g !! below root ns <> None).
    Proof.
      intros H C. unfold makedirs. apply keeps_read. intros g D _. destruct (e_exists cwd g (place ns)) eqn:X.
      - eapply keeps_weaken; [apply (keeps_ret (dinv ns) (fun s => s = g) tt)|auto|]. intros _ s _ [_ ->]. right. unfold e_exists, os_stat in X. destruct (locate cwd true g (place ns)) as [q|] eqn:L; [|discriminate X].
        apply locate_place in L as [-> _]; [|now apply (dinv_stands ns)|exact H|now apply (dinv_clear ns)]. rewrite node_at_below in X by (apply R1 || apply R2). intros E. now rewrite E in X.
      - destruct ns as [|n ns].
        + exfalso. change (place []) with (root ++ "/") in X. rewrite e_exists_slash in X by exact (dinv_stands [] g H D). discriminate X.
        + eapply keeps_weaken; [apply or_error_keeps, (os_makedirs_keeps (n :: ns) _ (fun s => s = g) H C (n :: ns) []); [now rewrite app_nil_r|discriminate]|auto|].
          intros _ s _ [K|K]; [now left|right; congruence].
    Qed.

    (** From one invariant to another *)
    Lemma keeps_inv {A} (I J P : fs -> Prop) (p : prog fs A) (Q : A -> fs -> Prop) : (forall g, I g -> J g) -> keeps I (fun g => I g /\ P g) p Q -> forall g, I g -> P g ->
      (forall x, In x (states p g) -> J x) /\ (forall a, result p g = Ok a -> Q a (final p g)).
    Proof. intros IJ K g Ig Pg. destruct (K g Ig (conj Ig Pg)) as [A1 A2]. split; [|exact A2]. intros x X. now apply IJ, A1. Qed.
  End inv.
  (** Making a directory keeps any such invariant, whatever was done before. *)
  Lemma makedirs_inv f0 (T : list string -> Prop) ig ns (P : fs -> Prop) : stands f0 root -> (forall n, In n ns -> name n) -> T ns -> keeps (inv f0 T) P (makedirs cwd ig (place ns)) (fun _ _ => True).
  Proof.
    intros S0 H Tn g I _. pose proof (inv_stands f0 S0 T g I) as Sg. destruct I as [E C]. destruct (makedirs_keeps g Sg ig ns (fun _ => True) H (C ns Tn) g) as [A _]; [apply dinv_refl|exact Logic.I|].
    split; [|auto]. intros x X. apply A in X. apply (dinv_inv g Sg ns T) in X; [|exact H|now apply inv_self]. destruct X as [E' C']. split; [|exact C']. intros q O. rewrite E' by exact O. now apply E.
  Qed.
  Lemma keeps_top {A} (I P : fs -> Prop) (p : prog fs A) (Q : A -> fs -> Prop) : keeps I P p Q -> keeps I P p (fun _ _ => True).
  Proof. intros K. eapply keeps_weaken; [exact K|auto|auto]. Qed.
  Lemma keeps_ret_top {A} (I P : fs -> Prop) (a : A) : keeps I P (ret a) (fun _ _ => True).
  Proof. eapply keeps_top, keeps_ret. Qed.
  Lemma keeps_then_top {A B} (I P : fs -> Prop) (p : prog fs A) (q : A -> prog fs B) :
    keeps I P p (fun _ _ => True) -> (forall a, keeps I (fun _ => True) (q a) (fun _ _ => True)) -> keeps I P (andthen p q) (fun _ _ => True).
  Proof. intros Hp Hq. eapply keeps_then; [exact Hp|exact Hq]. Qed.
  Lemma keeps_each_top {A} (I : fs -> Prop) P (f : A -> prog fs unit) l : (forall x, In x l -> keeps I (fun _ => True) (f x) (fun _ _ => True)) -> keeps I P (each f l) (fun _ _ => True).
  Proof.
    revert P. induction l as [|x l IH]; intros P H; cbn [each]; [apply keeps_ret_top|]. apply keeps_then_top.
    - apply (keeps_weaken I P (fun _ => True) (f x) _ (fun _ _ => True)); [apply H; now left|auto|auto].
    - intros _. apply IH. intros y Y. apply H. now right.
  Qed.
  Lemma or_error_top ig (I P : fs -> Prop) p : keeps I P p (fun _ _ => True) -> keeps I P (or_error ig p) (fun _ _ => True).
  Proof. intros K. eapply keeps_top, or_error_keeps, K. Qed.
  Lemma error_top ig (I P : fs -> Prop) : keeps I P (error ig) (fun _ _ => True).
  Proof. eapply keeps_top, error_keeps. Qed.

  Section ops.
    Context (src tag : string) (ignore : bool) (expand : fs -> string -> list string) (runs : string -> fs -> bool).
    Context (f0 : fs) (S0 : stands f0 root).
    Notation inv := (inv f0).
    (** install *)
    Lemma install_inv (T : list string -> Prop) p ns P : (forall n, In n ns -> name n) -> T ns -> keeps (inv T) P (install_cmd cwd runs p (place ns)) (fun _ _ => True).
    Proof.
      intros H Tn. unfold install_cmd. apply keeps_read. intros g I _. pose proof (inv_stands f0 S0 T g I) as Sg. pose proof (proj2 I ns Tn) as C.
      destruct (os_stat cwd g p) as [[c| | |]|]; try apply keeps_ret_top.
      assert (B : forall q, match locate cwd true g (place ns) with Some q => match node_at g q with Some NDir => Some (child q (basename p)) | _ => locate cwd false g (place ns) end | None => None end = Some q -> beneath root q).
      { intros q. destruct (locate cwd true g (place ns)) as [d|] eqn:L; [|discriminate]. apply locate_place in L as [-> _]; [|exact Sg|exact H|exact C]. 
        rewrite node_at_below by (apply (R1 f0 S0) || apply (R2 f0 S0)). destruct (g !! below root ns) as [m|] eqn:M.
        - assert (K : Some (child (below root ns) (basename p)) = Some q -> beneath root q).
          { intros [= <-]. unfold child. destruct (String.eqb_spec (below root ns) "/") as [X|_].
            - exfalso. pose proof (below_length root ns (R1 f0 S0) (R2 f0 S0)) as L. rewrite X in L. cbn in L. pose proof (R1 f0 S0) as Ra. pose proof (R2 f0 S0) as Rb. destruct ns; [cbn in X; congruence|]. destruct root; [congruence|]. cbn in L. lia.
            - destruct ns as [|n ns]; [exists (basename p); reflexivity|]. apply beneath_app, below_beneath; [apply (R1 f0 S0)|apply (R2 f0 S0)|discriminate]. }
          assert (L : ns <> [] -> locate cwd false g (place ns) = Some q -> beneath root q).
          { intros N L. apply locate_place in L as [-> _]; [|exact Sg|exact H|now apply clear_clear_to]. apply below_beneath; [apply (R1 f0 S0)|apply (R2 f0 S0)|exact N]. }
          destruct m; try exact K; apply L; intros ->; cbn [below] in M; rewrite root_there in M by exact Sg; discriminate M.
        - intros L. apply locate_place in L as [-> _]; [|exact Sg|exact H|now apply clear_clear_to]. destruct ns; [|apply below_beneath; [apply (R1 f0 S0)|apply (R2 f0 S0)|discriminate]].
          cbn [below] in M. rewrite root_there in M by exact Sg. discriminate M. }
      set (target := match locate cwd true g (place ns) with Some q => _ | None => None end) in *. destruct target as [q|]; [|apply keeps_ret_top]. specialize (B q eq_refl).
      assert (K : keeps (inv T) (fun s => s = g) (if runs p g then change (fun f => <[q := NFile c]> f) else ret tt) (fun _ _ => True)).
      { destruct (runs p g); [|apply keeps_ret_top]. apply keeps_change. intros s Is _. split; [|exact Logic.I]. apply inv_insert; [exact Is|exact B|discriminate]. }
      destruct (node_at g q) as [[]|]; [exact K|apply keeps_ret_top|exact K|exact K|exact K].
    Qed.
    Lemma insert_inv (T : list string -> Prop) ns l P : (forall n, In n ns -> name n) -> T ns -> keeps (inv T) P (insert_into cwd src ignore expand runs (place ns) l) (fun _ _ => True).
    Proof.
      intros H Tn. unfold insert_into. destruct (_ || _); [apply keeps_raise|]. apply keeps_then_top; [now apply makedirs_inv|]. intros _. apply keeps_each_top. intros s _.
      apply keeps_read. intros g _ _. apply keeps_each_top. intros p _. now apply install_inv.
    Qed.
    (** ln -s *)
    Lemma symlink_inv (T : list string -> Prop) t ns P : (forall n, In n ns -> name n) -> ns <> [] -> (forall g, inv T g -> clear_to g root ns) -> (forall ms, T ms -> (forall n, In n ms -> name n) /\ forall b, ms <> (ns ++ b)%list) ->
      keeps (inv T) P (os_symlink cwd t (place ns)) (fun _ _ => True).
    Proof.
      intros H N C K. unfold os_symlink. apply keeps_read. intros g I _. pose proof (inv_stands f0 S0 T g I) as Sg. destruct (locate cwd false g (place ns)) as [q|] eqn:L; [|apply keeps_raise].
      apply locate_place in L as [-> _]; [|exact Sg|exact H|now apply C]. destruct (node_at g (below root ns)); [apply keeps_raise|]. apply keeps_change. intros s Is _. split; [|exact Logic.I]. now apply inv_link.
    Qed.
    Lemma lib_inv (T : list string -> Prop) s ns P : (forall n, In n ns -> name n) -> T ns -> py_startswith s "/" = true -> keeps (inv T) P (lib_insinto cwd ignore runs s (place ns)) (fun _ _ => True).
    Proof.
      intros H Tn A. unfold lib_insinto. apply keeps_then_top; [now apply makedirs_inv|]. intros _. apply keeps_read. intros g I _. rewrite A. destruct (e_islink cwd g s) eqn:X; [|now apply install_inv].
      assert (K : forall t, keeps (inv T) (fun x => x = g) (os_symlink cwd t s) (fun _ _ => True)).
      { intros t x Ix ->. unfold e_islink, os_lstat in X. unfold states, result, os_symlink. rewrite ask_eq. destruct (locate cwd false g s) as [q|]; [|discriminate X]. destruct (node_at g q) as [[]|]; try discriminate X.
        split; [intros y [<-|[]]; exact Ix|auto]. }
      destruct (locate cwd true g s); apply K.
    Qed.
    (** rm *)
    Lemma os_unlink_inv (T : list string -> Prop) ns P : (forall n, In n ns -> name n) -> ns <> [] -> (forall g, inv T g -> clear_to g root ns) -> keeps (inv T) P (os_unlink cwd (place ns)) (fun _ _ => True).
    Proof.
      intros H N C. unfold os_unlink. apply keeps_read. intros g I _. pose proof (inv_stands f0 S0 T g I) as Sg. destruct (locate cwd false g (place ns)) as [q|] eqn:L; [|apply keeps_raise].
      apply locate_place in L as [-> _]; [|exact Sg|exact H|now apply C].
      assert (K : keeps (inv T) (fun s => s = g) (change (fun f => delete (below root ns) f)) (fun _ _ => True)).
      { apply keeps_change. intros s Is _. split; [|exact Logic.I]. apply inv_delete; [exact Is|]. apply below_beneath; [apply (R1 f0 S0)|apply (R2 f0 S0)|exact N]. }
      destruct (node_at g (below root ns)) as [[]|]; try apply keeps_raise; exact K.
    Qed.
    Lemma unlink_inv (T : list string -> Prop) ns P : (forall n, In n ns -> name n) -> ns <> [] -> (forall g, inv T g -> clear_to g root ns) -> keeps (inv T) P (unlink cwd (place ns)) (fun _ _ => True).
    Proof.
      intros H N C. unfold unlink. apply keeps_read. intros g I _. destruct (_ || _); [|apply keeps_ret_top]. apply keeps_try; [now apply os_unlink_inv|apply keeps_ret_top].
    Qed.
    Lemma rmtree_inv (T : list string -> Prop) ns P : (forall n, In n ns -> name n) -> ns <> [] -> (forall g, inv T g -> clear_to g root ns) -> keeps (inv T) P (shutil_rmtree cwd (place ns)) (fun _ _ => True).
    Proof.
      intros H N C. unfold shutil_rmtree. apply keeps_read. intros g I _. pose proof (inv_stands f0 S0 T g I) as Sg. destruct (locate cwd false g (place ns)) as [q|] eqn:L; [|apply keeps_raise].
      apply locate_place in L as [-> _]; [|exact Sg|exact H|now apply C]. destruct (node_at g (below root ns)) as [[]|]; try apply keeps_raise. destruct (String.eqb _ _); [apply keeps_raise|].
      apply keeps_change. intros s Is _. split; [|exact Logic.I]. apply inv_rmtree; [exact Is|]. apply below_beneath; [apply (R1 f0 S0)|apply (R2 f0 S0)|exact N].
    Qed.
    Lemma unlinkDir_inv (T : list string -> Prop) ns P : (forall n, In n ns -> name n) -> ns <> [] -> (forall g, inv T g -> clear_to g root ns) -> keeps (inv T) P (unlinkDir cwd ignore (place ns)) (fun _ _ => True).
    Proof.
      intros H N C. unfold unlinkDir. apply keeps_read. intros g I _. destruct (_ || _); [apply or_error_top; now apply rmtree_inv|]. destruct (e_isfile cwd g (place ns)); [apply keeps_ret_top|apply error_top].
    Qed.
  End ops.
End place.

(** ** Moving and copying trees *)
Lemma under_iff a q : under a q = true <-> exists r, q = a ++ r /\ (r = "" \/ exists s, r = "/" ++ s).
Proof.
  unfold under. rewrite orb_true_iff, String.eqb_eq, startswith_iff. split.
  - intros [->|[s ->]]; [exists ""; rewrite str_app_nil_r; auto|]. exists ("/" ++ s). rewrite str_app_assoc. split; [reflexivity|right; now exists s].
  - intros (r & -> & [->|[s ->]]); [left; apply str_app_nil_r|right]. exists s. now rewrite str_app_assoc.
Qed.
Lemma drop_app a r : py_drop (String.length a) (a ++ r) = r.
Proof. induction a as [|c a IH]; [now destruct r|exact IH]. Qed.
Definition carried (f : fs) (a b : string) : fs :=
  list_to_map (map (fun kv : string * node => (b ++ py_drop (String.length a) kv.1, kv.2)) (map_to_list (filter (fun kv : string * node => under a kv.1 = true) f))).
Lemma carried_in f a b q n : (q, n) ∈ map (fun kv : string * node => (b ++ py_drop (String.length a) kv.1, kv.2)) (map_to_list (filter (fun kv : string * node => under a kv.1 = true) f)) <->
  exists r, q = b ++ r /\ under a (a ++ r) = true /\ f !! (a ++ r) = Some n.
Proof.
  rewrite elem_of_list_fmap. split.
  - intros ([k m] & [= -> ->] & K). cbn. apply elem_of_map_to_list, map_filter_lookup_Some in K as [K U]. cbn in U. pose proof U as V. apply under_iff in V as (r & -> & _). exists r. rewrite drop_app. auto.
  - intros (r & -> & U & K). exists (a ++ r, n). cbn. rewrite drop_app. split; [reflexivity|]. apply elem_of_map_to_list, map_filter_lookup_Some. auto.
Qed.
Lemma carried_lookup f a b r n : carried f a b !! (b ++ r) = Some n <-> under a (a ++ r) = true /\ f !! (a ++ r) = Some n.
Proof.
  unfold carried. rewrite <- elem_of_list_to_map.
  - rewrite carried_in. split; [intros (r' & E & H); apply str_app_inv_l in E as <-; exact H|intros H; exists r; auto].
  - rewrite <- list_fmap_compose. set (m := filter _ f). assert (D : base.NoDup (map_to_list m)) by apply NoDup_map_to_list.
    assert (K : forall k x, (k, x) ∈ map_to_list m -> exists r, k = a ++ r). { intros k x I. apply elem_of_map_to_list, map_filter_lookup_Some in I as [_ U]. cbn [fst] in U. apply under_iff in U as (s & -> & _). now exists s. }
    assert (Fu : forall k x y, (k, x) ∈ map_to_list m -> (k, y) ∈ map_to_list m -> x = y). { intros k x y. rewrite !elem_of_map_to_list. congruence. }
    induction (map_to_list m) as [|[k x] l IH]; [constructor|]. cbn. apply NoDup_cons in D as [D1 D2]. constructor.
    + rewrite elem_of_list_fmap. intros ([k' x'] & E & I). cbn in E. destruct (K k x) as [s ->]; [left|]. destruct (K k' x') as [s' ->]; [now right|]. rewrite !drop_app in E. apply str_app_inv_l in E as ->.
      apply D1. rewrite (Fu (a ++ s') x x'); [exact I|left|now right].
    + apply IH; [exact D2| |]; [intros k' y I; apply (K k' y); now right|intros k' y y' I I'; apply (Fu k'); now right].
Qed.
Lemma carried_none f a b q : (forall r, q <> b ++ r) -> carried f a b !! q = None.
Proof.
  intros N. unfold carried. apply not_elem_of_list_to_map. rewrite elem_of_list_fmap. intros ([k n] & -> & K). apply carried_in in K as (r & -> & _). now apply (N r).
Qed.
Lemma carried_under f a b q n : carried f a b !! q = Some n -> exists r, q = b ++ r /\ under b q = true /\ under a (a ++ r) = true /\ f !! (a ++ r) = Some n.
Proof.
  intros K. unfold carried in K. apply elem_of_list_to_map_2, carried_in in K as (r & -> & U & K). exists r. split; [reflexivity|]. split; [|auto].
  apply under_iff in U as (s & E & H). apply str_app_inv_l in E as <-. apply under_iff. now exists r.
Qed.
(** What is found after a move *)
Lemma moved_there f a b r : under b (b ++ r) = true -> moved f a b !! (b ++ r) = f !! (a ++ r).
Proof.
  intros U. unfold moved. fold (carried f a b). assert (N : filter (fun kv : string * node => under a kv.1 = false /\ under b kv.1 = false) f !! (b ++ r) = None).
  { apply map_filter_lookup_None. right. intros n _ [_ K]. cbn in K. congruence. }
  assert (V : under a (a ++ r) = true) by (apply under_iff in U as (s & E & H); apply str_app_inv_l in E as <-; apply under_iff; now exists r).
  rewrite lookup_union, N. destruct (f !! (a ++ r)) as [n|] eqn:E.
  - rewrite (proj2 (carried_lookup f a b r n)) by auto. reflexivity.
  - destruct (carried f a b !! (b ++ r)) eqn:K; [|reflexivity]. apply carried_lookup in K as [_ K]. congruence.
Qed.
Lemma moved_else f a b q : under b q = false -> moved f a b !! q = if under a q then None else f !! q.
Proof.
  intros U. unfold moved. fold (carried f a b). rewrite lookup_union. assert (C : carried f a b !! q = None). { destruct (carried f a b !! q) eqn:K; [|reflexivity]. apply carried_under in K as (r & _ & K & _). congruence. }
  rewrite C. destruct (under a q) eqn:V.
  - rewrite (proj2 (map_filter_lookup_None _ f q)); [reflexivity|]. right. intros n _ [K _]. cbn in K. congruence.
  - destruct (f !! q) as [n|] eqn:E.
    + rewrite (proj2 (map_filter_lookup_Some _ f q n)); [reflexivity|]. now split.
    + rewrite (proj2 (map_filter_lookup_None _ f q)); [reflexivity|now left].
Qed.
Lemma grafted_lookup f a b q : grafted f a b !! q = match carried f a b !! q with Some n => Some n | None => f !! q end.
Proof. unfold grafted. fold (carried f a b). rewrite lookup_union. destruct (carried f a b !! q), (f !! q); reflexivity. Qed.
