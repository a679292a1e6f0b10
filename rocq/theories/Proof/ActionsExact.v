(** * Action scripts: exactly what is done *)
From Coq Require Import String Ascii ZArith List Bool Lia.
From stdpp Require Import gmap strings.
From Verif Require Import Model.Py Model.InstallDB Model.Path Model.Fs Model.Trace Model.Actions Spec.PathSpec Spec.FsSpec Spec.ActionsSpec Proof.PyFacts Proof.PathFacts Proof.FsFacts Proof.TraceFacts Proof.ActionsPaths Proof.ActionsFacts Proof.ActionsTop.
Import ListNotations.
Open Scope string_scope.
Open Scope prog_scope.

Lemma walk_true k f cur ns q : walk k false f cur ns = Some q -> (forall t, node_at f q <> Some (NLink t)) -> walk k true f cur ns = Some q.
Proof.
  revert cur ns. induction k as [|k IHk]; intros cur ns; revert cur; induction ns as [|c ns IH]; intros cur; rewrite ?walk_nil; try tauto; rewrite !walk_cons.
  - destruct (_ || _); [apply IH|]. destruct (String.eqb c ".."); [apply IH|]. destruct (node_at f (child cur c)) as [[]|] eqn:E; try tauto; [apply IH|]. destruct ns; [|tauto]. intros [= <-] K. now elim (K target).
  - destruct (_ || _); [apply IH|]. destruct (String.eqb c ".."); [apply IH|]. destruct (node_at f (child cur c)) as [[]|] eqn:E; try tauto; [apply IH|]. destruct ns; [|apply IHk]. intros [= <-] K. now elim (K target).
Qed.

Lemma last_slash s : free_of "/" s \/ exists u m, s = u ++ "/" ++ m /\ free_of "/" m.
Proof.
  induction s as [|c s [IH|(u & m & -> & F)]]; [left; intros []| |].
  - destruct (Ascii.eqb_spec c "/") as [->|N]; [right; exists "", s; now split|]. left. intros [K|K]; [congruence|contradiction].
  - right. exists (String c u), m. now split.
Qed.
Lemma last_slash_unique a n b m : a ++ "/" ++ n = b ++ "/" ++ m -> free_of "/" n -> free_of "/" m -> a = b /\ n = m.
Proof.
  intros E Fn Fm. change (a ++ "/" ++ n) with (a ++ String slash n) in E. change (b ++ "/" ++ m) with (b ++ String slash m) in E.
  pose proof (rfind_app slash a n Fn) as A. rewrite E, (rfind_app slash b m Fm) in A. injection A as L.
  assert (Eab : a = b). { rewrite <- (take_app a (String slash n)), <- (take_app b (String slash m)), E, L. reflexivity. }
  subst b. split; [reflexivity|]. apply str_app_inv_l in E. now injection E.
Qed.
Lemma abs_dirname x n : absolute (x ++ "/" ++ n) -> free_of "/" n -> x <> "" -> dirname (x ++ "/" ++ n) = x /\ n <> "".
Proof.
  intros (r & R & E) F N. destruct (rel_split_last r R) as [Fr|(d & m & D & Nm & Fm & ->)].
  - exfalso. destruct x as [|c x]; [congruence|]. injection E as _ E. apply Fr. rewrite <- E, los_app. apply in_app_iff. right. now left.
  - assert (E' : x ++ "/" ++ n = ("/" ++ d) ++ "/" ++ m) by (rewrite E; symmetry; apply (str_app_assoc "/" d)). apply last_slash_unique in E' as [-> ->]; [|exact F|exact Fm]. split; [|exact Nm].
    apply dirname_under; [discriminate| |exact Fm]. intros K. apply (ends_slash_app "/" d) in K; [now apply rel_no_end in K|now apply rel_nonempty].
Qed.
Lemma tree_below f A : tree f -> forall s m, f !! (A ++ "/" ++ s) = Some m -> A <> "" -> node_at f A = Some NDir.
Proof.
  intros Tr. assert (K : forall k s m, String.length s <= k -> f !! (A ++ "/" ++ s) = Some m -> A <> "" -> node_at f A = Some NDir); [|intros s m; now apply (K (String.length s))].
  induction k as [|k IH]; intros s m L E N; destruct (Tr _ _ E) as [Ab D].
  - destruct s; [|cbn in L; lia]. destruct (abs_dirname A "" Ab) as [_ X]; [intros []|exact N|congruence].
  - destruct (last_slash s) as [F|(u & n & -> & F)].
    + destruct (abs_dirname A s Ab F N) as [Ed _]. now rewrite Ed in D.
    + assert (Ep : A ++ "/" ++ u ++ "/" ++ n = (A ++ "/" ++ u) ++ "/" ++ n) by now rewrite !str_app_assoc. rewrite Ep in Ab, D. assert (Nx : A ++ "/" ++ u <> "") by (destruct A; discriminate).
      destruct (abs_dirname _ n Ab F Nx) as [Ed _]. rewrite Ed in D. destruct (String.eqb_spec (A ++ "/" ++ u) "/") as [X|X].
      * exfalso. destruct A as [|c A]; [congruence|]. destruct A; discriminate X.
      * rewrite node_at_map in D by exact X. apply (IH u NDir); [rewrite !str_app_length in L; cbn in L; lia|exact D|exact N].
Qed.

Section exact.
  Context (cwd root src tag : string) (expand : fs -> string -> list string) (runs : string -> fs -> bool).
  Notation place := (place root).

  Lemma lstat_stat f p c : os_lstat cwd f p = Some (NFile c) -> os_stat cwd f p = Some (NFile c).
  Proof.
    unfold os_lstat, os_stat. destruct (locate cwd false f p) as [q|] eqn:L; [|discriminate]. intros K. unfold locate in *. destruct (String.eqb p ""); [discriminate L|]. rewrite (walk_true _ _ _ _ _ L); [exact K|]. intros t. rewrite K. discriminate.
  Qed.
  Lemma locate_mono fl f g p q n : (forall x m, f !! x = Some m -> g !! x = Some m) -> locate cwd fl f p = Some q -> node_at f q = Some n -> locate cwd fl g p = Some q /\ node_at g q = Some n.
  Proof.
    intros M L K. assert (Mn : forall x m, node_at f x = Some m -> node_at g x = Some m) by (intros x m; unfold node_at; destruct (String.eqb x "/"); [auto|apply M]). split; [|now apply Mn].
    unfold locate in *. destruct (String.eqb p ""); [discriminate L|]. exact (walk_mono _ _ _ _ _ _ _ _ Mn L K).
  Qed.
  Lemma lstat_mono f g p n : (forall x m, f !! x = Some m -> g !! x = Some m) -> os_lstat cwd f p = Some n -> os_lstat cwd g p = Some n.
  Proof. unfold os_lstat. intros M. destruct (locate cwd false f p) as [q|] eqn:L; [|discriminate]. intros K. now destruct (locate_mono false f g p q n M L K) as [-> ->]. Qed.
  Lemma stat_mono f g p n : (forall x m, f !! x = Some m -> g !! x = Some m) -> os_stat cwd f p = Some n -> os_stat cwd g p = Some n.
  Proof. unfold os_stat. intros M. destruct (locate cwd true f p) as [q|] eqn:L; [|discriminate]. intros K. now destruct (locate_mono true f g p q n M L K) as [-> ->]. Qed.
  Lemma made_mono ns f g : dirs_made root ns f g -> forall x m, f !! x = Some m -> g !! x = Some m.
  Proof. intros D x m K. destruct (D x) as [E|(E & _)]; congruence. Qed.

  Lemma tree_prefix f a b : tree f -> stands f root -> (forall n, In n (a ++ b) -> name n) -> a <> [] -> b <> [] -> f !! below root (a ++ b) <> None -> f !! below root a = Some NDir.
  Proof.
    intros Tr S. destruct (stands_root root f S) as (A & R1 & R2 & _). induction b as [|n b IH] using rev_ind; [congruence|]. intros H Na _ K.
    rewrite app_assoc in H, K. apply names_app in H as [H1 H2]. destruct (f !! below root ((a ++ b) ++ [n])) as [m|] eqn:E; [|congruence]. destruct (Tr _ _ E) as [_ D].
    destruct (below_dirname root (a ++ b) n) as [Dn _]; [now right|exact H1|apply H2; now left|]. rewrite Dn, node_at_below in D by assumption. destruct b as [|m' b]; [now rewrite app_nil_r in D|]. apply IH; [exact H1|exact Na|discriminate|congruence].
  Qed.
  Definition dirs_to (f : fs) (ns : list string) : Prop := forall a b, ns = (a ++ b)%list -> a <> [] -> b <> [] -> f !! below root a = Some NDir.
  Lemma e_exists_reach f ns : stands f root -> (forall n, In n ns -> name n) -> dirs_to f ns -> ns <> [] -> no_link f (below root ns) -> f !! below root ns <> None -> e_exists cwd f (place ns) = true.
  Proof.
    intros S H D N L K. destruct (stands_root root f S) as (A & R1 & R2 & _). unfold e_exists, os_stat. rewrite locate_reach by auto. rewrite node_at_below by assumption. destruct (f !! below root ns); [reflexivity|congruence].
  Qed.
  Lemma e_exists_none f ns : stands f root -> (forall n, In n ns -> name n) -> clear f root ns -> f !! below root ns = None -> e_exists cwd f (place ns) = false.
  Proof.
    intros S H C K. destruct (stands_root root f S) as (A & R1 & R2 & _). unfold e_exists, os_stat. destruct (locate cwd true f (place ns)) as [q|] eqn:L; [|reflexivity]. apply locate_place in L as [-> _]; try assumption. now rewrite node_at_below, K by assumption.
  Qed.
  Lemma os_mkdir_ok f ns : stands f root -> (forall n, In n ns -> name n) -> ns <> [] -> dirs_to f ns -> f !! below root ns = None ->
    os_mkdir cwd (below root ns) f = ([<[below root ns := NDir]> f], Ok tt).
  Proof.
    intros S H N D K. destruct (stands_root root f S) as (A & R1 & R2 & _). unfold os_mkdir. rewrite ask_eq. replace (locate cwd false f (below root ns)) with (locate cwd false f (place ns)) by (f_equal; now apply place_ne). rewrite locate_reach by (assumption || discriminate). rewrite node_at_below, K by assumption. reflexivity.
  Qed.
  Lemma with_dirs_clear f g ns : stands f root -> (forall n, In n ns -> name n) -> dirs_made root ns f g -> stands g root.
  Proof. intros S H D. exact (dinv_stands root f S ns g H D). Qed.
  Lemma passable_dirs f g ns : passable root ns f -> with_dirs root ns f g -> forall a b, ns = (a ++ b)%list -> a <> [] -> g !! below root a = Some NDir.
  Proof. intros P [D W] a b E N. destruct (D (below root a)) as [X|(_ & X & _)]; [|exact X]. specialize (W a b E N). destruct (P a b E N); congruence. Qed.
  Lemma os_makedirs_ok k : forall f ns, tree f -> stands f root -> (forall n, In n ns -> name n) -> ns <> [] -> List.length ns < k -> passable root ns f -> f !! below root ns = None ->
    result (os_makedirs cwd k (below root ns)) f = Ok tt /\ with_dirs root ns f (final (os_makedirs cwd k (below root ns)) f).
  Proof.
    induction k as [|k IH]; intros f ns Tr S H N L P K; [lia|]. destruct (stands_root root f S) as (A & R1 & R2 & _). destruct ns as [|n ns _] using rev_ind; [congruence|]. destruct (below_parts root f S ns n H) as (D & B & Nn & Nb).
    assert (Hn : forall m, In m ns -> name m) by (apply names_app in H as [? _]; assumption).
    assert (Pn : passable root ns f) by (intros a b -> Na; apply (P a (b ++ [n])%list); [now rewrite app_assoc|exact Na]).
    assert (Fin : forall g, stands g root -> (forall a b, ns = (a ++ b)%list -> a <> [] -> g !! below root a = Some NDir) -> g !! below root (ns ++ [n]) = None -> dirs_made root ns f g ->
      os_mkdir cwd (below root (ns ++ [n])) g = ([<[below root (ns ++ [n]) := NDir]> g], Ok tt) /\ with_dirs root (ns ++ [n]) f (<[below root (ns ++ [n]) := NDir]> g)).
    { intros g Sg Dg Kg Mg. split.
      - apply os_mkdir_ok; [exact Sg|exact H|exact N| |exact Kg]. intros a b E Na Nb'. destruct b as [|m b _] using rev_ind; [congruence|]. rewrite app_assoc in E. apply app_inj_tail in E as [-> _]. now apply (Dg a b).
      - split.
        + intros q. destruct (decide (below root (ns ++ [n]) = q)) as [<-|Ne].
          * right. split; [exact K|]. split; [apply lookup_insert|]. exists (ns ++ [n])%list, []. now rewrite app_nil_r.
          * rewrite lookup_insert_ne by exact Ne. destruct (Mg q) as [X|(X1 & X2 & a & b & -> & Na & ->)]; [now left|right]. repeat split; try assumption. exists a, (b ++ [n])%list. now rewrite app_assoc.
        + intros a b E Na. destruct (decide (below root (ns ++ [n]) = below root a)) as [<-|Ne]; [now rewrite lookup_insert|]. rewrite lookup_insert_ne by exact Ne. destruct b as [|m b _] using rev_ind; [rewrite app_nil_r in E; now subst a|].
          rewrite app_assoc in E. apply app_inj_tail in E as [-> _]. rewrite (Dg a b eq_refl Na). discriminate. }
    unfold result, final. cbn [os_makedirs]. rewrite B, (proj2 (String.eqb_neq _ _) Nn), D, B, (proj2 (String.eqb_neq _ _) Nb), (proj2 (String.eqb_neq _ _) Nn). cbn [negb andb]. rewrite ask_eq.
    assert (Made0 : dirs_made root ns f f) by (intros q; now left).
    destruct ns as [|m ns].
    - change (below root []) with root. rewrite e_exists_root by exact S. cbn [negb]. destruct (Fin f S) as [-> W]; [intros a b E Na; destruct a; [congruence|discriminate E]|exact K|exact Made0|]. now split.
    - destruct (P (m :: ns) [n] eq_refl) as [Z|Z]; [discriminate| |].
      + assert (X : e_exists cwd f (below root (m :: ns)) = false).
        { apply (e_exists_none f (m :: ns) S Hn); [|exact Z]. intros a b E Na t X. destruct (Pn a b E Na); congruence. }
        rewrite X. cbn [negb]. destruct (IH f (m :: ns) Tr S Hn) as [Ok1 W1]; [discriminate|rewrite app_length in L; cbn in L |- *; lia|exact Pn|exact Z|].
        set (g := final (os_makedirs cwd k (below root (m :: ns))) f) in *. rewrite (andthen_ok _ _ f tt Ok1). fold g. destruct (Fin g) as [E2 W2].
        * exact (with_dirs_clear f g _ S Hn (proj1 W1)).
        * now apply passable_dirs with (f := f).
        * destruct (proj1 W1 (below root ((m :: ns) ++ [n]))) as [X5|(_ & _ & a & b & E & Na & X5)]; [congruence|]. exfalso. apply below_inj in X5; [|exact R1|exact R2|exact H|intros y I; apply Hn; rewrite E, in_app_iff; now left].
          rewrite <- X5 in E. apply (f_equal (@List.length string)) in E. rewrite !app_length in E. cbn in E. lia.
        * exact (proj1 W1).
        * rewrite E2. cbn [fst snd]. rewrite last_last. now split.
      + assert (Dm : forall a b, m :: ns = (a ++ b)%list -> a <> [] -> f !! below root a = Some NDir).
        { intros a b E Na. destruct b as [|x b]; [rewrite app_nil_r in E; now subst a|]. apply (tree_prefix f a (x :: b)); [exact Tr|exact S|now rewrite <- E|exact Na|discriminate|]. rewrite <- E, Z. discriminate. }
        assert (X : e_exists cwd f (below root (m :: ns)) = true).
        { apply (e_exists_reach f (m :: ns) S Hn); [intros a b E Na _; now apply (Dm a b)|discriminate|intros t; rewrite Z; discriminate|rewrite Z; discriminate]. }
        rewrite X. cbn [negb].
        destruct (Fin f S) as [-> W]; [exact Dm|exact K|exact Made0|]. now split.
  Qed.
  Lemma place_length ns : root <> "/" -> root <> "" -> List.length ns < S (String.length (place ns)).
  Proof. intros R1 R2. destruct ns as [|n ns]; [cbn; lia|]. rewrite place_ne by discriminate. pose proof (below_length root (n :: ns) R1 R2). lia. Qed.
  (** makedirs succeeds when it can, and then all the directories are there. *)
  Lemma makedirs_ok f ns : tree f -> stands f root -> (forall n, In n ns -> name n) -> clear f root ns -> passable_to root ns f ->
    result (makedirs cwd false (place ns)) f = Ok tt /\ with_dirs root ns f (final (makedirs cwd false (place ns)) f).
  Proof.
    intros Tr S H C P. destruct (stands_root root f S) as (A & R1 & R2 & _). unfold result, final, makedirs. rewrite ask_eq. destruct ns as [|n ns].
    - cbn [place]. rewrite e_exists_slash by exact S. split; [reflexivity|]. split; [intros q; now left|]. intros a b E N. destruct a; [congruence|discriminate E].
    - destruct (f !! below root (n :: ns)) as [m|] eqn:E.
      + assert (D : dirs_to f (n :: ns)). { intros a b Ea Na Nb. apply (tree_prefix f a b Tr S); [now rewrite <- Ea|exact Na|exact Nb|]. rewrite <- Ea, E. discriminate. }
        rewrite e_exists_reach; [|exact S|exact H|exact D|discriminate|apply (C (n :: ns) []); [now rewrite app_nil_r|discriminate]|rewrite E; discriminate]. split; [reflexivity|]. split; [intros q; now left|].
        intros a b Ea Na. change (fst (@ret fs unit tt f)) with (@nil fs). cbn [List.last]. destruct b as [|x b]; [rewrite app_nil_r in Ea; subst a; rewrite E; discriminate|]. rewrite (D a (x :: b) Ea Na); discriminate.
      + rewrite e_exists_none by assumption. assert (Pf : passable root (n :: ns) f). { intros a b Ea Na. destruct b as [|x b]; [rewrite app_nil_r in Ea; subst a; now left|]. now apply (P a (x :: b)). }
        destruct (os_makedirs_ok (Datatypes.S (String.length (place (n :: ns)))) f (n :: ns) Tr S H) as [Ok1 W1]; [discriminate|now apply place_length|exact Pf|exact E|].
        rewrite place_ne by discriminate. rewrite place_ne in Ok1, W1 by discriminate. unfold or_error, try_except. unfold result, final in Ok1, W1. destruct (os_makedirs _ _ _ f) as [t r]. cbn [fst snd] in *. rewrite Ok1. now split.
  Qed.
  (** and when it cannot, it is an error *)
  Lemma os_mkdir_inv f ns : stands f root -> (forall n, In n ns -> name n) -> ns <> [] -> clear f root ns -> result (os_mkdir cwd (below root ns)) f = Ok tt -> dirs_to f ns.
  Proof.
    intros S H N C. unfold result, os_mkdir. rewrite ask_eq. replace (locate cwd false f (below root ns)) with (locate cwd false f (place ns)) by (f_equal; now apply place_ne). destruct (locate cwd false f (place ns)) as [q|] eqn:L; [|discriminate].
    apply locate_place in L as [_ D]; [|exact S|exact H|now apply clear_clear_to]. intros _. exact D.
  Qed.
  Lemma os_makedirs_inv k f ns : stands f root -> (forall n, In n ns -> name n) -> ns <> [] -> clear f root ns -> result (os_makedirs cwd k (below root ns)) f = Ok tt -> passable_to root ns f.
  Proof.
    destruct k as [|k]; intros S H N C; [discriminate|]. destruct ns as [|n ns _] using rev_ind; [congruence|]. destruct (below_parts root f S ns n H) as (D & B & Nn & Nb).
    unfold result. cbn [os_makedirs]. rewrite B, (proj2 (String.eqb_neq _ _) Nn), D, B, (proj2 (String.eqb_neq _ _) Nb), (proj2 (String.eqb_neq _ _) Nn). cbn [negb andb]. rewrite ask_eq.
    destruct (e_exists cwd f (below root ns)) eqn:X; cbn [negb].
    - intros R. apply os_mkdir_inv in R; try assumption. intros a b E Na Nb'. right. now apply (R a b).
    - destruct ns as [|m ns]; [change (below root []) with root in X; rewrite e_exists_root in X by exact S; discriminate X|]. intros R.
      change (result (andthen (os_makedirs cwd k (below root (m :: ns))) (fun _ => os_mkdir cwd (below root ((m :: ns) ++ [n])))) f = Ok tt) in R. apply andthen_result in R as ([] & Ra & Rb & _).
      assert (Hm : forall y, In y (m :: ns) -> name y) by (apply names_app in H as [? _]; assumption).
      destruct (os_makedirs_keeps cwd root f S (m :: ns) k (fun _ => True) Hm (clear_prefix root f _ [n] C) (m :: ns) []) with (s := f) as [Ks _]; [now rewrite app_nil_r|discriminate|apply dinv_refl|exact Logic.I|].
      pose proof (Ks _ (final_state _ _)) as Mg. set (g := final _ f) in *. apply os_mkdir_inv in Rb; [|exact (with_dirs_clear f g _ S Hm Mg)|exact H|exact N|].
      + intros a b E Na Nb'. specialize (Rb a b E Na Nb'). destruct (Mg (below root a)) as [Y|(Y & _)]; [right; congruence|now left].
      + exact (dinv_clear root f S (m :: ns) _ g Hm C Mg).
  Qed.
  Lemma makedirs_inv' f ns : stands f root -> (forall n, In n ns -> name n) -> clear f root ns -> result (makedirs cwd false (place ns)) f = Ok tt -> passable_to root ns f.
  Proof.
    intros S H C. unfold result, makedirs. rewrite ask_eq. destruct (e_exists cwd f (place ns)) eqn:X.
    - intros _ a b E Na Nb. right. unfold e_exists, os_stat in X. destruct (locate cwd true f (place ns)) as [q|] eqn:L; [|discriminate X]. apply locate_place in L as [_ D]; [|exact S|exact H|exact C]. now apply (D a b).
    - destruct ns as [|n ns]; [cbn [place] in X; rewrite e_exists_slash in X by exact S; discriminate X|]. intros R. apply (os_makedirs_inv (Datatypes.S (String.length (place (n :: ns)))) f (n :: ns)); [exact S|exact H|discriminate|exact C|].
      unfold or_error, try_except in R. unfold result. rewrite <- (place_ne root (n :: ns)) by discriminate. destruct (os_makedirs _ _ _ f) as [t [[]|e]]; [reflexivity|]. cbn in R. destruct (is_os_error e); discriminate R.
  Qed.
  Lemma makedirs_iff f ns : tree f -> stands f root -> (forall n, In n ns -> name n) -> clear f root ns ->
    (result (makedirs cwd false (place ns)) f = Ok tt <-> passable_to root ns f) /\
    (result (makedirs cwd false (place ns)) f = Ok tt -> with_dirs root ns f (final (makedirs cwd false (place ns)) f)).
  Proof.
    intros Tr S H C. assert (K : result (makedirs cwd false (place ns)) f = Ok tt <-> passable_to root ns f). { split; [now apply makedirs_inv'|]. intros P. now apply makedirs_ok. }
    split; [exact K|]. intros R. apply K in R. now apply makedirs_ok.
  Qed.
  Lemma dodir_exact f d ds : tree f -> stands f root -> means d ds -> clear f root ds ->
    (result (dodir cwd root false d) f = Ok tt <-> passable_to root ds f) /\ (result (dodir cwd root false d) f = Ok tt -> with_dirs root ds f (final (dodir cwd root false d) f)).
  Proof. intros Tr S M C. unfold dodir. rewrite (join_root root f d ds S M). apply makedirs_iff; [exact Tr|exact S|exact (proj1 M)|exact C]. Qed.

  (** ** dosym *)
  Lemma dirs_made_new f g ns ms : root <> "/" -> root <> "" -> (forall n, In n ns -> name n) -> (forall n, In n ms -> name n) -> (forall b, ns <> (ms ++ b)%list) -> dirs_made root ns f g -> g !! below root ms = f !! below root ms.
  Proof.
    intros R1 R2 Hn Hm X D. destruct (D (below root ms)) as [E|(_ & _ & a & b & E & _ & Ea)]; [exact E|]. exfalso. apply below_inj in Ea; [|exact R1|exact R2|exact Hm|intros n I; apply Hn; rewrite E, in_app_iff; now left]. subst a. now apply (X b).
  Qed.
  Lemma snoc_longer {A} (a : list A) n b : a <> ((a ++ [n]) ++ b)%list.
  Proof. intros E. apply (f_equal (@List.length A)) in E. rewrite !app_length in E. cbn in E. lia. Qed.
  Lemma dirs_to_snoc f a n : (forall b c, a = (b ++ c)%list -> b <> [] -> f !! below root b = Some NDir) <-> dirs_to f (a ++ [n]).
  Proof.
    split.
    - intros H b c E Nb Nc. destruct c as [|m c _] using rev_ind; [congruence|]. rewrite app_assoc in E. apply app_inj_tail in E as [-> _]. now apply (H b c).
    - intros H b c -> N. apply (H b (c ++ [n])%list); [now rewrite app_assoc|exact N|destruct c; discriminate].
  Qed.
  Lemma dosym_exact f t x a n : tree f -> stands f root -> means x (a ++ [n]) -> clear f root a ->
    (result (dosym cwd root false t x) f = Ok tt <-> passable root a f /\ f !! below root (a ++ [n]) = None) /\
    (result (dosym cwd root false t x) f = Ok tt -> exists g, with_dirs root a f g /\ final (dosym cwd root false t x) f = <[below root (a ++ [n]) := NLink t]> g).
  Proof.
    intros Tr S M C. destruct (stands_root root f S) as (A & R1 & R2 & _). pose proof (means_dirname x a n M) as Md. unfold dosym. rewrite (join_root root f _ a S Md), (join_root root f x _ S M).
    destruct (makedirs_iff f a Tr S (proj1 Md) C) as [K1 K2]. set (p := makedirs cwd false (place a)) in *. set (q := or_error false _).
    assert (Step : forall g, with_dirs root a f g -> (result q g = Ok tt <-> passable root a f /\ f !! below root (a ++ [n]) = None) /\ (result q g = Ok tt -> final q g = <[below root (a ++ [n]) := NLink t]> g)).
    { intros g W. assert (Sg : stands g root) by (exact (with_dirs_clear f g a S (proj1 Md) (proj1 W))). assert (Ep : g !! below root (a ++ [n]) = f !! below root (a ++ [n])).
      { apply (dirs_made_new f g a (a ++ [n])); [exact R1|exact R2|exact (proj1 Md)|exact (proj1 M)|intros b; apply snoc_longer|exact (proj1 W)]. }
      assert (Cg : clear_to g root (a ++ [n])) by (apply clear_to_snoc; exact (dinv_clear root f S a a g (proj1 Md) C (proj1 W))).
      unfold q, or_error, try_except, result, final, os_symlink. rewrite ask_eq. destruct (locate cwd false g (place (a ++ [n]))) as [d|] eqn:L.
      - apply locate_place in L as [-> D]; [|exact Sg|exact (proj1 M)|exact Cg]. rewrite node_at_below, Ep by assumption. assert (P : passable root a f).
        { intros b c E N. destruct (proj1 W (below root b)) as [X|(X & _)]; [right|now left]. rewrite <- X. now apply (proj2 (dirs_to_snoc g a n) D b c). }
        destruct (f !! below root (a ++ [n])) eqn:F; cbn; [split; [split; [discriminate|intros [_ ?]; discriminate]|discriminate]|]. split; [|reflexivity]. tauto.
      - cbn. split; [|discriminate]. split; [discriminate|]. intros [P F]. exfalso. rewrite locate_reach in L; [discriminate L|exact Sg|exact (proj1 M)| |discriminate]. apply dirs_to_snoc. exact (passable_dirs f g a P W). }
    split.
    - split.
      + intros R. apply andthen_result in R as ([] & Ra & Rb & _). now apply (Step _ (K2 Ra)).
      + intros [P F]. assert (Ra : result p f = Ok tt) by (apply K1; intros b c E N _; now apply (P b c)). unfold result. rewrite (andthen_ok p _ f tt Ra). cbn [snd]. now apply (Step _ (K2 Ra)).
    - intros R. apply andthen_result in R as ([] & Ra & Rb & ->). exists (final p f). split; [now apply K2|]. now apply (Step _ (K2 Ra)).
  Qed.
  (** ** rename *)
  Lemma locate_place_tree f a n : tree f -> stands f root -> (forall m, In m (a ++ [n]) -> name m) -> f !! below root (a ++ [n]) <> None -> forall m, name m -> locate cwd false f (place (a ++ [m])) = Some (below root (a ++ [m])).
  Proof.
    intros Tr S H K m Nm. apply locate_reach; [exact S| | |discriminate].
    - apply names_app in H as [H _]. apply names_app. split; [exact H|now intros x [<-|[]]].
    - apply dirs_to_snoc. intros b c -> N. apply (tree_prefix f b (c ++ [n])); [exact Tr|exact S|now rewrite app_assoc|exact N|destruct c; discriminate|now rewrite app_assoc].
  Qed.
  Lemma below_ne a n m : root <> "/" -> root <> "" -> (forall x, In x (a ++ [n]) -> name x) -> name m -> n <> m -> below root (a ++ [n]) <> below root (a ++ [m]).
  Proof.
    intros R1 R2 H Nm N E. apply below_inj in E; [|exact R1|exact R2|exact H|]. { apply app_inj_tail in E as [_ E]. congruence. }
    apply names_app in H as [H _]. apply names_app. split; [exact H|now intros x [<-|[]]].
  Qed.
  Lemma rename_paths f s a n m : stands f root -> means s (a ++ [n]) -> name m -> rename cwd root false s m = or_error false (os_rename cwd (place (a ++ [n])) (place (a ++ [m]))).
  Proof.
    intros S M N. unfold rename, join_path. cbn [fold_left]. pose proof (means_dirname s a n M) as Md. rewrite (join_root root f _ a S Md), (join_root root f s _ S M). now rewrite (join_more root f S a m [m] (proj1 Md) (name_means m N)) by discriminate.
  Qed.
  Lemma not_top ns : root <> "/" -> root <> "" -> String.eqb (below root ns) "/" = false.
  Proof.
    intros R1 R2. apply String.eqb_neq. intros E. pose proof (below_length root ns R1 R2) as L. rewrite E in L. cbn in L. destruct ns as [|n ns]; [cbn in E; congruence|]. destruct root; [congruence|]. cbn in L. lia.
  Qed.
  (** A file, link or other non-directory gets its new name, in place of what had it. *)
  Lemma rename_file f s a n m x : tree f -> stands f root -> means s (a ++ [n]) -> name m -> n <> m -> f !! below root (a ++ [n]) = Some x -> x <> NDir -> f !! below root (a ++ [m]) <> Some NDir ->
    result (rename cwd root false s m) f = Ok tt /\
    forall q, final (rename cwd root false s m) f !! q = if String.eqb q (below root (a ++ [m])) then Some x else if String.eqb q (below root (a ++ [n])) then None else f !! q.
  Proof.
    intros Tr S M N Ne E Nd Nb. destruct (stands_root root f S) as (A & R1 & R2 & _). rewrite (rename_paths f s a n m S M N). set (P := below root (a ++ [n])) in *. set (Q := below root (a ++ [m])) in *.
    assert (La : locate cwd false f (place (a ++ [n])) = Some P) by (apply (locate_place_tree f a n Tr S (proj1 M)); [fold P; rewrite E; discriminate|apply (proj1 M); rewrite in_app_iff; right; now left]).
    assert (Lb : locate cwd false f (place (a ++ [m])) = Some Q) by (apply (locate_place_tree f a n Tr S (proj1 M)); [fold P; rewrite E; discriminate|exact N]).
    assert (PQ : P <> Q) by (apply below_ne; [exact R1|exact R2|exact (proj1 M)|exact N|exact Ne]).
    assert (Run : or_error false (os_rename cwd (place (a ++ [n])) (place (a ++ [m]))) f = ([moved f P Q], Ok tt)).
    { unfold or_error, try_except, os_rename. rewrite ask_eq, La, Lb. rewrite (proj2 (String.eqb_neq _ _) PQ). unfold P at 1, Q at 1. rewrite !not_top by assumption. cbn [orb]. replace (node_at f P) with (f !! P) by (symmetry; now apply node_at_below). replace (node_at f Q) with (f !! Q) by (symmetry; now apply node_at_below). rewrite E.
      destruct x; [| congruence | |]; (destruct (f !! Q) as [[]|] eqn:EQ; try reflexivity; congruence). }
    unfold result, final. rewrite Run. split; [reflexivity|]. cbn [fst List.last]. intros q.
    assert (NP : P <> "") by (intros X; pose proof (not_top (a ++ [n]) R1 R2); unfold P in X; pose proof (below_length root (a ++ [n]) R1 R2) as L; rewrite X, app_length in L; cbn in L; lia).
    assert (NQ : Q <> "") by (intros X; unfold Q in X; pose proof (below_length root (a ++ [m]) R1 R2) as L; rewrite X, app_length in L; cbn in L; lia).
    assert (DP : forall u, f !! (P ++ "/" ++ u) = None). { intros u. destruct (f !! (P ++ "/" ++ u)) eqn:X; [|reflexivity]. apply (tree_below f P Tr) in X; [|exact NP]. unfold P in X. rewrite node_at_below in X by assumption. fold P in X. congruence. }
    assert (DQ : forall u, f !! (Q ++ "/" ++ u) = None). { intros u. destruct (f !! (Q ++ "/" ++ u)) eqn:X; [|reflexivity]. apply (tree_below f Q Tr) in X; [|exact NQ]. unfold Q in X. rewrite node_at_below in X by assumption. fold Q in X. congruence. }
    destruct (under Q q) eqn:UQ.
    - pose proof UQ as V. apply under_iff in V as (r & -> & Hr). rewrite moved_there by exact UQ. destruct Hr as [->|[u ->]].
      + rewrite !str_app_nil_r, String.eqb_refl. exact E.
      + rewrite DP. destruct (String.eqb_spec (Q ++ "/" ++ u) Q) as [X|_]; [apply (f_equal String.length) in X; rewrite slash_length in X; lia|]. rewrite DQ. now destruct (String.eqb _ _).
    - rewrite moved_else by exact UQ. destruct (String.eqb_spec q Q) as [->|_]; [unfold under in UQ; rewrite String.eqb_refl in UQ; discriminate UQ|]. destruct (under P q) eqn:UP.
      + apply under_iff in UP as (r & -> & [->|[u ->]]); [now rewrite !str_app_nil_r, String.eqb_refl|]. rewrite DP. now destruct (String.eqb _ _).
      + destruct (String.eqb_spec q P) as [->|_]; [unfold under in UP; rewrite String.eqb_refl in UP; discriminate UP|reflexivity].
  Qed.
  (** What is not there cannot be renamed, and nothing happens. *)
  Lemma rename_missing f s a n m : tree f -> stands f root -> means s (a ++ [n]) -> name m -> clear f root a -> f !! below root (a ++ [n]) = None ->
    result (rename cwd root false s m) f = Err EError /\ final (rename cwd root false s m) f = f.
  Proof.
    intros Tr S M N C E. destruct (stands_root root f S) as (A & R1 & R2 & _). rewrite (rename_paths f s a n m S M N). unfold result, final, or_error, try_except, os_rename. rewrite ask_eq.
    destruct (locate cwd false f (place (a ++ [n]))) as [d|] eqn:La; [|now split]. apply locate_place in La as [-> _]; [|exact S|exact (proj1 M)|now apply clear_to_snoc].
    destruct (locate cwd false f (place (a ++ [m]))) as [e|]; [|now split]. rewrite node_at_below, E by assumption. destruct (String.eqb _ e); [now split|]. destruct (_ || _); now split.
  Qed.

  (** ** remove *)
  Lemma each_cons {A} (h : A -> prog fs unit) x l g g' : h x g = ([g'], Ok tt) \/ (h x g = ([], Ok tt) /\ g' = g) -> result (each h (x :: l)) g = result (each h l) g' /\ final (each h (x :: l)) g = final (each h l) g'.
  Proof.
    intros H. assert (R : result (h x) g = Ok tt /\ final (h x) g = g') by (unfold result, final; destruct H as [->|[-> ->]]; now split). destruct R as [R F]. cbn [each]. split.
    - unfold result at 1. rewrite (andthen_ok (h x) _ g tt R). cbn [snd]. now rewrite F.
    - rewrite (andthen_final (h x) _ g tt R). now rewrite F.
  Qed.
  Lemma unlink_exact g ns : stands g root -> (forall n, In n ns -> name n) -> ns <> [] -> clear_to g root ns -> (g !! below root ns <> None -> dirs_to g ns) ->
    unlink cwd (below root ns) g = if plain (g !! below root ns) then ([delete (below root ns) g], Ok tt) else ([], Ok tt).
  Proof.
    intros S H N C D. destruct (stands_root root g S) as (A & R1 & R2 & _). rewrite <- (place_ne root ns N) at 1. unfold unlink. rewrite ask_eq. unfold e_isfile, e_islink, os_stat, os_lstat.
    destruct (g !! below root ns) as [m|] eqn:E.
    - assert (L : locate cwd false g (place ns) = Some (below root ns)) by (apply locate_reach; [exact S|exact H|apply D; discriminate|discriminate]).
      assert (Lt : (forall t, m <> NLink t) -> locate cwd true g (place ns) = Some (below root ns)) by (intros X; apply locate_reach; [exact S|exact H|apply D; discriminate|]; intros _ _ t; rewrite E; congruence).
      rewrite L. rewrite node_at_below, E by assumption. unfold try_except, os_unlink.
      destruct m; try (rewrite Lt by discriminate; rewrite node_at_below, E by assumption); cbn [orb plain]; try reflexivity.
      + rewrite ask_eq, L, node_at_below, E by assumption. reflexivity.
      + rewrite orb_true_r. rewrite ask_eq, L, node_at_below, E by assumption. reflexivity.
    - assert (Z1 : match locate cwd false g (place ns) with Some q => node_at g q | None => None end = None).
      { destruct (locate cwd false g (place ns)) as [q|] eqn:L; [|reflexivity]. apply locate_place in L as [-> _]; [|exact S|exact H|exact C]. now rewrite node_at_below. }
      assert (Z2 : match locate cwd true g (place ns) with Some q => node_at g q | None => None end = None).
      { destruct (locate cwd true g (place ns)) as [q|] eqn:L; [|reflexivity]. apply locate_place in L as [-> _]; [|exact S|exact H|]; [now rewrite node_at_below|]. intros a b Ea Na. destruct b as [|x b]; [rewrite app_nil_r in Ea; subst a; intros t; rewrite E; discriminate|]. now apply (C a (x :: b)). }
      rewrite Z1, Z2. reflexivity.
  Qed.
  Lemma remove_loop f : tree f -> stands f root -> forall l g, (forall p, In p l -> found root f p) -> (forall q, g !! q = f !! q \/ (g !! q = None /\ plain (f !! q) = true)) -> stands g root ->
    result (each (unlink cwd) l) g = Ok tt /\ forall q, final (each (unlink cwd) l) g !! q = if bool_decide (q ∈ l) && plain (g !! q) then None else g !! q.
  Proof.
    intros Tr S. destruct (stands_root root f S) as (A & R1 & R2 & _). induction l as [|p l IH]; intros g F G Sg; [split; reflexivity|].
    destruct (F p (or_introl eq_refl)) as (a & n & H & -> & C). set (P := below root (a ++ [n])). assert (Na : (a ++ [n])%list <> []) by (destruct a; discriminate).
    assert (Cg : clear_to g root (a ++ [n])). { apply clear_to_snoc. intros b c E Nb t K. destruct (G (below root b)) as [X|[X _]]; [|congruence]. now apply (C b c E Nb t); rewrite <- X. }
    assert (Dg : g !! P <> None -> dirs_to g (a ++ [n])).
    { intros K b c E Nb Nc. destruct (G P) as [X|[X _]]; [|congruence]. assert (Y : f !! below root b = Some NDir) by (apply (tree_prefix f b c Tr S); [now rewrite <- E|exact Nb|exact Nc|]; rewrite <- E; fold P; now rewrite <- X).
      destruct (G (below root b)) as [Z|[_ Z]]; [congruence|]. rewrite Y in Z. discriminate Z. }
    pose proof (unlink_exact g (a ++ [n]) Sg H Na Cg Dg) as U. fold P in U. set (g' := if plain (g !! P) then delete P g else g).
    destruct (each_cons (unlink cwd) P l g g') as [E1 E2]. { unfold g'. rewrite U. destruct (plain (g !! P)); auto. }
    assert (L' : forall q, g' !! q = if String.eqb q P && plain (g !! q) then None else g !! q).
    { intros q. unfold g'. destruct (String.eqb_spec q P) as [->|Ne]; cbn [andb]; [destruct (plain (g !! P)); [apply lookup_delete|reflexivity]|]. destruct (plain (g !! P)); [apply lookup_delete_ne; congruence|reflexivity]. }
    destruct (IH g') as [I1 I2].
    - intros p Ip. apply F. now right.
    - intros q. rewrite L'. destruct (String.eqb q P && plain (g !! q)) eqn:K; [|apply G]. apply andb_true_iff in K as [_ K]. right. split; [reflexivity|]. destruct (G q) as [X|[X Y]]; [now rewrite <- X|exact Y].
    - apply (stands_same root g g'); [|exact Sg]. intros q O. rewrite L'. destruct (String.eqb_spec q P) as [->|_]; [|reflexivity]. elim O. now apply below_beneath.
    - rewrite E1, E2. split; [exact I1|]. intros q. rewrite I2, L'. destruct (String.eqb_spec q P) as [->|Ne]; cbn [andb].
      + rewrite (bool_decide_eq_true_2 (P ∈ P :: l)) by left. destruct (plain (g !! P)) eqn:K; cbn [andb plain]; [now rewrite andb_false_r|]. rewrite K, andb_false_r. reflexivity.
      + replace (bool_decide (q ∈ P :: l)) with (bool_decide (q ∈ l)); [reflexivity|]. apply bool_decide_ext. rewrite elem_of_cons. split; [now right|]. intros [K|K]; [congruence|exact K].
  Qed.
  Lemma remove_exact f s : tree f -> stands f root -> (forall p, In p (glob cwd expand f (join_path2 root s)) -> found root f p) ->
    result (remove cwd root expand s) f = Ok tt /\
    forall q, final (remove cwd root expand s) f !! q = if bool_decide (q ∈ glob cwd expand f (join_path2 root s)) && plain (f !! q) then None else f !! q.
  Proof.
    intros Tr S F. unfold result, final, remove. rewrite ask_eq. apply (remove_loop f Tr S _ f F); [intros q; now left|exact S].
  Qed.
  Lemma removeDir_exact f s a n : tree f -> stands f root -> means s (a ++ [n]) -> has_magic (below root (a ++ [n])) = false -> f !! below root (a ++ [n]) = Some NDir ->
    result (removeDir cwd root false expand s) f = Ok tt /\
    forall q, final (removeDir cwd root false expand s) f !! q = if under (below root (a ++ [n])) q then None else f !! q.
  Proof.
    intros Tr S M Mg E. destruct (stands_root root f S) as (A & R1 & R2 & _). set (P := below root (a ++ [n])) in *. assert (Na : (a ++ [n])%list <> []) by (destruct a; discriminate).
    assert (L : forall fl, locate cwd fl f (place (a ++ [n])) = Some P).
    { intros fl. apply locate_reach; [exact S|exact (proj1 M)| |intros _ _ t; fold P; rewrite E; discriminate]. intros b c Eb Nb Nc. apply (tree_prefix f b c Tr S); [rewrite <- Eb; exact (proj1 M)|exact Nb|exact Nc|]. rewrite <- Eb. fold P. rewrite E. discriminate. }
    assert (Np : node_at f P = Some NDir) by (unfold P; rewrite node_at_below by assumption; exact E).
    assert (G : glob cwd expand f (join_path2 root s) = [place (a ++ [n])]). { rewrite (join_root root f s _ S M). unfold glob. rewrite (place_ne root _ Na) at 1. fold P. rewrite Mg. unfold e_lexists, os_lstat. now rewrite L, Np. }
    assert (Run : removeDir cwd root false expand s f = ([rmtree f P], Ok tt)).
    { unfold removeDir. rewrite ask_eq, G. cbn [each]. assert (U : unlinkDir cwd false (place (a ++ [n])) f = ([rmtree f P], Ok tt)).
      { unfold unlinkDir. rewrite ask_eq. unfold e_isdir, os_stat. rewrite L, Np. cbn [orb]. unfold or_error, try_except, shutil_rmtree. rewrite ask_eq, L, Np. unfold P at 1. now rewrite not_top. }
      unfold andthen. rewrite U. reflexivity. }
    unfold result, final. rewrite Run. split; [reflexivity|]. intros q. cbn [fst List.last]. unfold rmtree. destruct (under P q) eqn:U.
    - apply map_filter_lookup_None. right. intros m _ K. cbn in K. congruence.
    - destruct (f !! q) eqn:Q; [apply map_filter_lookup_Some; now split|apply map_filter_lookup_None; now left].
  Qed.
  (** ** insinto of a file *)
  Lemma insinto_file f d ds s c : tree f -> stands f root -> means d ds -> clear f root ds -> passable root ds f -> has_magic s = false -> os_lstat cwd f s = Some (NFile c) -> name (basename s) ->
    (f !! below root (ds ++ [basename s]) = None \/ exists c', f !! below root (ds ++ [basename s]) = Some (NFile c')) ->
    result (insinto cwd root false expand d s "") f = Ok tt /\
    exists g, with_dirs root ds f g /\ final (insinto cwd root false expand d s "") f = <[below root (ds ++ [basename s]) := NFile c]> g.
  Proof.
    intros Tr S M C P Mg Ls Nb Fr. destruct (stands_root root f S) as (A & R1 & R2 & _). unfold insinto. cbn [String.eqb]. rewrite (join_root root f d ds S M).
    destruct (makedirs_ok f ds Tr S (proj1 M) C) as [Ra W]; [intros a b E Na _; now apply (P a b)|]. set (p := makedirs cwd false (place ds)) in *. set (g := final p f) in *.
    pose proof (made_mono ds f g (proj1 W)) as Mono. pose proof (with_dirs_clear f g ds S (proj1 M) (proj1 W)) as Sg. pose proof (lstat_mono f g s _ Mono Ls) as Lg. pose proof (lstat_stat g s c Lg) as Sg'.
    assert (Hd : forall m, In m (ds ++ [basename s]) -> name m) by (apply names_app; split; [exact (proj1 M)|now intros m [<-|[]]]). set (Q := below root (ds ++ [basename s])) in *.
    assert (EQ : g !! Q = f !! Q). { apply (dirs_made_new f g ds (ds ++ [basename s])); [exact R1|exact R2|exact (proj1 M)|exact Hd|intros b; apply snoc_longer|exact (proj1 W)]. }
    assert (L : locate cwd true g (place (ds ++ [basename s])) = Some Q).
    { apply locate_reach; [exact Sg|exact Hd| |intros _ _ t; fold Q; rewrite EQ; destruct Fr as [->|[c' ->]]; discriminate]. apply dirs_to_snoc. exact (passable_dirs f g ds P W). }
    assert (NQ : node_at g Q = f !! Q) by (unfold Q; rewrite node_at_below by assumption; exact EQ).
    assert (Gl : glob cwd expand g s = [s]) by (unfold glob, e_lexists; now rewrite Mg, Lg).
    assert (Cp : copy cwd false expand s (place (ds ++ [basename s])) g = ([<[Q := NFile c]> g], Ok tt)).
    { unfold copy. rewrite ask_eq, Gl. cbn [each]. assert (Co : copy_one cwd false s (place (ds ++ [basename s])) g = ([<[Q := NFile c]> g], Ok tt)).
      { unfold copy_one. rewrite ask_eq. unfold e_isfile, e_islink at 1. rewrite Sg', Lg. cbn [negb andb]. unfold or_error, try_except, shutil_copy. rewrite ask_eq, Sg'. unfold e_isdir, os_stat. rewrite L, NQ. unfold os_write.
        destruct Fr as [X|[c' X]]; rewrite X, ask_eq, L, NQ, X; reflexivity. }
      unfold andthen. rewrite Co. reflexivity. }
    set (q := each _). assert (Run : (f <~ ask (fun f => f) ;; q (glob cwd expand f s)) g = ([<[Q := NFile c]> g], Ok tt)).
    { rewrite ask_eq, Gl. unfold q. cbn [each]. unfold andthen at 1. rewrite ask_eq. unfold e_exists. rewrite Sg'. rewrite (join_root root f _ (ds ++ [basename s]) S) by (apply means_join; [exact M|now apply name_means|discriminate]). rewrite Cp. reflexivity. }
    split.
    - unfold result. rewrite (andthen_ok p _ f tt Ra). cbn [snd]. fold g. now rewrite Run.
    - exists g. split; [exact W|]. rewrite (andthen_final p _ f tt Ra). fold g. unfold final. now rewrite Run.
  Qed.
  (** ** dobin and the like *)
  Lemma install_result p d f : result (install_cmd cwd runs p d) f = Ok tt.
  Proof.
    unfold result, install_cmd. rewrite ask_eq. destruct (os_stat cwd f p) as [[]|]; try reflexivity. destruct (match locate cwd true f d with Some q => _ | None => None end) as [q|]; [|reflexivity].
    destruct (node_at f q) as [[]|]; try reflexivity; destruct (runs p f); reflexivity.
  Qed.
  Lemma each_result {A} (h : A -> prog fs unit) l : (forall x f, result (h x) f = Ok tt) -> forall f, result (each h l) f = Ok tt.
  Proof. intros H. induction l as [|x l IH]; intros f; [reflexivity|]. cbn [each]. unfold result. rewrite (andthen_ok (h x) _ f tt (H x f)). apply IH. Qed.
  Lemma dobin_result f s d ds : tree f -> stands f root -> means d ds -> clear f root ds -> (result (dobin cwd root src false expand runs s d) f = Ok tt <-> passable_to root ds f).
  Proof.
    intros Tr S M C. destruct (stands_root root f S) as (A & R1 & R2 & _). unfold dobin. rewrite (join_root root f d ds S M). destruct (makedirs_iff f ds Tr S (proj1 M) C) as [K1 _]. unfold insert_into.
    assert (Ne : String.eqb (place ds) "" = false). { apply String.eqb_neq. intros E. pose proof (place_length ds R1 R2) as L. destruct ds; [destruct root; [congruence|discriminate E]|]. rewrite E in L. cbn in L. lia. }
    rewrite Ne. cbn [orb]. rewrite <- K1. split.
    - intros R. apply andthen_result in R as ([] & R & _). exact R.
    - intros R. unfold result. rewrite (andthen_ok _ _ f tt R). apply (each_result (fun s => f <~ ask (fun f => f) ;; each (fun p => install_cmd cwd runs p (place ds)) (glob cwd expand f (join_path2 src s))) [s]).
      intros x g. unfold result. rewrite ask_eq. apply (each_result (fun p => install_cmd cwd runs p (place ds))). intros y h. apply install_result.
  Qed.
  Lemma dobin_file f s d ds c : tree f -> stands f root -> means d ds -> clear f root ds -> passable root ds f -> has_magic (join_path2 src s) = false -> os_lstat cwd f (join_path2 src s) = Some (NFile c) ->
    (forall p g, runs p g = true) -> name (basename (join_path2 src s)) -> f !! below root (ds ++ [basename (join_path2 src s)]) <> Some NDir ->
    result (dobin cwd root src false expand runs s d) f = Ok tt /\
    exists g, with_dirs root ds f g /\ final (dobin cwd root src false expand runs s d) f = <[below root (ds ++ [basename (join_path2 src s)]) := NFile c]> g.
  Proof.
    intros Tr S M C P Mg Ls Rn Nb Fr. split; [apply (dobin_result f s d ds Tr S M C); intros a b E Na _; now apply (P a b)|]. destruct (stands_root root f S) as (A & R1 & R2 & _). unfold dobin. rewrite (join_root root f d ds S M).
    destruct (makedirs_ok f ds Tr S (proj1 M) C) as [Ra W]; [intros a b E Na _; now apply (P a b)|]. set (a := join_path2 src s) in *. unfold insert_into.
    assert (Ne : String.eqb (place ds) "" = false). { apply String.eqb_neq. intros E. pose proof (place_length ds R1 R2) as L. destruct ds; [destruct root; [congruence|discriminate E]|]. rewrite E in L. cbn in L. lia. }
    rewrite Ne. cbn [orb]. set (p := makedirs cwd false (place ds)) in *. set (g := final p f) in *.
    pose proof (made_mono ds f g (proj1 W)) as Mono. pose proof (with_dirs_clear f g ds S (proj1 M) (proj1 W)) as Sg. pose proof (lstat_mono f g a _ Mono Ls) as Lg. pose proof (lstat_stat g a c Lg) as Sg'.
    assert (Hd : forall m, In m (ds ++ [basename a]) -> name m) by (apply names_app; split; [exact (proj1 M)|now intros m [<-|[]]]). set (Q := below root (ds ++ [basename a])) in *.
    assert (EQ : g !! Q = f !! Q). { apply (dirs_made_new f g ds (ds ++ [basename a])); [exact R1|exact R2|exact (proj1 M)|exact Hd|intros b; apply snoc_longer|exact (proj1 W)]. }
    assert (Dg : forall b e, ds = (b ++ e)%list -> b <> [] -> g !! below root b = Some NDir) by exact (passable_dirs f g ds P W).
    assert (Nd : node_at g (below root ds) = Some NDir). { rewrite node_at_below by assumption. destruct ds as [|n ds]; [cbn [below]; now apply root_there|]. apply (Dg (n :: ds) []); [now rewrite app_nil_r|discriminate]. }
    assert (L : locate cwd true g (place ds) = Some (below root ds)).
    { apply locate_reach; [exact Sg|exact (proj1 M)|intros b e E N1 _; now apply (Dg b e)|]. intros _ _ t K. rewrite node_at_below, K in Nd by assumption. discriminate Nd. }
    assert (NQ : node_at g Q = f !! Q) by (unfold Q; rewrite node_at_below by assumption; exact EQ).
    assert (Gl : glob cwd expand g a = [a]) by (unfold glob, e_lexists; now rewrite Mg, Lg).
    assert (In1 : install_cmd cwd runs a (place ds) g = ([<[Q := NFile c]> g], Ok tt)).
    { unfold install_cmd. rewrite ask_eq, Sg', L, Nd. rewrite <- (below_snoc root ds (basename a)). fold Q. rewrite NQ, Rn. destruct (f !! Q) as [[]|] eqn:X; try reflexivity. congruence. }
    exists g. split; [exact W|]. rewrite (andthen_final p _ f tt Ra). fold g. unfold final. cbn [each]. unfold andthen at 1. rewrite ask_eq. fold a. rewrite Gl. cbn [each]. unfold andthen. rewrite In1. reflexivity.
  Qed.
  (** ** dolib of a symbolic link *)
  Lemma dolib_link f s d ds t : tree f -> stands f root -> means d ds -> clear f root ds -> passable_to root ds f -> py_startswith cwd "/" = true -> os_lstat cwd f (join_path2 cwd s) = Some (NLink t) ->
    result (dolib cwd root false runs s d) f = Err EOS.
  Proof.
    intros Tr S M C P A Ls. unfold dolib. rewrite (join_root root f d ds S M). destruct (makedirs_ok f ds Tr S (proj1 M) C P) as [Ra W]. unfold lib_insinto. unfold result. rewrite (andthen_ok _ _ f tt Ra). cbn [snd].
    set (g := final _ f) in *. rewrite ask_eq. pose proof (lstat_mono f g _ _ (made_mono ds f g (proj1 W)) Ls) as Lg. set (a := join_path2 cwd s) in *.
    assert (Ab : py_startswith a "/" = true). { apply startswith_iff in A as [r E]. apply startswith_iff. unfold a. rewrite E. unfold join_path2. destruct (_ || _); eexists; rewrite str_app_assoc; reflexivity. }
    unfold e_islink. rewrite Lg, Ab. assert (K : forall u, (os_symlink cwd u a g).2 = Err EOS).
    { intros u. unfold os_symlink. rewrite ask_eq. unfold os_lstat in Lg. destruct (locate cwd false g a); [|discriminate Lg]. now rewrite Lg. }
    destruct (locate cwd true g a); apply K.
  Qed.
End exact.

(** ** Checks for examples *)
Definition clear_b (f : fs) (root : string) (ns : list string) : bool :=
  forallb (fun k => match f !! below root (List.firstn k ns) with Some (NLink _) => false | _ => true end) (seq 1 (List.length ns)).
Lemma prefix_firstn {A} (ns a b : list A) : ns = (a ++ b)%list -> a <> [] -> In (List.length a) (seq 1 (List.length ns)) /\ List.firstn (List.length a) ns = a.
Proof.
  intros -> N. split; [apply in_seq; rewrite app_length; destruct a; [congruence|cbn; lia]|]. rewrite firstn_app, Nat.sub_diag. cbn. rewrite app_nil_r. apply firstn_all.
Qed.
Lemma clear_b_ok f root ns : clear_b f root ns = true -> clear f root ns.
Proof.
  intros H a b E N t K. unfold clear_b in H. rewrite forallb_forall in H. destruct (prefix_firstn ns a b E N) as [I F]. specialize (H _ I). rewrite F, K in H. discriminate H.
Qed.
Definition passable_b (f : fs) (root : string) (ns : list string) : bool :=
  forallb (fun k => match f !! below root (List.firstn k ns) with None | Some NDir => true | _ => false end) (seq 1 (List.length ns)).
Lemma passable_b_ok f root ns : passable_b f root ns = true -> passable root ns f.
Proof.
  intros H a b E N. unfold passable_b in H. rewrite forallb_forall in H. destruct (prefix_firstn ns a b E N) as [I F]. specialize (H _ I). rewrite F in H. destruct (f !! below root a) as [[]|]; auto; discriminate H.
Qed.
Definition names_check (l : list string) : bool := forallb (fun n => negb (String.eqb n "") && negb (String.eqb n ".") && negb (String.eqb n "..") && negb (char_in "/" n)) l.
Definition stands_b (f : fs) (rs : list string) : bool :=
  match rs with [] => false | _ => true end && names_check rs && forallb (fun k => match f !! below "/" (List.firstn k rs) with Some NDir => true | _ => false end) (seq 1 (List.length rs)).
Lemma stands_b_ok f rs : stands_b f rs = true -> stands f (below "/" rs).
Proof.
  unfold stands_b. rewrite !andb_true_iff. intros [[A B] C]. exists rs. split; [destruct rs; discriminate|]. split; [now apply names_b|]. split; [reflexivity|]. intros a b E N. rewrite forallb_forall in C.
  destruct (prefix_firstn rs a b E N) as [I F]. specialize (C _ I). rewrite F in C. destruct (f !! below "/" a) as [[]|]; congruence.
Qed.
