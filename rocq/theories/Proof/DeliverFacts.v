(** * Putting things at places, with the directories on the way *)
From Coq Require Import String Ascii ZArith NArith List Bool Lia.
From stdpp Require Import gmap strings.
From Verif Require Import Model.Py Model.InstallDB Model.Path Model.Fs Model.Trace Model.Actions Model.Index Model.Archive Model.Deliver Spec.PathSpec Spec.FsSpec Spec.ActionsSpec Spec.ArchiveSpec Spec.DeliverSpec.
From Verif Require Import Proof.PyFacts Proof.InstallDBFacts Proof.PathFacts Proof.FsFacts Proof.TraceFacts Proof.ActionsPaths Proof.ActionsFacts Proof.ActionsTop Proof.ActionsExact Proof.ActionsMove Proof.ArchiveFacts Proof.ArchiveTree Proof.ArchiveTrip Proof.ArchiveZip Proof.ArchiveTar.
Import ListNotations.
Open Scope string_scope.
Open Scope prog_scope.

Lemma nil_or_not {A} (l : list A) : l = [] \/ l <> []. Proof. destruct l; [now left|now right]. Qed.

Section dest.
  Context (rs : list string) (HR : forall n, In n rs -> name n).
  Notation T := (below "/" rs).
  Strategy 100 [locate] 1000 [walk].

  Lemma at_below ns : below T ns = below "/" (rs ++ ns). Proof. now rewrite below_app. Qed.
  Lemma below_slash_inj a b : (forall n, In n a -> name n) -> (forall n, In n b -> name n) -> below "/" a = below "/" b -> a = b.
  Proof.
    intros Ha Hb E. destruct a as [|x a], b as [|y b]; [reflexivity| | |].
    - exfalso. symmetry in E. revert E. apply absolute_root, below_absolute; [now left|exact Hb|discriminate].
    - exfalso. revert E. apply absolute_root, below_absolute; [now left|exact Ha|discriminate].
    - rewrite !below_text_root in E by (assumption || discriminate). apply str_app_inv_l in E. apply concat_inj in E; try assumption; discriminate.
  Qed.
  Lemma place_inj a b : (forall n, In n a -> name n) -> (forall n, In n b -> name n) -> below T a = below T b -> a = b.
  Proof. rewrite !at_below. intros Ha Hb E. apply below_slash_inj in E; [now apply app_inv_head in E|apply names_app; now split|apply names_app; now split]. Qed.
  Lemma not_root ns : (forall n, In n ns -> name n) -> ns <> [] -> below T ns <> "/".
  Proof. intros H N. rewrite at_below. apply absolute_root, below_absolute; [now left|apply names_app; now split|destruct rs; [exact N|discriminate]]. Qed.
  Lemma node_there f ns : (forall n, In n ns -> name n) -> ns <> [] -> node_at f (below T ns) = f !! below T ns.
  Proof. intros H N. apply node_at_map. now apply not_root. Qed.
  Lemma prefix_names (a b ns : list string) : ns = (a ++ b)%list -> (forall n, In n ns -> name n) -> forall n, In n a -> name n.
  Proof. intros -> H n I. apply H. rewrite in_app_iff. now left. Qed.

  Definition dirs (f : fs) (ns : list string) : Prop := forall a b, ns = (a ++ b)%list -> a <> [] -> b <> [] -> f !! below T a = Some NDir.
  Definition opens (f : fs) (ns : list string) : Prop := forall a b, ns = (a ++ b)%list -> a <> [] -> b <> [] -> f !! below T a = None \/ f !! below T a = Some NDir.

  (** What is there has its directories. *)
  Lemma real_dirs f ns : real f -> (forall n, In n ns -> name n) -> f !! below T ns <> None -> ns <> [] -> dirs f ns.
  Proof.
    intros R H E N a b Ea Na Nb. destruct (f !! below T ns) as [x|] eqn:X; [|congruence]. destruct (R _ _ X) as (ks & _ & Hk & Ek & D). rewrite at_below in Ek. apply below_slash_inj in Ek; [|apply names_app; now split|exact Hk].
    rewrite at_below. apply (D (rs ++ a)%list b); [rewrite <- Ek, Ea; apply app_assoc|destruct rs; [exact Na|discriminate]|exact Nb].
  Qed.
  Lemma dirs_opens f ns : dirs f ns -> opens f ns. Proof. intros D a b E Na Nb. right. now apply (D a b). Qed.

  (** Texts for the places *)
  Context (cwd : string) (sp : list string -> string).
  Context (Loc : forall fl g ns, destined g rs -> ns <> [] -> (forall n, In n ns -> name n) -> locate cwd fl g (sp ns) = walk 40 fl g T ns).

  Section one.
    Context (f : fs) (ns : list string) (Df : destined f rs) (H : forall n, In n ns -> name n) (N : ns <> []).
    Lemma reach fl : dirs f ns -> (fl = true -> no_link f (below T ns)) -> locate cwd fl f (sp ns) = Some (below T ns).
    Proof.
      intros D L. rewrite Loc by assumption. apply walk_reach; [exact H| |].
      - intros a b E Na Nb. rewrite node_there by (try exact Na; exact (prefix_names a b ns E H)). now apply (D a b).
      - intros -> _ t. rewrite node_there by assumption. now apply L.
    Qed.
    (** Where there is nothing there is nothing to be seen. *)
    Lemma absent fl q : opens f ns -> f !! below T ns = None -> locate cwd fl f (sp ns) = Some q -> q = below T ns.
    Proof.
      intros O K. rewrite Loc by assumption. intros L. refine (proj1 (walk_plain _ _ _ _ _ _ H _ L)). intros a b E Na _ t. rewrite node_there by (try exact Na; exact (prefix_names a b ns E H)).
      destruct (nil_or_not b) as [->|Nb]; [rewrite app_nil_r in E; subst a; rewrite K; discriminate|]. destruct (O a b E Na Nb) as [->| ->]; discriminate.
    Qed.
    Lemma stat_absent : opens f ns -> f !! below T ns = None -> os_stat cwd f (sp ns) = None.
    Proof. intros O K. unfold os_stat. destruct (locate _ _ _ _) as [q|] eqn:L; [|reflexivity]. apply absent in L; [|exact O|exact K]. subst q. rewrite node_there by assumption. exact K. Qed.
    Lemma lstat_absent : opens f ns -> f !! below T ns = None -> os_lstat cwd f (sp ns) = None.
    Proof. intros O K. unfold os_lstat. destruct (locate _ _ _ _) as [q|] eqn:L; [|reflexivity]. apply absent in L; [|exact O|exact K]. subst q. rewrite node_there by assumption. exact K. Qed.
    Lemma lstat_there : dirs f ns -> os_lstat cwd f (sp ns) = f !! below T ns.
    Proof. intros D. unfold os_lstat. rewrite reach by (assumption || discriminate). now apply node_there. Qed.
    Lemma stat_there : dirs f ns -> no_link f (below T ns) -> os_stat cwd f (sp ns) = f !! below T ns.
    Proof. intros D L. unfold os_stat. rewrite reach; [now apply node_there|exact D|now intros _]. Qed.
  End one.

  (** ** Directories on the way *)
  Context (Dir : forall a n, (forall x, In x (a ++ [n]) -> name x) -> dirname (sp (a ++ [n])) = sp a /\ basename (sp (a ++ [n])) = n).
  Context (Top : sp [] = "" \/ forall g, destined g rs -> e_exists cwd g (sp []) = true).
  Context (Some_ : forall ns, ns <> [] -> (forall n, In n ns -> name n) -> sp ns <> "").

  Lemma made_destined f g ns : destined f rs -> (forall n, In n ns -> name n) -> dirs_made T ns f g -> destined g rs.
  Proof. intros [_ D] H M. split; [exact HR|]. intros a b E Na. destruct (M (below "/" a)) as [X|(_ & X & _)]; [rewrite X; now apply (D a b)|exact X]. Qed.
  Lemma mk_dirs k : forall f ns, real f -> destined f rs -> (forall n, In n ns -> name n) -> ns <> [] -> List.length ns < k -> opens f ns -> f !! below T ns = None ->
    result (os_makedirs cwd k (sp ns)) f = Ok tt /\ with_dirs T ns f (final (os_makedirs cwd k (sp ns)) f) /\ forall g, In g (states (os_makedirs cwd k (sp ns)) f) -> dirs_made T ns f g.
  Proof.
    induction k as [|k IH]; intros f ns Rf Df H N L P K; [lia|]. destruct (exists_last N) as (a & n & Ea). subst ns. destruct (Dir a n H) as [E1 E2]. assert (Ha : forall x, In x a -> name x) by (apply names_app in H as [? _]; assumption).
    assert (Nn : n <> "") by (destruct (H n) as (X & _); [rewrite in_app_iff; right; now left|exact X]).
    assert (Fin : forall g, destined g rs -> dirs g (a ++ [n]) -> g !! below T (a ++ [n]) = None -> dirs_made T a f g ->
      os_mkdir cwd (sp (a ++ [n])) g = ([<[below T (a ++ [n]) := NDir]> g], Ok tt) /\ with_dirs T (a ++ [n]) f (<[below T (a ++ [n]) := NDir]> g)).
    { intros g Dg Hg Kg Mg. split.
      - unfold os_mkdir. rewrite ask_eq, reach by (assumption || discriminate). rewrite node_there, Kg by assumption. reflexivity.
      - split.
        + intros q. destruct (decide (below T (a ++ [n]) = q)) as [<-|Ne].
          * right. split; [exact K|]. split; [apply lookup_insert|]. exists (a ++ [n])%list, []. now rewrite app_nil_r.
          * rewrite lookup_insert_ne by exact Ne. destruct (Mg q) as [X|(X1 & X2 & a' & b & -> & Na & ->)]; [now left|right]. repeat split; try assumption. exists a', (b ++ [n])%list. now rewrite app_assoc.
        + intros a' b E Na. destruct (decide (below T (a ++ [n]) = below T a')) as [<-|Ne]; [now rewrite lookup_insert|]. rewrite lookup_insert_ne by exact Ne. destruct (nil_or_not b) as [->|Nb]; [rewrite app_nil_r in E; now subst a'|].
          rewrite (Hg a' b E Na Nb). discriminate. }
    assert (Mono : forall g, dirs_made T a f g -> dirs_made T (a ++ [n]) f g).
    { intros g M q. destruct (M q) as [X|(X1 & X2 & a' & b & -> & Na & ->)]; [now left|right]. split; [exact X1|]. split; [exact X2|]. exists a', (b ++ [n])%list. now rewrite app_assoc. }
    assert (Made0 : forall l, dirs_made T l f f) by (intros l q; now left).
    cbn [os_makedirs]. rewrite E2, (proj2 (String.eqb_neq _ _) Nn), E1, E2, (proj2 (String.eqb_neq _ _) Nn). cbn [negb]. rewrite andb_true_r.
    assert (Here : dirs f (a ++ [n]) -> result (os_mkdir cwd (sp (a ++ [n]))) f = Ok tt /\ with_dirs T (a ++ [n]) f (final (os_mkdir cwd (sp (a ++ [n]))) f) /\ forall g, In g (states (os_mkdir cwd (sp (a ++ [n]))) f) -> dirs_made T (a ++ [n]) f g).
    { intros Dd. destruct (Fin f Df Dd K (Made0 a)) as [E W]. unfold result, final, states. rewrite E. cbn [fst snd List.last]. split; [reflexivity|]. split; [exact W|]. intros g [<-|[<-|[]]]; [apply Made0|exact (proj1 W)]. }
    unfold result, final, states in *. rewrite ask_eq. destruct (nil_or_not a) as [->|Na].
    - assert (X : negb (sp [] =? "") && negb (e_exists cwd f (sp [])) = false) by (destruct Top as [-> | E]; [reflexivity|rewrite (E f Df); apply andb_false_r]). rewrite X. apply Here. intros a' b E Na Nb. destruct a' as [|x [|]]; [congruence|destruct b; [congruence|discriminate E]|discriminate E].
    - rewrite (proj2 (String.eqb_neq _ _) (Some_ a Na Ha)). cbn [negb andb]. destruct (P a [n] eq_refl Na) as [Z|Z]; [discriminate| |].
      + assert (Oa : opens f a) by (intros a' b E Na' Nb; apply (P a' (b ++ [n])%list); [rewrite E; now rewrite app_assoc|exact Na'|destruct b; discriminate]).
        assert (X : e_exists cwd f (sp a) = false) by (unfold e_exists; now rewrite (stat_absent f a Df Ha Na Oa Z)). rewrite X. cbn [negb].
        destruct (IH f a Rf Df Ha Na) as (Ok1 & W1 & S1); [rewrite app_length in L; cbn in L; lia|exact Oa|exact Z|].
        rewrite (andthen_ok _ _ f tt Ok1). unfold final. set (g := List.last (fst (os_makedirs cwd k (sp a) f)) f) in *.
        assert (Dg : dirs g (a ++ [n])).
        { intros a' b E Na' Nb. destruct (exists_last Nb) as (b' & n' & Eb). subst b. rewrite app_assoc in E. apply app_inj_tail in E as [E _]. destruct W1 as [W1 W2]. specialize (W2 a' b' E Na'). destruct (W1 (below T a')) as [Y|(_ & Y & _)]; [|exact Y]. destruct (P a' (b' ++ [n])%list) as [Q|Q]; [rewrite E; now rewrite app_assoc|exact Na'|destruct b'; discriminate| |]; congruence. }
        destruct (Fin g) as [F2 W2].
        * exact (made_destined f g a Df Ha (proj1 W1)).
        * exact Dg.
        * destruct (proj1 W1 (below T (a ++ [n]))) as [Y|(_ & _ & a' & b & E & Na' & Y)]; [congruence|]. exfalso. apply place_inj in Y; [|exact H|exact (prefix_names a' b a E Ha)]. rewrite <- Y in E. apply (f_equal (@List.length string)) in E. rewrite !app_length in E. cbn in E. lia.
        * exact (proj1 W1).
        * rewrite F2. cbn [fst snd]. rewrite last_last. split; [reflexivity|]. split; [exact W2|]. intros h [<-|I]; [apply Made0|]. apply in_app_iff in I as [I|[<-|[]]]; [apply Mono, S1; now right|exact (proj1 W2)].
      + assert (Da : dirs f (a ++ [n])).
        { intros a' b E Na' Nb. destruct (exists_last Nb) as (b' & n' & Eb). subst b. rewrite app_assoc in E. apply app_inj_tail in E as [E _]. destruct (nil_or_not b') as [->|Nb']; [rewrite app_nil_r in E; now subst a'|]. apply (real_dirs f a Rf Ha) with (b := b'); try assumption. rewrite Z. discriminate. }
        assert (X : e_exists cwd f (sp a) = true).
        { unfold e_exists. rewrite stat_there; try assumption; [now rewrite Z|apply (real_dirs f a Rf Ha); [rewrite Z; discriminate|exact Na]|intros t; rewrite Z; discriminate]. }
        rewrite X. apply Here, Da.
  Qed.
End dest.
