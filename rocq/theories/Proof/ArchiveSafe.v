(** * Archives: what stays outside *)
From Coq Require Import String Ascii ZArith NArith List Bool Lia.
From stdpp Require Import gmap strings.
From Verif Require Import Model.Py Model.InstallDB Model.Path Model.Fs Model.Trace Model.Actions Model.Index Model.Archive Spec.PathSpec Spec.FsSpec Spec.ActionsSpec Spec.ArchiveSpec.
From Verif Require Import Proof.PyFacts Proof.InstallDBFacts Proof.PathFacts Proof.FsFacts Proof.TraceFacts Proof.ActionsPaths Proof.ActionsFacts Proof.ActionsTop Proof.ActionsExact Proof.ActionsMove Proof.ArchiveFacts Proof.ArchiveTree Proof.ArchiveTrip Proof.ArchiveZip Proof.ArchiveZipTop Proof.ArchiveTop Proof.ArchiveTar.
Import ListNotations.
Open Scope string_scope.
Open Scope prog_scope.

(** ** Following paths *)
Lemma walk_both k f cur ns q : (forall n, In n ns -> name n) -> link_free f cur false ns -> walk k true f cur ns = Some q -> walk k false f cur ns <> None.
Proof.
  revert cur. induction ns as [|n ns IH]; intros cur H L; [rewrite !walk_nil; intros _; discriminate|]. rewrite !walk_name by (apply H; now left). destruct (node_at f (child cur n)) as [[c| |t|]|] eqn:E.
  - destruct ns; [intros _; discriminate|intros X; discriminate X].
  - apply IH; [intros m I; apply H; now right|]. intros a b Ea Na K t. rewrite <- child_below. apply (L (n :: a) b); [now rewrite Ea|discriminate|exact K].
  - destruct ns as [|m ns]; [intros _; discriminate|]. exfalso. apply (L [n] (m :: ns) eq_refl) with (t := t); [discriminate|right; discriminate|exact E].
  - destruct ns; [intros _; discriminate|intros X; discriminate X].
  - destruct (forallb (String.eqb "") ns); [intros _; discriminate|intros X; discriminate X].
Qed.
Lemma walk_slash k fl f cur ns q : (forall n, In n ns -> name n) -> link_free f cur true ns -> walk k fl f cur (ns ++ [""]) = Some q -> q = below cur ns.
Proof.
  revert cur. induction ns as [|n ns IH]; intros cur H L.
  - cbn [app]. rewrite walk_cons. cbn [String.eqb orb]. rewrite walk_nil. now intros [= <-].
  - cbn [app]. rewrite walk_name by (apply H; now left). rewrite child_below. destruct (node_at f (child cur n)) as [[c| |t|]|] eqn:E.
    + destruct ns; discriminate.
    + apply IH; [intros m I; apply H; now right|]. intros a b Ea Na K t. rewrite <- child_below. apply (L (n :: a) b); [now rewrite Ea|discriminate|now left].
    + exfalso. apply (L [n] ns eq_refl) with (t := t); [discriminate|now left|exact E].
    + destruct ns; discriminate.
    + destruct ns as [|m ns]; [cbn [app forallb]; change (String.eqb "" "") with true; cbn [andb]; now intros [= <-]|]. destruct (H m (or_intror (or_introl eq_refl))) as (Nm & _). cbn [app forallb]. destruct (String.eqb_spec "" m) as [X|_]; [congruence|]. discriminate.
Qed.

Section safe.
  Context (root : string) (umask : N) (e0 : disk) (S0 : stands (nodes e0) root) (U : list string -> Prop).
  Strategy 100 [locate] 1000 [walk].
  Notation inv := (inv root (nodes e0) U).
  Let R1 : root <> "/" := R1 root (nodes e0) S0.
  Let R2 : root <> "" := R2 root (nodes e0) S0.
  Definition safe (e : disk) : Prop := (forall q, ~ beneath root q -> same_at e0 e q) /\ forall ns, U ns -> clear (nodes e) root ns.
  Lemma safe_inv e : safe e -> inv (nodes e).
  Proof. intros [A B]. split; [|exact B]. intros q O. now apply A. Qed.
  Lemma settle_safe e g : safe e -> inv g -> safe (settle umask e g).
  Proof.
    intros [A B] [C D]. split; [|exact D]. intros q O. destruct (A q O) as [X Y]. split; [now apply C|]. intros K. rewrite <- (Y K). unfold mode_of at 1. unfold settle. cbn [modes]. rewrite map_lookup_imap, (C q O). destruct (nodes e0 !! q) eqn:E; [|congruence]. cbn. now rewrite X.
  Qed.
  Lemma settle_all_safe l : forall e, safe e -> (forall g, In g l -> inv g) -> (forall e', In e' (settle_all umask e l) -> safe e') /\ nodes (List.last (settle_all umask e l) e) = List.last l (nodes e).
  Proof.
    induction l as [|g l IH]; intros e Se H; [split; [intros ? []|reflexivity]|]. cbn [settle_all]. assert (Sg : safe (settle umask e g)) by (apply settle_safe; [exact Se|apply H; now left]).
    destruct (IH _ Sg (fun x I => H x (or_intror I))) as [A B]. split; [intros e' [<-|I]; [exact Sg|now apply A]|]. destruct l as [|g' l]; [reflexivity|].
    assert (X : forall (A : Type) (x d d' : A) l, List.last (x :: l) d = List.last (x :: l) d') by (clear; intros A x d d' l; revert x; induction l as [|y l IH]; intros x; [reflexivity|apply IH]).
    change (settle_all umask (settle umask e g) (g' :: l)) with (settle umask (settle umask e g) g' :: settle_all umask (settle umask (settle umask e g) g') l) in B |- *. change (List.last (settle umask e g :: ?z) e) with (List.last z e). rewrite (X _ _ e (settle umask e g)), B. change (List.last (g :: g' :: l) (nodes e)) with (List.last (g' :: l) (nodes e)). apply X.
  Qed.
  Lemma lift_safe {A} (P : fs -> Prop) (p : prog fs A) (Q : A -> fs -> Prop) : keeps inv P p Q -> keeps safe (fun e => P (nodes e)) (lift umask p) (fun a e => Q a (nodes e)).
  Proof.
    intros K e Se Pe. destruct (K (nodes e) (safe_inv e Se) Pe) as [A1 A2]. unfold states, result, final, lift in *. cbn [fst snd] in *.
    destruct (settle_all_safe (fst (p (nodes e))) e Se (fun g I => A1 g (or_intror I))) as [B1 B2]. split; [intros x [<-|I]; [exact Se|now apply B1]|]. intros a E. rewrite B2. now apply A2.
  Qed.
  Lemma ktop {A} (I P : disk -> Prop) (p : prog disk A) Q : keeps I P p Q -> keeps I P p (fun _ _ => True).
  Proof. intros K. apply (keeps_weaken I P P p _ Q); [exact K|auto|auto]. Qed.
  Lemma kret (P : disk -> Prop) : keeps safe P (ret tt) (fun _ _ => True).
  Proof. eapply ktop, keeps_ret. Qed.
  Lemma lift_top (P : disk -> Prop) (p : prog fs unit) : keeps inv (fun _ => True) p (fun _ _ => True) -> keeps safe P (lift umask p) (fun _ _ => True).
  Proof. intros K. apply (keeps_weaken safe P (fun _ => True) _ _ (fun _ _ => True)); [exact (lift_safe (fun _ => True) p (fun _ _ => True) K)|auto|auto]. Qed.

  (** ** Operations on one place, by a text that leads there *)
  Section place.
    Context (cwd o : string) (ns : list string) (H : forall n, In n ns -> name n) (N : ns <> []).
    Notation P := (below root ns).
    Definition arrives (fl : bool) (g : fs) : Prop := forall q, locate cwd fl g o = Some q -> q = P.
    Context (A : forall g, inv g -> arrives false g) (B : forall g, inv g -> no_link g P -> arrives true g) (D : forall g q, inv g -> locate cwd true g o = Some q -> locate cwd false g o <> None).
    Let BP : beneath root P := below_beneath root ns R1 R2 N.
    Let NP g : node_at g P = g !! P := node_at_below root g ns R1 R2.
    Lemma mkdir_safe (Pr : fs -> Prop) : keeps inv Pr (os_mkdir cwd o) (fun _ g => arrives true g).
    Proof.
      unfold os_mkdir. apply keeps_read. intros g I _. destruct (locate cwd false g o) as [q|] eqn:L; [|apply keeps_raise]. apply (A g I) in L as ->. destruct (node_at g P); [apply keeps_raise|]. apply keeps_change. intros s Is _.
      assert (J : inv (<[P := NDir]> s)) by (apply inv_insert; [exact Is|exact BP|discriminate]). split; [exact J|]. apply B; [exact J|]. intros t. rewrite lookup_insert. discriminate.
    Qed.
    Lemma unlink_safe (Pr : fs -> Prop) : keeps inv Pr (os_unlink cwd o) (fun _ g => arrives true g).
    Proof.
      unfold os_unlink. apply keeps_read. intros g I _. destruct (locate cwd false g o) as [q|] eqn:L; [|apply keeps_raise]. apply (A g I) in L as ->.
      assert (K : keeps inv (fun s => s = g) (change (fun f => delete P f)) (fun _ g => arrives true g)).
      { apply keeps_change. intros s Is _. assert (J : inv (delete P s)) by (apply inv_delete; [exact Is|exact BP]). split; [exact J|]. apply B; [exact J|]. intros t. rewrite lookup_delete. discriminate. }
      destruct (node_at g P) as [[]|]; try apply keeps_raise; exact K.
    Qed.
    Lemma rmtree_safe (Pr : fs -> Prop) : keeps inv Pr (shutil_rmtree cwd o) (fun _ _ => True).
    Proof.
      unfold shutil_rmtree. apply keeps_read. intros g I _. destruct (locate cwd false g o) as [q|] eqn:L; [|apply keeps_raise]. apply (A g I) in L as ->. destruct (node_at g P) as [[]|]; try apply keeps_raise. destruct (String.eqb _ _); [apply keeps_raise|].
      apply keeps_change. intros s Is _. split; [|exact Logic.I]. apply inv_rmtree; [exact Is|exact BP].
    Qed.
    Lemma symlink_safe t (Pr : fs -> Prop) : (forall ms, U ms -> (forall n, In n ms -> name n) /\ forall b, ms <> (ns ++ b)%list) -> keeps inv Pr (os_symlink cwd t o) (fun _ _ => True).
    Proof.
      intros K. unfold os_symlink. apply keeps_read. intros g I _. destruct (locate cwd false g o) as [q|] eqn:L; [|apply keeps_raise]. apply (A g I) in L as ->. destruct (node_at g P); [apply keeps_raise|]. apply keeps_change. intros s Is _. split; [|exact Logic.I]. now apply (inv_link root (nodes e0) S0).
    Qed.
    Lemma write_safe c : keeps inv (arrives true) (os_write cwd o c) (fun _ g => arrives true g).
    Proof.
      unfold os_write. apply keeps_read. intros g I Ar. destruct (locate cwd true g o) as [q|] eqn:L; [|apply keeps_raise]. apply Ar in L as ->.
      assert (K : keeps inv (fun s => s = g) (change (fun f => <[P := NFile c]> f)) (fun _ g => arrives true g)).
      { apply keeps_change. intros s Is _. assert (J : inv (<[P := NFile c]> s)) by (apply inv_insert; [exact Is|exact BP|discriminate]). split; [exact J|]. apply B; [exact J|]. intros t. rewrite lookup_insert. discriminate. }
      destruct (node_at g P) as [[]|]; try apply keeps_raise; exact K.
    Qed.
    Lemma write_file_safe c : keeps inv (arrives true) (write_file cwd o c) (fun _ g => arrives true g).
    Proof.
      unfold write_file. apply keeps_read. intros g I Ar.
      assert (K : keeps inv (fun s => s = g) (_ <~ os_write cwd o "" ;; os_write cwd o c) (fun _ g => arrives true g)).
      { apply (keeps_then inv _ _ (fun _ => arrives true)).
        - apply (keeps_weaken inv _ (arrives true) _ _ (fun _ => arrives true)); [exact (write_safe "")|intros s _ ->; exact Ar|auto].
        - intros u. exact (write_safe c). }
      destruct (os_stat cwd g o) as [[]|]; try exact K. apply (keeps_weaken inv _ (fun s => s = g) _ _ (fun b s => b = tt /\ s = g)); [apply keeps_ret|auto|intros u s _ [_ ->]; exact Ar].
    Qed.
    Lemma chmod_safe m (Pr : disk -> Prop) : (forall e, safe e -> Pr e -> arrives true (nodes e)) -> keeps safe Pr (os_chmod cwd o m) (fun _ _ => True).
    Proof.
      intros K. unfold os_chmod. apply keeps_read. intros e Se Pe. destruct (locate cwd true (nodes e) o) as [q|] eqn:L; [|apply keeps_raise]. apply (K e Se Pe) in L as ->. destruct (node_at (nodes e) P); [|apply keeps_raise].
      apply keeps_change. intros s [X Y] _. split; [|exact Logic.I]. split; [|exact Y]. intros q O. destruct (X q O) as [E F]. split; [exact E|]. intros G. rewrite <- (F G). unfold mode_of. cbn [modes]. rewrite lookup_insert_ne; [reflexivity|]. intros <-. now apply O.
    Qed.
    (** After a link is taken away, if there was one, the text leads to the place itself. *)
    Lemma unlinked (x : bool) (g : fs) : inv g -> (x = false -> e_islink cwd g o = false) ->
      keeps inv (fun s => s = g) (if x then os_unlink cwd o else ret tt) (fun _ s => arrives true s).
    Proof.
      intros I Nx. destruct x; [apply unlink_safe|]. apply (keeps_weaken inv _ (fun s => s = g) _ _ (fun b s => b = tt /\ s = g)); [apply keeps_ret|auto|]. intros u s _ [_ ->]. specialize (Nx eq_refl). intros q L. pose proof (D g q I L) as L'. unfold e_islink, os_lstat in Nx. destruct (locate cwd false g o) as [q'|] eqn:L0; [|congruence].
      apply (A g I) in L0 as ->. apply (B g I); [|exact L]. intros t X. rewrite NP, X in Nx. discriminate Nx.
    Qed.
  End place.

  (** ** Texts that lead to a place *)
  Context (Un : forall ns, U ns -> forall n, In n ns -> name n).
  Definition ways (ns : list string) : Prop := forall a b, ns = (a ++ b)%list -> a <> [] -> b <> [] -> U a.
  Lemma ways_clear g ns : inv g -> ways ns -> clear_to g root ns.
  Proof. intros I W a b E Na Nb. apply I with (ns := a) (b := []); [now apply (W a b)|now rewrite app_nil_r|exact Na]. Qed.
  Lemma clear_end g ns : clear_to g root ns -> no_link g (below root ns) -> clear g root ns.
  Proof. intros C L a b E Na. destruct b as [|x b]; [rewrite app_nil_r in E; now subst|]. apply (C a (x :: b)); [exact E|exact Na|discriminate]. Qed.
  Section absolute.
    Context (cwd : string) (ns : list string) (H : forall n, In n ns -> name n) (N : ns <> []) (W : ways ns).
    Lemma abs_A g : inv g -> arrives cwd (below root ns) ns false g.
    Proof.
      intros I q L. rewrite <- (place_ne root ns) in L by exact N. eapply (locate_place cwd root false) in L as [-> _]; [reflexivity|exact (inv_stands root (nodes e0) S0 U g I)|exact H|now apply ways_clear].
    Qed.
    Lemma abs_B g : inv g -> no_link g (below root ns) -> arrives cwd (below root ns) ns true g.
    Proof.
      intros I K q L. rewrite <- (place_ne root ns) in L by exact N. eapply (locate_place cwd root true) in L as [-> _]; [reflexivity|exact (inv_stands root (nodes e0) S0 U g I)|exact H|]. apply clear_end; [now apply ways_clear|exact K].
    Qed.
    Lemma abs_D g q : inv g -> locate cwd true g (below root ns) = Some q -> locate cwd false g (below root ns) <> None.
    Proof.
      intros I. pose proof (inv_stands root (nodes e0) S0 U g I) as Sg. rewrite !(locate_below cwd root) by assumption. apply walk_both; [exact H|]. apply (clear_link_free root g ns false R1 R2). now apply ways_clear.
    Qed.
    (** With a slash at the end, if the place itself is never a link *)
    Context (Uns : U ns).
    Lemma slash_any fl g : inv g -> arrives cwd (below root ns ++ "/") ns fl g.
    Proof.
      intros I q. pose proof (inv_stands root (nodes e0) S0 U g I) as (rs & Nr & Hr & Er & Dr). assert (C : clear g root ns) by now apply I. rewrite Er, <- below_app. assert (A : (rs ++ ns)%list <> []) by (destruct rs; [congruence|discriminate]). assert (B : forall n, In n (rs ++ ns) -> name n) by (apply names_app; now split).
      rewrite locate_abs, split_below_slash by first [assumption|now apply below_starts]. rewrite walk_cons. cbn [String.eqb orb]. rewrite <- app_assoc, walk_dirs; [|exact Hr|].
      - rewrite <- Er. intros L. rewrite below_app, <- Er. apply walk_slash in L; [exact L|exact H|]. now apply (clear_link_free root g ns true R1 R2).
      - intros a b E Na. rewrite node_at_map; [now apply (Dr a b)|]. apply absolute_root, below_absolute; [now left|intros m J; apply Hr; rewrite E, in_app_iff; now left|exact Na].
    Qed.
  End absolute.
  Section relative.
    Context (ns : list string) (H : forall n, In n ns -> name n) (N : ns <> []) (W : ways ns).
    Lemma rel_same fl g : inv g -> locate root fl g (String.concat "/" ns) = locate root fl g (below root ns).
    Proof. intros I. apply locate_named; [exact (inv_stands root (nodes e0) S0 U g I)|exact N|exact H]. Qed.
    Lemma rel_A g : inv g -> arrives root (String.concat "/" ns) ns false g.
    Proof. intros I q. rewrite rel_same by exact I. now apply abs_A. Qed.
    Lemma rel_B g : inv g -> no_link g (below root ns) -> arrives root (String.concat "/" ns) ns true g.
    Proof. intros I K q. rewrite rel_same by exact I. now apply abs_B. Qed.
    Lemma rel_D g q : inv g -> locate root true g (String.concat "/" ns) = Some q -> locate root false g (String.concat "/" ns) <> None.
    Proof. intros I. rewrite !rel_same by exact I. now apply abs_D. Qed.
  End relative.

  Lemma ways_up a b : ways (a ++ b) -> ways a.
  Proof. intros W x y E Nx Ny. apply (W x (y ++ b)%list); [now rewrite E, app_assoc|exact Nx|destruct y; [congruence|discriminate]]. Qed.
  (** os.makedirs *)
  Lemma makedirs_safe cwd k : forall ns (P : fs -> Prop), (forall n, In n ns -> name n) -> ns <> [] -> ways ns -> keeps inv P (os_makedirs cwd k (below root ns)) (fun _ _ => True).
  Proof.
    induction k as [|k IH]; intros ns P H N W; cbn [os_makedirs]; [apply keeps_raise|]. destruct (exists_last N) as (a & n & Ea). pose proof H as Ha. rewrite Ea in Ha. destruct (below_parts root (nodes e0) S0 a n Ha) as (Dn & Bn & Nn & Nb).
    assert (M : forall P, keeps inv P (os_mkdir cwd (below root ns)) (fun _ _ => True)) by (intros P'; eapply keeps_top; apply (mkdir_safe cwd (below root ns) ns N); [now apply abs_A|now apply abs_B]). rewrite Ea in M |- *.
    rewrite Bn, (proj2 (String.eqb_neq _ _) Nn), Dn, Bn, (proj2 (String.eqb_neq _ _) Nb), (proj2 (String.eqb_neq _ _) Nn). cbn [negb andb]. apply keeps_read. intros g I _. destruct (e_exists cwd g (below root a)) eqn:X; cbn [negb]; [apply M|].
    destruct (nil_or_not a) as [->|Na]; [cbn [below] in X; rewrite (e_exists_root cwd root g) in X by exact (inv_stands root (nodes e0) S0 U g I); discriminate X|]. apply names_app in Ha as [Ha _].
    apply keeps_then_top; [apply IH; [exact Ha|exact Na|rewrite Ea in W; now apply ways_up in W]|]. intros u. apply M.
  Qed.
  Lemma makedirs_rel k : forall ns (P : fs -> Prop), (forall n, In n ns -> name n) -> ns <> [] -> ways ns -> keeps inv P (os_makedirs root k (String.concat "/" ns)) (fun _ _ => True).
  Proof.
    induction k as [|k IH]; intros ns P H N W; cbn [os_makedirs]; [apply keeps_raise|]. destruct (exists_last N) as (a & n & Ea). pose proof H as Ha. rewrite Ea in Ha.
    assert (Dn : dirname (String.concat "/" (a ++ [n])) = String.concat "/" a) by now apply dirname_names.
    assert (Nn : name n) by (apply names_app in Ha as [_ Ha]; apply Ha; now left).
    assert (Bn : basename (String.concat "/" (a ++ [n])) = n).
    { destruct (nil_or_not a) as [->|Na]; [cbn [app String.concat]; unfold basename; now rewrite (proj2 (rfind_none slash n) (proj2 (proj2 (proj2 Nn))))|]. rewrite concat_snoc by exact Na. apply basename_under, Nn. }
    assert (M : forall P, keeps inv P (os_mkdir root (String.concat "/" ns)) (fun _ _ => True)) by (intros P'; eapply keeps_top; apply (mkdir_safe root (String.concat "/" ns) ns N); [now apply rel_A|now apply rel_B]). rewrite Ea in M |- *.
    destruct Nn as (Nn & _). rewrite Bn, (proj2 (String.eqb_neq _ _) Nn), Dn, Bn, (proj2 (String.eqb_neq _ _) Nn). cbn [negb andb]. rewrite andb_true_r. apply keeps_read. intros g I _. destruct (_ && _) eqn:X; [|apply M].
    destruct (nil_or_not a) as [->|Na]; [discriminate X|]. apply names_app in Ha as [Ha _]. apply keeps_then_top; [apply IH; [exact Ha|exact Na|rewrite Ea in W; now apply ways_up in W]|]. intros u. apply M.
  Qed.
  Lemma makedirs_spelled cwd k o ns (P : fs -> Prop) : (forall n, In n ns -> name n) -> ns <> [] -> ways ns -> U ns -> spells root o ns -> keeps inv P (os_makedirs cwd (S k) o) (fun _ g => arrives cwd o ns true g).
  Proof.
    intros H N W Uns Sp. assert (A : forall fl g, inv g -> arrives cwd o ns fl g).
    { intros fl g I. destruct Sp as [->| ->]; [|now apply slash_any]. destruct fl; [|now apply abs_A]. apply abs_B; try assumption. apply I with (ns := ns) (b := []); [exact Uns|now rewrite app_nil_r|exact N]. }
    cbn [os_makedirs]. destruct (exists_last N) as (a & n & Ea). pose proof H as Ha. rewrite Ea in Ha. destruct (below_parts root (nodes e0) S0 a n Ha) as (Dn & Bn & Nn & Nb).
    assert (Pt : (if String.eqb (basename o) "" then dirname o else o) = below root (a ++ [n])).
    { unfold spells in Sp. rewrite Ea in Sp. destruct Sp as [->| ->]; [now rewrite Bn, (proj2 (String.eqb_neq _ _) Nn)|].
      change (below root (a ++ [n]) ++ "/") with (below root (a ++ [n]) ++ "/" ++ ""). pose proof (basename_under (below root (a ++ [n])) "") as Bu. rewrite Bu by (intros []). change (String.eqb "" "") with true. cbv iota. apply dirname_under; [| |intros []].
      - intros X. rewrite X in Dn. now rewrite <- Dn in Nb.
      - rewrite below_text by (assumption || (destruct a; discriminate)). rewrite <- str_app_assoc. apply concat_ends; [destruct a; discriminate|exact Ha]. }
    assert (M : forall P, keeps inv P (os_mkdir cwd o) (fun _ g => arrives cwd o ns true g)) by (intros P'; apply (mkdir_safe cwd o ns N); auto).
    rewrite Pt, Dn, Bn, (proj2 (String.eqb_neq _ _) Nn), (proj2 (String.eqb_neq _ _) Nb). cbn [negb andb]. apply keeps_read. intros g I _. destruct (e_exists cwd g (below root a)) eqn:X; cbn [negb]; [apply M|].
    destruct (nil_or_not a) as [->|Na]; [cbn [below] in X; rewrite (e_exists_root cwd root g) in X by exact (inv_stands root (nodes e0) S0 U g I); discriminate X|]. apply names_app in Ha as [Ha _].
    eapply keeps_then; [apply makedirs_safe; [exact Ha|exact Na|rewrite Ea in W; now apply ways_up in W]|]. intros u. apply M.
  Qed.
  (** check_dir, for the directory of a file *)
  Lemma check_dir_safe cwd ns a n (P : fs -> Prop) : (forall x, In x ns -> name x) -> ns = (a ++ [n])%list -> ways ns -> ~ ends_blank (below root a) -> keeps inv P (check_dir cwd (dirname (below root ns))) (fun _ _ => True).
  Proof.
    intros H E W Bl. pose proof H as Ha. rewrite E in Ha. destruct (below_parts root (nodes e0) S0 a n Ha) as (Dn & _ & _ & Nb). rewrite E, Dn.
    destruct (stands_root root _ S0) as (A & _ & _ & R3). assert (Pp : py_startswith (below root a) "/" = true /\ ~ ends_in_slash (below root a)).
    { destruct a as [|m a].
      - split; [|exact R3]. destruct A as (r & _ & A). cbn [below]. rewrite A. apply startswith_iff. now exists r.
      - split; [|rewrite below_text by (assumption || discriminate); rewrite <- str_app_assoc; apply concat_ends; [discriminate|apply names_app in Ha as [? _]; assumption]].
        destruct (below_absolute root (m :: a)) as (r & _ & X); [now right|apply names_app in Ha as [? _]; assumption|discriminate|]. rewrite X. apply startswith_iff. now exists r. }
    unfold check_dir. apply keeps_read. intros g I _. rewrite strip_plain, rstrip_none by (try apply Pp; try exact Bl; intros r X; destruct Pp as [Pp _]; rewrite X in Pp; discriminate Pp).
    destruct (e_exists cwd g (below root a)) eqn:X; [apply keeps_ret_top|]. destruct (nil_or_not a) as [->|Na]; [cbn [below] in X; rewrite (e_exists_root cwd root g) in X by exact (inv_stands root (nodes e0) S0 U g I); discriminate X|].
    apply names_app in Ha as [Ha _]. apply makedirs_safe; [exact Ha|exact Na|rewrite E in W; now apply ways_up in W].
  Qed.
End safe.
