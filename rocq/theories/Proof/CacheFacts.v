(** * Emptying the caches *)
From Coq Require Import String Ascii ZArith NArith List Bool Lia.
From stdpp Require Import gmap strings.
From Verif Require Import Model.Py Model.InstallDB Model.Path Model.Fs Model.Trace Model.Actions Model.Archive Model.Cache Spec.PathSpec Spec.FsSpec Spec.ActionsSpec Spec.ArchiveSpec Spec.CacheSpec.
From Verif Require Import Proof.PyFacts Proof.InstallDBFacts Proof.PathFacts Proof.FsFacts Proof.TraceFacts Proof.ActionsPaths Proof.ActionsFacts Proof.ActionsTop Proof.ActionsExact Proof.ActionsMove Proof.ArchiveFacts Proof.ArchiveTree Proof.ArchiveTrip Proof.ArchiveZip Proof.ArchiveZipTop Proof.ArchiveTop.
Import ListNotations.
Open Scope string_scope.
Open Scope prog_scope.
Strategy 100 [locate] 1000 [walk].

(** What a step has done: it ended well, with [g], and nothing outside [S] was changed on the way. *)
Definition did {A} (p : prog fs A) (f : fs) (S : string -> Prop) (a : A) (g : fs) : Prop :=
  result p f = Ok a /\ final p f = g /\ List.Forall (same_but S f) (states p f).

Lemma did_then {A B} (p : prog fs A) (q : A -> prog fs B) f S a g T b h :
  did p f S a g -> did (q a) g T b h -> same_but S f g -> did (x <~ p ;; q x) f (fun x => S x \/ T x) b h.
Proof.
  intros (R1 & F1 & S1) (R2 & F2 & S2) G. unfold did, result, final, states, andthen in *.
  destruct (p f) as [l r] eqn:E. cbn [fst snd] in *. subst r. rewrite F1. destruct (q a g) as [l2 r2] eqn:E2. cbn [fst snd] in *. subst r2.
  split; [reflexivity|]. split; [rewrite last_app, F1; exact F2|]. change (f :: (l ++ l2)%list) with ((f :: l) ++ l2)%list. apply List.Forall_app. split.
  - eapply List.Forall_impl; [|exact S1]. intros s K q0 Q. apply K. tauto.
  - inversion S2 as [|? ? _ S2']; subst. eapply List.Forall_impl; [|exact S2']. intros s K q0 Q. rewrite K by tauto. apply G. tauto.
Qed.

Lemma did_weaken {A} (p : prog fs A) f (S T : string -> Prop) a g : (forall q, S q -> T q) -> did p f S a g -> did p f T a g.
Proof. intros I (R & F & H). split; [exact R|]. split; [exact F|]. eapply List.Forall_impl; [|exact H]. intros s K q Q. apply K. auto. Qed.

Lemma did_ret {A} (a : A) f S : did (ret a) f S a f.
Proof. repeat split. repeat constructor. Qed.

Section dir.
  Context (cwd : string) (f : fs) (D : string) (C : cache_place f D).

  Lemma dir_facts : exists P t, stands f P /\ name t /\ D = P ++ "/" ++ t /\ below P [t] = D /\ P <> "/" /\ P <> "" /\ py_rstrip "/" (py_strip D) = D /\ String.eqb D "/" = false.
  Proof.
    destruct C as ((P & t & S & Nt & E) & B & _). destruct (stands_root P f S) as (Ab & R1 & R2 & _). exists P, t. assert (X : below P [t] = D) by (rewrite one_below by assumption; now symmetry). split; [exact S|]. split; [exact Nt|]. split; [exact E|]. split; [exact X|]. split; [exact R1|]. split; [exact R2|]. split.
    - assert (Sl : py_startswith D "/" = true).
      { rewrite E. pose proof S as (rs & Nr & Hr & Er & _). destruct Ab as (r & _ & Ab). rewrite Ab. apply startswith_iff. exists (r ++ "/" ++ t). now rewrite str_app_assoc. }
      rewrite strip_plain; [|intros r K; rewrite K in Sl; discriminate|exact Sl|exact B]. destruct Nt as (T0 & _ & _ & T1). destruct (str_snoc_cases t) as [->|(s & c & Ec)]; [congruence|].
      rewrite E, Ec. replace (P ++ "/" ++ s ++ String c "") with ((P ++ "/" ++ s) ++ String c "") by (now rewrite !str_app_assoc). apply PyFacts.rstrip_stop.
      destruct (char_in c "/") eqn:K; [|reflexivity]. apply PyFacts.char_in_iff in K. destruct K as [<-|[]]. elim T1. rewrite Ec. change (In "/"%char (los (s ++ String "/" ""))). rewrite los_app. apply in_or_app. right. now left.
    - rewrite <- X. now apply not_top.
  Qed.

  Lemma dir_found : f !! D = Some NDir -> forall fl, locate cwd fl f D = Some D /\ node_at f D = Some NDir.
  Proof.
    intros E fl. destruct dir_facts as (P & t & S & Nt & ET & B & R1 & R2 & _ & _). assert (H : forall x, In x [t] -> name x) by (intros x [<-|[]]; exact Nt). split.
    - rewrite <- B. apply locate_reached; [exact S|exact H|discriminate|apply one_dirs|intros u; rewrite B, E; discriminate].
    - rewrite <- B, node_at_below by assumption. now rewrite B.
  Qed.

  Lemma dir_cleaned : f !! D = Some NDir -> clean_dir cwd D f = ([rmtree f D], Ok tt) /\ check_dir cwd D f = ([], Ok tt).
  Proof.
    intros E. destruct dir_facts as (P & t & S & Nt & ET & B & R1 & R2 & St & Top). destruct (dir_found E true) as [L Nd]. destruct (dir_found E false) as [L' _]. split.
    - unfold clean_dir. rewrite ask_eq. unfold e_exists, os_stat. rewrite L, Nd. unfold shutil_rmtree. rewrite ask_eq, L', Nd, Top. reflexivity.
    - unfold check_dir. rewrite ask_eq, St. unfold e_exists, os_stat. now rewrite L, Nd.
  Qed.

  Lemma dir_missing : (forall q, at_or_in D q -> f !! q = None) -> e_exists cwd f D = false /\ check_dir cwd D f = ([<[D := NDir]> f], Ok tt).
  Proof.
    intros E. destruct dir_facts as (P & t & S & Nt & ET & B & R1 & R2 & St & Top). assert (H : forall x, In x [t] -> name x) by (intros x [<-|[]]; exact Nt).
    set (d := mkDisk f ∅). assert (K : nodes d !! below P [t] = None) by (rewrite B; apply E; now left).
    pose proof (locate_fresh cwd P d [t] S H (fun X => nil_cons (eq_sym X)) (one_dirs P _ t) K true D (or_introl (eq_sym B))) as L. rewrite B in L.
    assert (X : e_exists cwd f D = false). { unfold e_exists, os_stat. change (nodes d) with f in L. rewrite L. rewrite <- B, node_at_below by assumption. change (nodes d) with f in K. now rewrite K. }
    split; [exact X|]. unfold check_dir. rewrite ask_eq, St, X.
    pose proof (makedirs_fresh cwd P d [t] S H (fun X => nil_cons (eq_sym X)) (one_dirs P _ t) K (String.length D) D (or_introl (eq_sym B))) as M. rewrite B in M. exact M.
  Qed.
End dir.

Lemma same_rmtree f D : same_but (at_or_in D) f (rmtree f D).
Proof. intros q Q. rewrite rmtree_at. destruct (under D q) eqn:U; [|reflexivity]. apply under_spec in U. contradiction. Qed.

Lemma rmtree_missing f D : (forall q, at_or_in D q -> f !! q = None) -> rmtree f D = f.
Proof. intros E. apply map_eq. intros q. rewrite rmtree_at. destruct (under D q) eqn:U; [|reflexivity]. apply under_spec in U. now rewrite E. Qed.

Lemma rmtree_made f D : rmtree (<[D := NDir]> f) D = rmtree f D.
Proof.
  apply map_eq. intros q. rewrite !rmtree_at. destruct (under D q) eqn:U; [reflexivity|]. rewrite lookup_insert_ne; [reflexivity|]. intros ->. assert (under q q = true) by (apply under_spec; now left). congruence.
Qed.

Lemma same_made f D : same_but (at_or_in D) f (<[D := NDir]> f).
Proof. intros q Q. apply lookup_insert_ne. intros <-. apply Q. now left. Qed.

Lemma str_app_cases a : forall b c d, a ++ b = c ++ d -> (exists u, c = a ++ u /\ b = u ++ d) \/ (exists u, a = c ++ u /\ d = u ++ b).
Proof.
  induction a as [|x a IH]; intros b c d E; [left; now exists c|]. destruct c as [|y c]; [right; now exists (String x a)|]. injection E as -> E.
  destruct (IH b c d E) as [(u & -> & ->)|(u & -> & ->)]; [left|right]; now exists u.
Qed.

Lemma below_long a : a <> [] -> (forall n, In n a -> name n) -> 2 <= String.length (below "/" a).
Proof.
  intros Na H. destruct a as [|x a]; [congruence|]. destruct (H x (or_introl eq_refl)) as (Nx & _). destruct x as [|c x]; [congruence|].
  change (below "/" (String c x :: a)) with (below (String "/" (String c x)) a).
  pose proof (below_length (String "/" (String c x)) a ltac:(discriminate) ltac:(discriminate)) as Ln. cbn [String.length] in Ln. lia.
Qed.

(** What is apart stays. *)
Lemma at_or_in_below a b D : a <> [] -> (forall n, In n (a ++ b) -> name n) -> at_or_in D (below "/" a) -> at_or_in D (below "/" (a ++ b)).
Proof.
  intros Na H A. rewrite below_app. destruct b as [|n b]; [exact A|].
  assert (X : beneath (below "/" a) (below (below "/" a) (n :: b))).
  { pose proof (below_long a Na (fun n I => H n (in_or_app _ _ _ (or_introl I)))) as Ln. apply below_beneath; [| |discriminate]; intros K; rewrite K in Ln; cbn in Ln; lia. }
  destruct X as [r ->]. right. destruct A as [->|[s ->]]; [now exists r|]. exists (s ++ "/" ++ r). now rewrite !str_app_assoc.
Qed.

Lemma stands_stays f g D E : same_but (at_or_in D) f g -> stands f E -> ~ at_or_in D E -> stands g E.
Proof.
  intros Sm (rs & Nr & Hr & Er & Dr) A. exists rs. split; [exact Nr|]. split; [exact Hr|]. split; [exact Er|]. intros a b Ea Na. rewrite Sm; [now apply (Dr a b)|]. intros K. apply A. rewrite Er, Ea. apply at_or_in_below; [exact Na| |exact K]. now rewrite <- Ea.
Qed.

Lemma place_stays f g D E : same_but (at_or_in D) f g -> cache_place f E -> apart D E -> cache_place g E.
Proof.
  intros Sm ((P & t & S & Nt & ET) & B & W) (A1 & A2). split; [|split; [exact B|]].
  - exists P, t. split; [|now split]. apply (stands_stays f g D P Sm S). intros K. apply A1. rewrite ET. right. destruct K as [->|[r ->]]; [now exists t|]. exists (r ++ "/" ++ t). now rewrite !str_app_assoc.
  - destruct W as [W|W]; [left; now rewrite Sm|]. destruct (g !! E) as [n|] eqn:G.
    + exfalso. rewrite Sm in G by exact A1. rewrite W in G by (now left). discriminate.
    + right. intros q Q. rewrite Sm; [now apply W|]. intros K.
      (* q is in both: one is in the other *)
      apply under_spec in K. apply under_spec in Q. clear - K Q A1 A2.
      apply under_iff in K as (r & -> & Hr). apply under_iff in Q as (s & Es & Hs).
      destruct (str_app_cases D r E s Es) as [(u & Eu & Er)|(u & Eu & Es')].
      * (* E = D ++ u *) subst E. apply A1. apply under_spec, under_iff. exists u. split; [reflexivity|]. destruct u as [|c u]; [now left|right]. destruct Hr as [->|[w ->]]; [discriminate Er|]. injection Er as -> Er. now exists u.
      * subst D. apply A2. apply under_spec, under_iff. exists u. split; [reflexivity|]. destruct u as [|c u]; [now left|right]. destruct Hs as [->|[w ->]]; [discriminate Es'|]. injection Es' as -> Es'. now exists u.
Qed.

(** ** The program *)
Section program.
  Context (cwd dest packages archives tmp : string) (user : option string) (writable : string -> bool).

  (** The directory of the configuration is there afterwards. *)
  Definition ready (f : fs) (D : string) (g : fs) : Prop := g !! D = Some NDir /\ same_but (at_or_in D) f g /\ rmtree g D = rmtree f D /\ cache_place g D /\ (f !! D = Some NDir -> g = f).

  Lemma subdir_did f path D : D = join_path2 dest path -> cache_place f D -> exists g, did (subdir cwd dest path) f (at_or_in D) D g /\ ready f D g.
  Proof.
    intros ED C. pose proof C as (Pl & B & W). destruct (f !! D) as [n|] eqn:E.
    - assert (n = NDir) as ->. { destruct W as [W|W]; [congruence|]. rewrite W in E by (now left). discriminate. }
      exists f. destruct (dir_cleaned cwd f D C E) as [_ K]. split.
      + unfold subdir. rewrite <- ED. split; [|split]; unfold result, final, states, andthen; rewrite K; [reflexivity|reflexivity|repeat constructor].
      + split; [exact E|]. split; [intros q _; reflexivity|]. split; [reflexivity|]. split; [exact C|reflexivity].
    - assert (W' : forall q, at_or_in D q -> f !! q = None) by (destruct W as [W|W]; [congruence|exact W]).
      exists (<[D := NDir]> f). destruct (dir_missing cwd f D C W') as [_ K]. split.
      + unfold subdir. rewrite <- ED. split; [|split]; unfold result, final, states, andthen; rewrite K; [reflexivity|reflexivity|].
        cbn [fst snd app]. repeat constructor. apply same_made.
      + split; [apply lookup_insert|]. split; [apply same_made|]. split; [apply rmtree_made|]. split; [|congruence].
        split; [|split; [exact B|left; apply lookup_insert]]. destruct Pl as (P & t & S & Nt & ET). exists P, t. split; [|now split].
        apply (stands_stays f _ D P (same_made f D) S). rewrite ET. intros [K'|[r K']]; apply (f_equal String.length) in K'; rewrite ?str_app_length in K'; cbn [String.length] in K'; lia.
  Qed.

  Lemma clean_did f D : cache_place f D -> did (clean_dir cwd D) f (at_or_in D) tt (rmtree f D).
  Proof.
    intros C. pose proof C as (_ & _ & W). destruct W as [W|W].
    - destruct (dir_cleaned cwd f D C W) as [K _]. unfold did, result, final, states. rewrite K. repeat split. repeat constructor. apply same_rmtree.
    - destruct (dir_missing cwd f D C W) as [K _]. rewrite (rmtree_missing f D W). unfold did, result, final, states, clean_dir. rewrite ask_eq, K. repeat split. repeat constructor.
  Qed.

  Lemma did_same {A} (p : prog fs A) f S a g : did p f S a g -> same_but S f g.
  Proof. intros (_ & <- & H). rewrite List.Forall_forall in H. apply H. apply final_state. Qed.

  Context (P A S T : string) (EP : P = join_path2 dest packages) (EA : A = join_path2 dest archives) (ES : S = join_path2 dest tmp) (ET : T = if writable S then S else userdir user).

  Lemma delete_did f :
    cache_place f P -> cache_place f A -> cache_place f S -> apart P A -> apart P S -> apart A S ->
    writable S = true \/ (f !! S = Some NDir /\ cache_place f T /\ apart P T /\ apart A T) ->
    did (delete_cache cwd dest packages archives tmp user writable) f (fun q => at_or_in P q \/ at_or_in A q \/ at_or_in T q) tt (rmtree (rmtree (rmtree f P) A) T).
  Proof.
    intros CP CA CS PA PS AS W.
    destruct (subdir_did f packages P EP CP) as (f1 & D1 & (N1 & M1 & R1 & C1 & _)).
    pose proof (clean_did f1 P C1) as E1. rewrite R1 in E1. set (g := rmtree f P) in *.
    assert (Mg : same_but (at_or_in P) f g) by apply same_rmtree.
    pose proof (place_stays f g P A Mg CA PA) as CAg. pose proof (place_stays f g P S Mg CS PS) as CSg.
    destruct (subdir_did g archives A EA CAg) as (f2 & D2 & (N2 & M2 & R2 & C2 & _)).
    pose proof (clean_did f2 A C2) as E2. rewrite R2 in E2. set (h := rmtree g A) in *.
    assert (Mh : same_but (at_or_in A) g h) by apply same_rmtree.
    pose proof (place_stays g h A S Mh CSg AS) as CSh.
    destruct (subdir_did h tmp S ES CSh) as (f3 & D3 & (N3 & M3 & R3 & C3 & I3)).
    assert (D4 : exists k, did (tmp_dir cwd dest tmp user writable) h (at_or_in T) T k /\ cache_place k T /\ rmtree k T = rmtree h T).
    { exists f3. assert (X : did (tmp_dir cwd dest tmp user writable) h (fun q => at_or_in S q \/ False) T f3) by (unfold tmp_dir; rewrite ET; eapply (did_then _ _ _ _ _ _ (fun _ => False)); [exact D3|apply did_ret|exact M3]).
      destruct (writable S) eqn:Wr.
      - rewrite ET in *. split; [eapply did_weaken; [|exact X]; tauto|now split].
      - destruct W as [W|(WS & WT & W1 & W2)]; [discriminate|].
        assert (f3 = h) as ->. { apply I3. rewrite Mh by apply AS. now rewrite Mg by apply PS. }
        split; [|split; [|reflexivity]].
        + destruct X as (X1 & X2 & X3). split; [exact X1|]. split; [exact X2|].
          destruct D3 as (Y1 & Y2 & Y3). clear - CSh WS Mh Mg AS PS X1 ES.
          assert (K : tmp_dir cwd dest tmp user writable h = ([], Ok (userdir user)) \/ exists l r, tmp_dir cwd dest tmp user writable h = (l, r) /\ l = []).
          { right. assert (E : h !! S = Some NDir) by (rewrite Mh by apply AS; now rewrite Mg by apply PS). destruct (dir_cleaned cwd h S CSh E) as [_ K]. unfold tmp_dir, subdir, andthen. rewrite <- ES. rewrite K. cbn. eexists _, _. split; reflexivity. }
          unfold states. destruct K as [->|(l & r & -> & ->)]; cbn [fst]; repeat constructor; intros q _; reflexivity.
        + apply (place_stays g h A _ Mh); [|exact W2]. apply (place_stays f g P _ Mg WT W1). }
    destruct D4 as (k & D4 & C4 & R4). pose proof (clean_did k T C4) as E4. rewrite R4 in E4.
    unfold delete_cache.
    eapply did_weaken; [|eapply did_then; [exact D1|eapply did_then; [exact E1|eapply did_then; [exact D2|eapply did_then; [exact E2|eapply did_then; [exact D4|exact E4|]|]|]|]|]]; try (now apply did_same).
    - cbn. tauto.
    - exact (did_same _ _ _ _ _ D4).
    - exact (did_same _ _ _ _ _ E2).
    - exact (did_same _ _ _ _ _ D2).
    - exact (did_same _ _ _ _ _ E1).
    - exact (did_same _ _ _ _ _ D1).
  Qed.

  Lemma rmtree3 f X Y Z : emptied_of [X; Y; Z] f (rmtree (rmtree (rmtree f X) Y) Z).
  Proof.
    split.
    - intros D q I Q. rewrite !rmtree_at. apply under_spec in Q. destruct I as [<-|[<-|[<-|[]]]]; rewrite Q; repeat match goal with |- context [under ?D q] => destruct (under D q) end; reflexivity.
    - intros q Q. rewrite !rmtree_at. repeat match goal with |- context [under ?D q] => let U := fresh in destruct (under D q) eqn:U; [exfalso; apply Q; exists D; split; [cbn; tauto|now apply under_spec]|] end. reflexivity.
  Qed.
End program.
