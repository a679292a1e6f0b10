(** * Archives: unpacking what was packed gives the tree *)
From Coq Require Import String Ascii ZArith NArith List Bool Lia.
From stdpp Require Import gmap strings.
From Verif Require Import Model.Py Model.InstallDB Model.Path Model.Fs Model.Trace Model.Actions Model.Index Model.Archive Spec.PathSpec Spec.FsSpec Spec.ActionsSpec Spec.ArchiveSpec.
From Verif Require Import Proof.PyFacts Proof.PathFacts Proof.FsFacts Proof.TraceFacts Proof.ActionsPaths Proof.ActionsFacts Proof.ActionsTop Proof.ActionsExact Proof.ActionsMove Proof.ArchiveFacts Proof.ArchiveTree.
Import ListNotations.
Open Scope string_scope.
Open Scope prog_scope.

Lemma longer P v : P ++ "/" ++ v <> P.
Proof. intros Q. apply (f_equal String.length) in Q. rewrite str_app_length in Q. change (String.length ("/" ++ v)) with (Datatypes.S (String.length v)) in Q. lia. Qed.

Section trip.
  Context {M : Type} (mdir : list string -> N -> M) (mfile : list string -> N -> string -> M) (mlink : list string -> string -> M).
  Context (d : disk) (C : string) (SC : stands (nodes d) C) (Rd : real (nodes d)).

  (** The members of a tree, in some order of the names in each directory *)
  Fixpoint packed (n : nat) (ns : list string) (A : list M) : Prop :=
    match n with
    | O => False
    | S n =>
        match nodes d !! below C ns with
        | Some (NFile c) => A = [mfile ns (mode_of d (below C ns)) c]
        | Some (NLink t) => A = [mlink ns t]
        | Some NDir => exists xs As, List.NoDup xs /\ (forall x, In x xs <-> name x /\ nodes d !! below C (ns ++ [x]) <> None) /\
                         Forall2 (fun x => packed n (ns ++ [x])) xs As /\ A = mdir ns (mode_of d (below C ns)) :: concat As
        | _ => False
        end
    end.

  Context (root : string) (umask : N) (pre : list string) (Hpre : forall n, In n pre -> name n) (one : M -> prog disk unit) (whole : list M) (fk dk : N -> N -> Prop) (kf kd : N -> N).
  Context (Kf : forall m, fk m (kf m)) (Kd : forall m, dk m (kd m)).
  Definition ready (e : disk) (ns : list string) : Prop := stands (nodes e) root /\ (forall n, In n ns -> name n) /\ ns <> [] /\ dirs_to root (nodes e) ns /\ nodes e !! below root ns = None.
  Notation src ns := (below C (pre ++ ns)).
  Context (Hdir : forall e ns, ready e ns -> nodes d !! src ns = Some NDir -> In (mdir (pre ++ ns) (mode_of d (src ns))) whole ->
             does (one (mdir (pre ++ ns) (mode_of d (src ns)))) e (fun e' => adds root e e' ns NDir (kd (mode_of d (src ns))))).
  Context (Hfile : forall e ns c, ready e ns -> nodes d !! src ns = Some (NFile c) -> In (mfile (pre ++ ns) (mode_of d (src ns)) c) whole ->
             does (one (mfile (pre ++ ns) (mode_of d (src ns)) c)) e (fun e' => adds root e e' ns (NFile c) (kf (mode_of d (src ns))))).
  Context (Hlink : forall e ns t, ready e ns -> nodes d !! src ns = Some (NLink t) -> In (mlink (pre ++ ns) t) whole ->
             does (one (mlink (pre ++ ns) t)) e (fun e' => adds root e e' ns (NLink t) 0)).

  Lemma adds_same e e' ns x m q : adds root e e' ns x m -> q <> below root ns -> same_at e e' q.
  Proof. intros (E & _ & O) N. split; [rewrite E; apply lookup_insert_ne; congruence|now apply O]. Qed.
  Definition kept (n : node) (m m' : N) : Prop := match n with NFile _ => fk m m' | NDir => dk m m' | _ => True end.
  Lemma leaf e e' ns x m : stands (nodes e) root -> (forall n, In n ns -> name n) -> ns <> [] -> nothing_at e (below root ns) -> nodes d !! src ns = Some x -> x <> NDir -> adds root e e' ns x m -> kept x (mode_of d (src ns)) m \/ (exists t, x = NLink t) ->
    copied fk dk d e' (src ns) (below root ns).
  Proof.
    intros S H N E X Nx A K u U. assert (Hs : forall n, In n (pre ++ ns) -> name n) by (apply names_app; now split). destruct U as [->|[v ->]].
    - rewrite !str_app_nil_r. rewrite X. destruct A as (A1 & A2 & _). rewrite A1, lookup_insert. split; [reflexivity|].
      destruct x; try exact Logic.I; [|congruence]. rewrite A2 by (intros t; discriminate). destruct K as [K|[t K]]; [exact K|discriminate].
    - assert (Z : nodes d !! (src ns ++ "/" ++ v) = None).
      { destruct (nodes d !! (src ns ++ "/" ++ v)) as [y|] eqn:Y; [|reflexivity]. exfalso. destruct (real_below d C SC Rd (src ns ++ "/" ++ v)) with (ns := (pre ++ ns)%list) as (ks & Nk & Hk & Ek & Dk); [rewrite Y; discriminate|exact Hs|now exists v|].
        specialize (Dk (pre ++ ns)%list ks eq_refl). rewrite X in Dk. assert (F : Some x = Some NDir) by (apply Dk; [intros F; apply app_eq_nil in F as [_ F]; congruence|exact Nk]). congruence. }
      rewrite Z. split; [|exact Logic.I]. destruct (adds_same _ _ _ _ _ (below root ns ++ "/" ++ v) A) as [Q _].
      { apply longer. }
      rewrite Q. apply E. right. now exists v.
  Qed.

  Lemma copied_same e e' P Q : copied fk dk d e P Q -> (forall q, at_or_in Q q -> same_at e e' q) -> copied fk dk d e' P Q.
  Proof.
    intros K S u U. destruct (K u U) as [K1 K2]. destruct (S (Q ++ u)) as [S1 S2]; [apply at_or_in_text; now exists u|]. split; [congruence|].
    destruct (nodes d !! (P ++ u)) as [[]|] eqn:E; try exact Logic.I; rewrite S2; try exact K2; rewrite K1; discriminate.
  Qed.

  Lemma unpack_packed n : forall ns A e, packed n (pre ++ ns) A -> incl A whole -> ns <> [] -> (forall x, In x ns -> name x) -> stands (nodes e) root -> dirs_to root (nodes e) ns -> nothing_at e (below root ns) ->
    does (each one A) e (fun e' => copied fk dk d e' (src ns) (below root ns) /\ forall q, ~ at_or_in (below root ns) q -> same_at e e' q).
  Proof.
    induction n as [|n IH]; intros ns A e P I N H S D E; [contradiction|]. cbn [packed] in P.
    assert (Ry : ready e ns) by (split; [exact S|]; split; [exact H|]; split; [exact N|]; split; [exact D|]; apply E; now left).
    assert (Hs : forall n, In n (pre ++ ns) -> name n) by (apply names_app; now split).
    destruct (stands_root root _ S) as (Ra & R1 & R2 & R3).
    destruct (nodes d !! src ns) as [[c| |t|]|] eqn:X; try contradiction.
    - subst A. cbn [each]. eapply does_then; [apply Hfile; [exact Ry|exact X|apply I; now left]|]. intros e' A. apply does_ret. split.
      + refine (leaf e e' ns _ _ S H N E X _ A _); [discriminate|]. left. apply Kf.
      + intros q Q. eapply adds_same; [exact A|]. intros ->. apply Q. now left.
    - destruct P as (xs & As & Nd & Ch & F & ->). cbn [each]. eapply does_then; [apply Hdir; [exact Ry|exact X|apply I; now left]|]. intros e1 A.
      pose proof (adds_stands root _ _ _ _ _ S N A) as S1. pose proof (adds_dirs root _ _ _ _ _ S H D A) as D1.
      assert (I' : incl (concat As) whole) by (intros m Im; apply I; now right). clear I.
      set (Q := below root ns) in *. assert (Qx : forall x, below root (ns ++ [x]) = Q ++ "/" ++ x) by (intros x; apply below_child; assumption).
      (* what holds with the children [done] unpacked *)
      set (Inv := fun (don : list string) (e' : disk) => stands (nodes e') root /\ dirs_to root (nodes e') ns /\ nodes e' !! Q = Some NDir /\ mode_of e' Q = kd (mode_of d (src ns)) /\
                    (forall q, ~ at_or_in Q q -> same_at e e' q) /\ (forall x, In x don -> copied fk dk d e' (src (ns ++ [x])) (Q ++ "/" ++ x)) /\
                    (forall q, beneath Q q -> nodes e' !! q <> None -> exists x, In x don /\ at_or_in (Q ++ "/" ++ x) q)).
      assert (L : forall ys Bs don e', Forall2 (fun x => packed n ((pre ++ ns) ++ [x])) ys Bs -> List.NoDup (don ++ ys) -> (forall x, In x (don ++ ys) -> name x) -> incl (concat Bs) whole -> Inv don e' -> does (each one (concat Bs)) e' (Inv (don ++ ys)%list)).
      { clear Ch F Nd I'. intros ys Bs. revert ys. induction Bs as [|B Bs IHB]; intros ys don e' F Nd Hn I V.
        - inversion F; subst. rewrite app_nil_r. now apply does_ret.
        - destruct ys as [|y ys]; [inversion F|]. apply Forall2_cons in F as [Fy F]. cbn [concat] in *.
          assert (Ny : name y) by (apply Hn; rewrite in_app_iff; right; now left).
          assert (Fr : ~ In y don) by (intros J; apply NoDup_remove_2 in Nd; apply Nd; rewrite in_app_iff; now left).
          destruct V as (V1 & V2 & V3 & V4 & V5 & V6 & V7). rewrite <- app_assoc in Fy.
          assert (Hy : forall x, In x (ns ++ [y]) -> name x) by (apply names_app; split; [exact H|intros x [<-|[]]; exact Ny]).
          eapply does_app.
          + apply (IH (ns ++ [y])%list B e' Fy); [intros m J; apply I; rewrite in_app_iff; now left|destruct ns; discriminate|exact Hy|exact V1| |].
            * apply dirs_to_snoc. intros b c Eb Nb. destruct c as [|c0 c]; [rewrite app_nil_r in Eb; subst b; exact V3|]. apply (V2 b (c0 :: c) Eb Nb). discriminate.
            * rewrite Qx. intros q J. destruct (nodes e' !! q) as [z|] eqn:Z; [|reflexivity]. exfalso. destruct (V7 q) as (x & Ix & Jx); [now apply (at_or_in_up Q y)|rewrite Z; discriminate|].
              assert (x = y); [|subst; contradiction]. apply (siblings_apart Q x y q); [|apply Ny|exact Jx|exact J]. apply Hn. rewrite in_app_iff. now left.
          + intros e2 [K1 K2]. rewrite Qx in K1, K2. replace (don ++ y :: ys)%list with ((don ++ [y]) ++ ys)%list in * by now rewrite <- app_assoc.
            apply IHB; [exact F|exact Nd|exact Hn|intros m J; apply I; rewrite in_app_iff; now right|].
            assert (QQ : ~ at_or_in (Q ++ "/" ++ y) Q) by (intros J; apply at_or_in_up in J as [v J]; symmetry in J; now apply longer in J).
            assert (Up : forall q, at_or_in (Q ++ "/" ++ y) q -> beneath Q q) by (intros q; apply at_or_in_up).
            split; [|split; [|split; [|split; [|split; [|split]]]]].
            * apply (stands_same root (nodes e')); [|exact V1]. intros q B'. apply K2. intros J. apply B'. apply Up in J as [v J]. destruct (below_beneath root ns R1 R2 N) as [w Ew]. fold Q in Ew. exists (w ++ "/" ++ v). now rewrite J, Ew, !str_app_assoc.
            * intros a b Ea Na Nb. destruct (K2 (below root a)) as [K3 _]; [|rewrite K3; now apply (V2 a b)]. intros J. apply Up in J as [v J]. unfold Q in J. rewrite Ea, below_app in J.
              assert (Ba : below root a <> "/" /\ below root a <> "") by (split; intros Z; pose proof (not_top root a R1 R2) as T; rewrite Z in T; [discriminate T|]; destruct a as [|a0 a]; [congruence|]; rewrite below_text in Z by (assumption || discriminate); destruct root; discriminate Z).
              rewrite (below_text (below root a) b) in J by (try apply Ba; assumption). rewrite !str_app_assoc in J. symmetry in J. now apply longer in J.
            * destruct (K2 Q QQ) as [K3 _]. now rewrite K3.
            * destruct (K2 Q QQ) as [_ K3]. rewrite K3; [exact V4|]. rewrite V3. discriminate.
            * intros q J. apply (same_at_trans e e' e2); [now apply V5|]. apply K2. intros J'. apply J. right. now apply Up.
            * intros x J. apply in_app_iff in J as [J|[<-|[]]]; [|exact K1]. apply (copied_same e'); [now apply V6|]. intros q J1. apply K2. intros J2.
              assert (x = y); [|subst; contradiction]. apply (siblings_apart Q x y q); [|apply Ny|exact J1|exact J2]. apply Hn. rewrite !in_app_iff. auto.
            * intros q J Z. destruct (under (Q ++ "/" ++ y) q) eqn:U; [apply under_spec in U; exists y; split; [rewrite in_app_iff; right; now left|exact U]|].
              assert (~ at_or_in (Q ++ "/" ++ y) q) by (intros J'; apply under_spec in J'; congruence). destruct (K2 q H0) as [K3 _]. rewrite K3 in Z. destruct (V7 q J Z) as (x & Ix & Jx). exists x. split; [rewrite in_app_iff; now left|exact Jx]. }
      eapply does_weaken; [apply (L xs As [] e1 F Nd)|].
      + intros x J. now apply Ch in J.
      + exact I'.
      + split; [exact S1|]. split; [exact D1|]. destruct A as (A1 & A2 & A3) eqn:EA. split; [rewrite A1; apply lookup_insert|]. split; [apply A2; intros t; discriminate|]. split; [|split; [intros x []|]].
        * intros q J. apply (adds_same _ _ _ _ _ q A). intros ->. apply J. now left.
        * intros q J Z. exfalso. apply Z. destruct J as [v J]. destruct (adds_same _ _ _ _ _ q A) as [Y _]; [intros Y; rewrite J in Y; now apply longer in Y|]. rewrite Y. apply E. right. now exists v.
      + cbn [app]. intros e2 (V1 & V2 & V3 & V4 & V5 & V6 & V7). split; [|exact V5]. intros u [->|[v ->]].
        * rewrite !str_app_nil_r, X. split; [exact V3|]. rewrite V4. apply Kd.
        * destruct (existsb (fun x => under (Q ++ "/" ++ x) (Q ++ "/" ++ v)) xs) eqn:G.
          -- apply existsb_exists in G as (x & Ix & U). apply under_spec in U. pose proof (V6 x Ix) as K. apply at_or_in_text in U as (r & Er & R). rewrite !str_app_assoc in Er. apply str_app_inv_l in Er. injection Er as ->.
             specialize (K r R). rewrite app_assoc, below_child in K by first [apply (C1 d C SC)|apply (C2 d C SC)]. rewrite !str_app_assoc in K. exact K.
          -- assert (Gx : forall x, In x xs -> ~ at_or_in (Q ++ "/" ++ x) (Q ++ "/" ++ v)).
             { intros x Ix J. apply under_spec in J. assert (existsb (fun x => under (Q ++ "/" ++ x) (Q ++ "/" ++ v)) xs = true) by (apply existsb_exists; now exists x). congruence. }
             assert (Z1 : nodes e2 !! (Q ++ "/" ++ v) = None).
             { destruct (nodes e2 !! (Q ++ "/" ++ v)) eqn:Z; [|reflexivity]. exfalso. destruct (V7 (Q ++ "/" ++ v)) as (x & Ix & J); [now exists v|rewrite Z; discriminate|]. now apply (Gx x). }
             assert (Z2 : nodes d !! (src ns ++ "/" ++ v) = None).
             { destruct (nodes d !! (src ns ++ "/" ++ v)) eqn:Z; [|reflexivity]. exfalso. destruct (real_below d C SC Rd (src ns ++ "/" ++ v)) with (ns := (pre ++ ns)%list) as (ks & Nk & Hk & Ek & Dk); [rewrite Z; discriminate|exact Hs|now exists v|].
               destruct ks as [|x ks]; [congruence|]. assert (Nx : name x) by (apply Hk; now left).
               apply (Gx x).
               - apply Ch. split; [exact Nx|]. destruct ks as [|k ks]; [rewrite <- Ek, Z; discriminate|]. rewrite (Dk ((pre ++ ns) ++ [x])%list (k :: ks)); [discriminate|now rewrite <- (app_assoc (pre ++ ns) [x])|destruct pre, ns; discriminate|discriminate].
               - rewrite (below_app C (pre ++ ns) (x :: ks)) in Ek. rewrite child_below in Ek. pose proof (not_top C (pre ++ ns) (C1 d C SC) (C2 d C SC)) as T. unfold child in Ek. rewrite T in Ek.
                 assert (W : exists r, below (src ns ++ "/" ++ x) ks = (src ns ++ "/" ++ x) ++ r /\ (r = "" \/ exists u, r = "/" ++ u)).
                 { destruct ks as [|k ks]; [exists ""; cbn [below]; rewrite str_app_nil_r; auto|]. exists ("/" ++ String.concat "/" (k :: ks)). split; [|eauto]. apply below_text; [| |discriminate].
                   - intros W. apply (f_equal String.length) in W. rewrite !str_app_length in W. destruct Nx as (Nx & _). destruct x; [congruence|]. cbn in W. lia.
                   - intros W. apply (f_equal String.length) in W. rewrite !str_app_length in W. cbn in W. lia. }
                 destruct W as (r & W1 & W2). rewrite W1 in Ek. rewrite !str_app_assoc in Ek. apply str_app_inv_l in Ek. injection Ek as ->. apply at_or_in_text. exists r. split; [now rewrite !str_app_assoc|exact W2]. }
             rewrite Z1, Z2. split; [reflexivity|exact Logic.I].
    - subst A. cbn [each]. eapply does_then; [apply Hlink; [exact Ry|exact X|apply I; now left]|]. intros e' A. apply does_ret. split.
      + refine (leaf e e' ns _ _ S H N E X _ A _); [discriminate|]. right. now exists t.
      + intros q Q. eapply adds_same; [exact A|]. intros ->. apply Q. now left.
  Qed.

  Lemma unpack_tops n : forall xs As e, Forall2 (fun x => packed n (pre ++ [x])) xs As -> incl (concat As) whole -> List.NoDup xs -> (forall x, In x xs -> name x) -> stands (nodes e) root -> (forall x, In x xs -> nothing_at e (below root [x])) ->
    does (each one (concat As)) e (fun e' => stands (nodes e') root /\ (forall x, In x xs -> copied fk dk d e' (src [x]) (below root [x])) /\ forall q, (forall x, In x xs -> ~ at_or_in (below root [x]) q) -> same_at e e' q).
  Proof.
    induction xs as [|x xs IH]; intros As e F I Nd H S E.
    - inversion F; subst. apply does_ret. split; [exact S|]. split; [intros x []|intros q _; apply same_at_refl].
    - destruct As as [|A As]; [inversion F|]. apply Forall2_cons in F as [F1 F2]. inversion Nd as [|? ? Nx Nd']; subst. cbn [concat] in *. destruct (stands_root root _ S) as (_ & R1 & R2 & _).
      assert (Hx : name x) by (apply H; now left). assert (Bx : forall y, below root [y] = root ++ "/" ++ y) by (intros y; rewrite below_text by (assumption || discriminate); reflexivity).
      eapply does_app.
      + apply (unpack_packed n [x] A e F1); [intros m J; apply I; rewrite in_app_iff; now left|discriminate|intros y [<-|[]]; exact Hx|exact S| |apply E; now left].
        intros a b Ea Na Nb. exfalso. destruct a as [|a0 [|a1 a]]; [congruence| |discriminate Ea]. injection Ea as _ Ea. now destruct b.
      + intros e1 [K1 K2]. rewrite Bx in K1, K2. assert (Ap : forall y q, In y xs -> at_or_in (root ++ "/" ++ y) q -> ~ at_or_in (root ++ "/" ++ x) q).
        { intros y q Iy J1 J2. assert (y = x); [|subst; contradiction]. apply (siblings_apart root y x q); [apply H; now right|apply Hx|exact J1|exact J2]. }
        eapply does_weaken; [apply (IH As e1 F2)|].
        * intros m J. apply I. rewrite in_app_iff. now right.
        * exact Nd'.
        * intros y J. apply H. now right.
        * apply (stands_same root (nodes e)); [|exact S]. intros q B. apply K2. intros J. apply B. now apply (at_or_in_up root x).
        * intros y J q Q. destruct (K2 q) as [K3 _]; [rewrite Bx in Q; now apply (Ap y)|]. rewrite K3. apply (E y); [now right|exact Q].
        * intros e2 (Z1 & Z2 & Z3). split; [exact Z1|]. split.
          -- intros y [<-|J]; [|now apply Z2]. rewrite Bx. apply (copied_same e1); [exact K1|]. intros q Q. apply Z3. intros y J Q'. rewrite Bx in Q'. now apply (Ap y q J Q').
          -- intros q Q. apply (same_at_trans e e1 e2); [apply K2; rewrite <- Bx; apply Q; now left|]. apply Z3. intros y J. apply Q. now right.
  Qed.
End trip.
