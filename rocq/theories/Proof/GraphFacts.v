From Coq Require Import String List Lia.
From stdpp Require Import gmap strings relations.
From Verif Require Import Model.Py Model.Graph Spec.GraphSpec Proof.DatabaseFacts.
Open Scope string_scope.
Open Scope list_scope.

Section dfs.
  Context (E : string -> string -> Prop) (vs : list string) (adj : string -> list string).
  Hypothesis nodup_vs : NoDup vs.
  Hypothesis adj_spec : forall u, In u vs -> forall v, In v (adj u) <-> E u v.
  Hypothesis closed : forall u v, E u v -> In u vs /\ In v vs.

  (** every successor of a vertex comes later *)
  Inductive topo : list string -> Prop :=
  | topo_nil : topo []
  | topo_cons x l : ~ In x l -> (forall y, E x y -> In y l) -> topo l -> topo (x :: l).

  (** the stack of vertices being explored, innermost first *)
  Fixpoint pchain (p : gmap string (option string)) (s : list string) : Prop :=
    match s with
    | [] => True
    | u :: s' =>
        match s' with
        | [] => p !! u = Some None
        | w :: _ => p !! u = Some (Some w) /\ E w u
        end /\ pchain p s'
    end.

  Record J (st : dst) (s : list string) : Prop := mkJ {
    j_dom : forall x, In x vs <-> is_Some (d_color st !! x);
    j_grey : forall x, d_color st !! x = Some Green <-> In x s;
    j_black : forall x, d_color st !! x = Some Black <-> In x (d_fin st);
    j_topo : topo (rev (d_fin st));
    j_nodup : NoDup s;
    j_chain : pchain (d_parent st) s;
    j_par : forall x, In x vs <-> is_Some (d_parent st !! x)
  }.

  Definition fresh_parents (st : dst) (P : string -> Prop) : Prop :=
    forall x, d_color st !! x = Some White -> P x -> d_parent st !! x = Some None.

  (** what a reported list tells *)
  Fixpoint ewalk (l : list string) : Prop :=
    match l with
    | u :: l' => match l' with v :: _ => E u v | [] => True end /\ ewalk l'
    | [] => True
    end.
  Definition report (c : list string) : Prop :=
    ewalk c /\ (exists v, tc E v v) /\
    (~ In "" vs -> exists a v b u, c = (a ++ v :: b) /\ NoDup c /\ last c = Some u /\ E u v).

  Lemma pchain_ext p p' s : (forall x, In x s -> p' !! x = p !! x) -> pchain p s -> pchain p' s.
  Proof.
    induction s as [|u s IH]; intros H; simpl; [auto|]. intros [K1 K2]. split.
    - destruct s as [|w s]; [rewrite H by (now left); exact K1|]. rewrite H by (now left). exact K1.
    - apply IH; [|exact K2]. intros x Hx. apply H. now right.
  Qed.

  Lemma chain_prefix p s : pchain p s -> s <> [] -> forall u, hd_error s = Some u -> forall fuel, length s <= fuel ->
    exists c r, chain fuel p u = Ok c /\ s = c ++ r /\ c <> [] /\ (r <> [] -> In "" s).
  Proof.
    induction s as [|x s IH]; intros H N u Hu fuel Hf; [contradiction|]. injection Hu as ->. simpl in H. destruct H as [H1 H2].
    destruct fuel as [|fuel]; [simpl in Hf; lia|]. simpl. destruct s as [|w s].
    - rewrite H1. simpl. exists [u], []. repeat split; try reflexivity; try discriminate. intros []. reflexivity.
    - destruct H1 as [H1 _]. rewrite H1. destruct (truthy (Some w)) eqn:T.
      + destruct (IH H2 ltac:(discriminate) w eq_refl fuel) as (c & r & C & D & F & G); [simpl in *; lia|].
        rewrite C. cbn [bind]. exists (u :: c), r. split; [reflexivity|]. split; [simpl; now rewrite D|]. split; [discriminate|].
        intros R. right. auto.
      + exists [u], (w :: s). repeat split; try discriminate. intros _. right. left. destruct w; [reflexivity|discriminate].
  Qed.

  Lemma pchain_walk p s : pchain p s -> ewalk (rev s).
  Proof.
    induction s as [|u s IH]; simpl; [auto|]. intros [H1 H2]. specialize (IH H2).
    destruct s as [|w s]; [simpl; auto|]. destruct H1 as [_ H1]. simpl rev in *.
    assert (G : forall l a b, ewalk (l ++ [a]) -> E a b -> ewalk ((l ++ [a]) ++ [b])).
    { clear. induction l as [|x l IH]; intros a b; simpl; [auto|]. intros [K1 K2] Hab. split; [|now apply IH].
      destruct l; simpl in *; exact K1. }
    now apply G.
  Qed.
  Lemma ewalk_app_l l l' : ewalk (l ++ l') -> ewalk l.
  Proof. induction l as [|x l IH]; simpl; [auto|]. intros [H1 H2]. split; [destruct l; simpl in *; auto|auto]. Qed.
  Lemma ewalk_app_r l l' : ewalk (l ++ l') -> ewalk l'.
  Proof. induction l as [|x l IH]; simpl; [auto|]. intros [_ H2]. auto. Qed.
  Lemma ewalk_reach l u v : ewalk (u :: l) -> last (u :: l) = Some v -> rtc E u v.
  Proof.
    revert u. induction l as [|w l IH]; intros u; simpl; [intros _ [= <-]; apply rtc_refl|]. intros [H1 [H2 H3]] L.
    eapply rtc_l; [exact H1|]. apply IH; [simpl; auto|exact L].
  Qed.

  Lemma back_edge_report st s u v c : J st (u :: s) -> chain (S (size (d_parent st))) (d_parent st) u = Ok c ->
    E u v -> In v (u :: s) -> report (rev c).
  Proof.
    intros Jst C Huv Hv. destruct Jst as [D G B T N P Q].
    destruct (chain_prefix _ _ P ltac:(discriminate) u eq_refl (S (size (d_parent st)))) as (c' & r & C' & S & Nc & R).
    { assert (L : length (u :: s) <= size (dom (d_parent st))).
      { rewrite <- (size_list_to_set (C := gset string) (u :: s)) by exact N. apply subseteq_size. intros x Hx.
        apply elem_of_list_to_set, elem_of_list_In in Hx. apply elem_of_dom. apply Q. apply D. apply G in Hx. eauto. }
      rewrite size_dom in L. lia. }
    rewrite C in C'. injection C' as <-. pose proof (pchain_walk _ _ P) as W.
    assert (Hd : exists c0, c = u :: c0). { destruct c as [|x c0]; [contradiction|]. simpl in S. injection S as <- _. eauto. }
    destruct Hd as [c0 Hc]. split; [|split].
    - rewrite S, rev_app_distr in W. now apply ewalk_app_r in W.
    - exists v. apply in_rev in Hv. apply in_split in Hv as (l1 & l2 & Hl). rewrite Hl in W. apply ewalk_app_r in W.
      assert (L : last (v :: l2) = Some u).
      { assert (X : last (rev (u :: s)) = Some u) by (simpl; apply last_snoc). rewrite Hl in X. rewrite last_app in X. 
        destruct (last (v :: l2)) eqn:Y; [exact X|]. simpl in Y. destruct l2; [discriminate|]. apply last_None in Y. discriminate. }
      eapply tc_rtc_l; [|apply tc_once; exact Huv]. eapply ewalk_reach; eauto.
    - intros Ne. assert (r = []) as ->.
      { destruct r as [|y r]; [reflexivity|]. exfalso. apply Ne. apply D. specialize (R ltac:(discriminate)). apply G in R. eauto. }
      rewrite app_nil_r in S. rewrite <- S. apply in_rev in Hv. apply in_split in Hv as (l1 & l2 & Hl).
      exists l1, v, l2, u. split; [exact Hl|]. split.
      { apply NoDup_ListNoDup in N. apply NoDup_ListNoDup. now apply NoDup_rev. }
      split; [simpl; apply last_snoc|exact Huv].
  Qed.

  Lemma topo_snoc_fin st s u : J st (u :: s) -> (forall y, E u y -> In y (d_fin st)) ->
    J (mkDst (<[u := Black]> (d_color st)) (d_parent st) (d_fin st ++ [u])) s.
  Proof.
    intros [D G B T N P Q] H. assert (Gu : d_color st !! u = Some Green) by (apply G; now left).
    apply NoDup_cons in N as [N1 N2].
    constructor; simpl.
    - intros x. rewrite D. destruct (decide (x = u)) as [->|Ne]; [rewrite lookup_insert, Gu; split; eauto|rewrite lookup_insert_ne by congruence; reflexivity].
    - intros x. destruct (decide (x = u)) as [->|Ne].
      + rewrite lookup_insert. split; [discriminate|]. intros K. exfalso. apply N1. now apply elem_of_list_In.
      + rewrite lookup_insert_ne by congruence. rewrite G. simpl. intuition congruence.
    - intros x. rewrite in_app_iff. destruct (decide (x = u)) as [->|Ne].
      + rewrite lookup_insert. simpl. tauto.
      + rewrite lookup_insert_ne by congruence. rewrite B. simpl. intuition congruence.
    - rewrite rev_app_distr. simpl. constructor; [|intros y Hy; rewrite <- in_rev; auto|exact T].
      rewrite <- in_rev. intros K. apply B in K. congruence.
    - exact N2.
    - simpl in P. apply P.
    - exact Q.
  Qed.

  Lemma push_grey st s u : J st s -> d_color st !! u = Some White ->
    match s with [] => d_parent st !! u = Some None | w :: _ => d_parent st !! u = Some (Some w) /\ E w u end ->
    J (mkDst (<[u := Green]> (d_color st)) (d_parent st) (d_fin st)) (u :: s).
  Proof.
    intros [D G B T N P Q] W H. constructor; simpl.
    - intros x. rewrite D. destruct (decide (x = u)) as [->|Ne]; [rewrite lookup_insert, W; split; eauto|rewrite lookup_insert_ne by congruence; reflexivity].
    - intros x. destruct (decide (x = u)) as [->|Ne]; [rewrite lookup_insert; tauto|].
      rewrite lookup_insert_ne by congruence. rewrite G. intuition congruence.
    - intros x. destruct (decide (x = u)) as [->|Ne].
      + rewrite lookup_insert. split; [discriminate|]. intros K. apply B in K. congruence.
      + rewrite lookup_insert_ne by congruence. apply B.
    - exact T.
    - apply NoDup_cons. split; [|exact N]. intros K. apply elem_of_list_In, G in K. congruence.
    - auto.
    - exact Q.
  Qed.

  Lemma set_parent st s u v : J st s -> d_color st !! v = Some White ->
    J (mkDst (d_color st) (<[v := Some u]> (d_parent st)) (d_fin st)) s.
  Proof.
    intros [D G B T N P Q] W. constructor; simpl; auto.
    - eapply pchain_ext; [|exact P]. intros x Hx. apply lookup_insert_ne. intros ->. apply G in Hx. congruence.
    - intros x. rewrite Q. destruct (decide (x = v)) as [->|Ne]; [|rewrite lookup_insert_ne by congruence; reflexivity].
      rewrite lookup_insert. split; [eauto|]. intros _. apply Q, D. eauto.
  Qed.

  Definition outcome (st : dst) (s : list string) (done : list string) (r : res dst) : Prop :=
    match r with
    | Ok st' => J st' s /\ (forall x, In x (d_fin st) -> In x (d_fin st')) /\ (forall x, In x done -> In x (d_fin st')) /\
        fresh_parents st' (fun _ => True) /\ (forall x, d_color st' !! x = Some White -> d_color st !! x = Some White)
    | Err (ECycle c) => report c
    | Err _ => False
    end.

  Lemma visit_outcome fuel : forall st s u, J st s -> d_color st !! u = Some White ->
    match s with [] => d_parent st !! u = Some None | w :: _ => d_parent st !! u = Some (Some w) /\ E w u end ->
    fresh_parents st (fun x => x <> u) -> length vs < fuel + length s ->
    outcome st s [u] (dfs_visit fuel adj st u).
  Proof.
    induction fuel as [|fuel IH]; intros st s u Jst W HP FP Hf.
    - exfalso. destruct Jst as [D G B T N P Q]. assert (L : length s <= length vs); [|simpl in Hf; lia].
      apply NoDup_incl_length; [now apply NoDup_ListNoDup|]. intros x Hx. apply D. apply G in Hx. eauto.
    - cbn [dfs_visit]. set (f := fun (st : dst) (v : string) => _).
      assert (Lu : In u vs) by (apply (j_dom _ _ Jst); eauto).
      assert (Ls : length vs < fuel + length (u :: s)) by (simpl; lia).
      set (st1 := mkDst (<[u := Green]> (d_color st)) (d_parent st) (d_fin st)).
      assert (J1 : J st1 (u :: s)) by (now apply push_grey).
      assert (F1 : fresh_parents st1 (fun _ => True)).
      { intros x Hx _. unfold st1 in *. simpl in *. destruct (decide (x = u)) as [->|Ne]; [rewrite lookup_insert in Hx; discriminate|].
        rewrite lookup_insert_ne in Hx by congruence. now apply FP. }
      assert (K1 : forall x, d_color st1 !! x = Some White -> d_color st !! x = Some White).
      { intros x. unfold st1. simpl. destruct (decide (x = u)) as [->|Ne]; [rewrite lookup_insert; discriminate|now rewrite lookup_insert_ne by congruence]. }
      assert (Loop : forall todo done st2, (forall v, In v todo -> E u v) -> J st2 (u :: s) -> fresh_parents st2 (fun _ => True) ->
         (forall x, In x done -> In x (d_fin st2)) ->
         match foldM f todo st2 with
         | Ok st' => J st' (u :: s) /\ (forall x, In x (d_fin st2) -> In x (d_fin st')) /\ (forall x, In x done \/ In x todo -> In x (d_fin st')) /\
             fresh_parents st' (fun _ => True) /\ (forall x, d_color st' !! x = Some White -> d_color st2 !! x = Some White)
         | Err (ECycle c) => report c
         | Err _ => False
         end).
      { induction todo as [|v todo IHt]; intros done st2 Ht J2 F2 Hdone; cbn [foldM].
        - split; [exact J2|]. split; [auto|]. split; [intros x [Hx|[]]; auto|]. split; [exact F2|auto].
        - assert (Huv : E u v) by (apply Ht; now left). assert (Lv : In v vs) by (apply (closed u v Huv)).
          destruct (proj1 (j_dom _ _ J2 v) Lv) as [c Hc]. unfold f at 1. rewrite Hc. destruct c.
          + assert (O : outcome (mkDst (d_color st2) (<[v := Some u]> (d_parent st2)) (d_fin st2)) (u :: s) [v]
                     (dfs_visit fuel adj (mkDst (d_color st2) (<[v := Some u]> (d_parent st2)) (d_fin st2)) v)).
            { apply IH; [now apply set_parent|exact Hc|simpl; rewrite lookup_insert; auto| |exact Ls].
              intros x Hx Hne. simpl in *. rewrite lookup_insert_ne by congruence. now apply F2. }
            destruct (dfs_visit fuel adj _ v) as [st3|e]; cbn [bind]; simpl in O.
            * destruct O as (J3 & O1 & O2 & F3 & O4).
              assert (X := IHt (v :: done) st3 (fun v' H => Ht v' (or_intror H)) J3 F3).
              specialize (X ltac:(intros x [<-|Hx]; [apply O2; now left|apply O1; auto])).
              destruct (foldM f todo st3) as [st4|e]; [|exact X]. destruct X as (J4 & X1 & X2 & X3 & X4).
              split; [exact J4|]. split; [auto|]. split; [|split; [exact X3|auto]].
              intros x [Hx|[<-|Hx]]; apply X2; simpl; tauto.
            * exact O.
          + destruct (chain (S (size (d_parent st2))) (d_parent st2) u) as [c|e] eqn:C.
            * cbn [bind]. apply (back_edge_report st2 s u v c J2 C Huv). now apply (j_grey _ _ J2).
            * exfalso. destruct J2 as [D G B T N P Q].
              destruct (chain_prefix _ _ P ltac:(discriminate) u eq_refl (S (size (d_parent st2)))) as (c' & r & C' & _); [|congruence].
              assert (L : length (u :: s) <= size (dom (d_parent st2))).
              { rewrite <- (size_list_to_set (C := gset string) (u :: s)) by exact N. apply subseteq_size. intros x Hx.
                apply elem_of_list_to_set, elem_of_list_In in Hx. apply elem_of_dom. apply Q. apply D. apply G in Hx. eauto. }
              rewrite size_dom in L. lia.
          + cbn [bind]. assert (X := IHt (v :: done) st2 (fun v' H => Ht v' (or_intror H)) J2 F2).
            specialize (X ltac:(intros x [<-|Hx]; [now apply (j_black _ _ J2)|auto])).
            destruct (foldM f todo st2) as [st4|e]; [|exact X]. destruct X as (J4 & X1 & X2 & X3 & X4).
            split; [exact J4|]. split; [auto|]. split; [|split; [exact X3|auto]].
            intros x [Hx|[<-|Hx]]; apply X2; simpl; tauto. }
      specialize (Loop (adj u) [] st1 (fun v H => proj1 (adj_spec u Lu v) H) J1 F1 ltac:(intros x [])).
      destruct (foldM f (adj u) st1) as [st2|e]; cbn [bind]; [|exact Loop].
      destruct Loop as (J2 & L1 & L2 & F2 & L4). unfold outcome.
      assert (J3 : J (mkDst (<[u := Black]> (d_color st2)) (d_parent st2) (d_fin st2 ++ [u])) s).
      { apply topo_snoc_fin; [exact J2|]. intros y Hy. apply L2. right. now apply adj_spec. }
      split; [exact J3|]. simpl. split; [intros x Hx; apply in_app_iff; left; now apply L1|].
      split; [intros x [<-|[]]; apply in_app_iff; right; now left|]. split.
      + intros x Hx _. simpl in *. destruct (decide (x = u)) as [->|Ne]; [rewrite lookup_insert in Hx; discriminate|].
        rewrite lookup_insert_ne in Hx by congruence. now apply F2.
      + intros x Hx. destruct (decide (x = u)) as [->|Ne]; [exact W|]. rewrite lookup_insert_ne in Hx by congruence. auto.
  Qed.

  Lemma dfs_outcome :
    match dfs vs adj with
    | Ok st => topo (rev (d_fin st)) /\ forall x, In x vs <-> In x (d_fin st)
    | Err (ECycle c) => report c
    | Err _ => False
    end.
  Proof.
    unfold dfs. set (st0 := mkDst _ _ _). set (f := fun (st : dst) (u : string) => _).
    assert (C0 : forall x, d_color st0 !! x = Some White <-> In x vs).
    { intros x. unfold st0. simpl. clear. induction vs as [|y l IH]; simpl; [rewrite lookup_empty; split; [discriminate|intros []]|].
      destruct (decide (y = x)) as [->|Ne]; [rewrite lookup_insert; tauto|]. rewrite lookup_insert_ne by exact Ne. rewrite IH. intuition congruence. }
    assert (C1 : forall x c, d_color st0 !! x = Some c -> c = White).
    { intros x c. unfold st0. simpl. clear. induction vs as [|y l IH]; simpl; [rewrite lookup_empty; discriminate|].
      destruct (decide (y = x)) as [->|Ne]; [rewrite lookup_insert; congruence|]. now rewrite lookup_insert_ne. }
    assert (P0 : forall x, d_parent st0 !! x = Some None <-> In x vs).
    { intros x. unfold st0. simpl. clear. induction vs as [|y l IH]; simpl; [rewrite lookup_empty; split; [discriminate|intros []]|].
      destruct (decide (y = x)) as [->|Ne]; [rewrite lookup_insert; tauto|]. rewrite lookup_insert_ne by exact Ne. rewrite IH. intuition congruence. }
    assert (P1 : forall x c, d_parent st0 !! x = Some c -> c = None).
    { intros x c. unfold st0. simpl. clear. induction vs as [|y l IH]; simpl; [rewrite lookup_empty; discriminate|].
      destruct (decide (y = x)) as [->|Ne]; [rewrite lookup_insert; congruence|]. now rewrite lookup_insert_ne. }
    assert (J0 : J st0 []).
    { constructor.
      - intros x. rewrite <- C0. split; [eauto|]. intros [c Hc]. rewrite Hc. f_equal. eauto.
      - intros x. simpl. split; [|intros []]. intros Hx. apply C1 in Hx. discriminate.
      - intros x. simpl. split; [|intros []]. intros Hx. apply C1 in Hx. discriminate.
      - constructor.
      - constructor.
      - exact I.
      - intros x. rewrite <- P0. split; [eauto|]. intros [c Hc]. rewrite Hc. f_equal. eauto. }
    assert (Loop : forall todo st, (forall x, In x todo -> In x vs) -> J st [] -> fresh_parents st (fun _ => True) ->
       match foldM f todo st with
       | Ok st' => J st' [] /\ (forall x, In x (d_fin st) \/ In x todo -> In x (d_fin st'))
       | Err (ECycle c) => report c
       | Err _ => False
       end).
    { induction todo as [|u todo IH]; intros st Ht Jst F; cbn [foldM]; [split; [exact Jst|]; intros x [Hx|[]]; exact Hx|].
      destruct (proj1 (j_dom _ _ Jst u) (Ht u (or_introl eq_refl))) as [c Hc]. unfold f at 1. rewrite Hc.
      assert (B : forall st', J st' [] -> fresh_parents st' (fun _ => True) -> (forall x, In x (d_fin st) -> In x (d_fin st')) -> In u (d_fin st') ->
        match foldM f todo st' with
        | Ok st' => J st' [] /\ (forall x, In x (d_fin st) \/ In x (u :: todo) -> In x (d_fin st'))
        | Err (ECycle c) => report c
        | Err _ => False
        end).
      { intros st' J' F' M U. specialize (IH st' (fun x H => Ht x (or_intror H)) J' F'). destruct (foldM f todo st'); [|exact IH].
        destruct IH as [I1 I2]. split; [exact I1|]. intros x [Hx|[<-|Hx]]; apply I2; auto. }
      destruct c.
      - assert (O := visit_outcome (S (length vs)) st [] u Jst Hc (F u Hc Logic.I) (fun x Hx _ => F x Hx Logic.I) ltac:(simpl; lia)).
        destruct (dfs_visit (S (length vs)) adj st u) as [st'|e]; cbn [bind]; [|exact O].
        destruct O as (J' & O1 & O2 & F' & _). apply B; auto. apply O2. now left.
      - exfalso. apply (j_grey _ _ Jst) in Hc. destruct Hc.
      - cbn [bind]. apply B; auto. now apply (j_black _ _ Jst). }
    specialize (Loop vs st0 (fun x H => H) J0 ltac:(intros x Hx _; apply P0, C0, Hx)).
    destruct (foldM f vs st0) as [st|e]; [|exact Loop]. destruct Loop as [J' L]. split; [apply J'|].
    intros x. split; [auto|]. intros Hx. apply (j_dom _ _ J'). apply (j_black _ _ J') in Hx. eauto.
  Qed.

  Lemma topo_acyclic l : topo l -> (forall x, In x vs -> In x l) -> ~ exists u, tc E u u.
  Proof.
    intros T H [u Hu].
    assert (G : forall l, topo l -> forall x y, tc E x y -> In x l -> exists a b c, l = a ++ x :: b ++ y :: c).
    { clear. induction 1 as [|z l Hz Hs Tl IH]; intros x y Hxy Hx; [destruct Hx|].
      destruct Hx as [->|Hx].
      - assert (Y : In y l).
        { assert (S : forall x y, tc E x y -> (forall w, E x w -> In w l) -> In y l); [|now apply (S x)].
          clear - Tl. intros x y Hxy. induction Hxy as [x y H|x w y H K IH]; intros HS; [auto|]. apply IH. intros w' Hw'.
          apply HS in H. clear - Tl H Hw'. induction Tl as [|z l Hz Hs Tl IH]; [destruct H|]. destruct H as [->|H]; right; auto. }
        apply in_split in Y as (b & c & ->). exists [], b, c. reflexivity.
      - destruct (IH x y Hxy Hx) as (a & b & c & ->). exists (z :: a), b, c. reflexivity. }
    assert (ND : forall l, topo l -> NoDup l).
    { clear. induction 1; constructor; auto. now rewrite elem_of_list_In. }
    assert (Lu : In u l). { apply H. inversion Hu as [? ? K|? ? ? K _]; subst; apply (closed _ _ K). }
    destruct (G l T u u Hu Lu) as (a & b & c & ->). apply ND in T. apply NoDup_app in T as (_ & _ & T). apply NoDup_cons in T as [T _].
    apply T. rewrite elem_of_app. right. left.
  Qed.
  Lemma topo_nodup l : topo l -> NoDup l.
  Proof. induction 1; constructor; auto. now rewrite elem_of_list_In. Qed.
  Lemma topo_before l u v : topo l -> In u l -> E u v -> exists a b c, l = a ++ u :: b ++ v :: c.
  Proof.
    induction 1 as [|z l Hz Hs Tl IH]; intros Hx Huv; [destruct Hx|]. destruct Hx as [->|Hx].
    - apply Hs in Huv. apply in_split in Huv as (b & c & ->). exists [], b, c. reflexivity.
    - destruct (IH Hx Huv) as (a & b & c & ->). exists (z :: a), b, c. reflexivity.
  Qed.
End dfs.

(** ** Built graphs *)
Record gwf {VD ED} (g : graph VD ED) : Prop := mkGwf {
  gw_adj : forall u, is_Some (g_adj g !! u) <-> u ∈ g_v g;
  gw_closed : forall u v, edge g u v -> v ∈ g_v g
}.
Lemma add_vertex_gwf {VD ED} (g : graph VD ED) u d g' : gwf g -> add_vertex g u d = Ok g' ->
  gwf g' /\ u ∉ g_v g /\ g_v g' = {[u]} ∪ g_v g /\ (forall x y, edge g' x y <-> edge g x y).
Proof.
  intros [W1 W2] H. unfold add_vertex in H. case_bool_decide as K; [discriminate|].
  assert (A : g_v g' = {[u]} ∪ g_v g /\ g_adj g' = <[u := ∅]> (g_adj g)) by (destruct d; injection H as <-; auto). destruct A as [A1 A2].
  assert (Ed : forall x y, edge g' x y <-> edge g x y).
  { intros x y. unfold edge. rewrite A2. destruct (decide (x = u)) as [->|N].
    - rewrite lookup_insert. split; [intros (vs & [= <-] & X); now apply elem_of_empty in X|]. intros (vs & X & _). exfalso. apply K. apply W1. eauto.
    - now rewrite lookup_insert_ne by congruence. }
  split; [|auto]. constructor.
  - intros x. rewrite A1, A2. destruct (decide (x = u)) as [->|N]; [rewrite lookup_insert, elem_of_union, elem_of_singleton; split; eauto|]. rewrite lookup_insert_ne by congruence. rewrite W1, elem_of_union, elem_of_singleton. tauto.
  - intros x y Hxy. apply Ed, W2 in Hxy. rewrite A1, elem_of_union. auto.
Qed.
Lemma add_edge_gwf {VD ED} (g : graph VD ED) u v e du dv g' : gwf g -> add_edge g u v e du dv = Ok g' ->
  gwf g' /\ g_v g' = {[u]} ∪ {[v]} ∪ g_v g /\ (forall x y, edge g' x y <-> edge g x y \/ (x = u /\ y = v)).
Proof.
  intros W H. unfold add_edge in H. apply bind_ok in H as (g1 & H1 & H). apply bind_ok in H as (g2 & H2 & H).
  assert (X1 : gwf g1 /\ g_v g1 = {[u]} ∪ g_v g /\ (forall x y, edge g1 x y <-> edge g x y)).
  { destruct (bool_decide (u ∈ g_v g)) eqn:K; [apply bool_decide_eq_true in K; injection H1 as <-; split; [exact W|split; [clear - K; set_solver|reflexivity]]|]. apply add_vertex_gwf in H1; [|exact W]. tauto. }
  destruct X1 as (W1 & V1 & E1).
  assert (X2 : gwf g2 /\ g_v g2 = {[v]} ∪ g_v g1 /\ (forall x y, edge g2 x y <-> edge g1 x y)).
  { destruct (bool_decide (v ∈ g_v g1)) eqn:K; [apply bool_decide_eq_true in K; injection H2 as <-; split; [exact W1|split; [clear - K; set_solver|reflexivity]]|]. apply add_vertex_gwf in H2; [|exact W1]. tauto. }
  destruct X2 as (W2 & V2 & E2).
  destruct (g_adj g2 !! u) as [vs|] eqn:A; [|discriminate].
  assert (X : g_v g' = g_v g2 /\ g_adj g' = <[u := {[v]} ∪ vs]> (g_adj g2)).
  { destruct e as [e|]; [|injection H as <-; auto]. destruct (g_edata g2 !! u); [|discriminate]. injection H as <-. auto. }
  destruct X as [X1 X2].
  assert (Ed : forall x y, edge g' x y <-> edge g x y \/ (x = u /\ y = v)).
  { intros x y. rewrite <- E1, <- E2. unfold edge. rewrite X2. destruct (decide (x = u)) as [->|N].
    - rewrite lookup_insert, A. split.
      + intros (vs' & [= <-] & Y). apply elem_of_union in Y as [Y|Y]; [right; apply elem_of_singleton in Y; auto|left; eauto].
      + intros [(vs' & Z & Y)|[_ ->]]; [injection Z as <-|]; eexists; (split; [reflexivity|]); apply elem_of_union; [now right|left; now apply elem_of_singleton].
    - rewrite lookup_insert_ne by congruence. intuition congruence. }
  split; [|split; [rewrite X1, V2, V1; clear; set_solver|exact Ed]]. constructor.
  - intros x. rewrite X1, X2. destruct (decide (x = u)) as [->|N]; [rewrite lookup_insert|rewrite lookup_insert_ne by congruence; apply W2].
    split; [|eauto]. intros _. apply W2. eauto.
  - intros x y Hxy. rewrite X1. apply Ed in Hxy as [Hxy|[-> ->]]; [apply E1, E2 in Hxy; now apply W2 in Hxy|]. rewrite V2, elem_of_union, elem_of_singleton. auto.
Qed.
Lemma gwf_empty {VD ED} : gwf (empty_graph : graph VD ED).
Proof. constructor; simpl; [intros u; rewrite lookup_empty; split; [intros [? [=]]|intros K; now apply elem_of_empty in K]|]. intros u v (vs & H & _). simpl in H. rewrite lookup_empty in H. discriminate. Qed.
Lemma built_gwf {VD ED} (g : graph VD ED) : built g -> gwf g.
Proof.
  induction 1 as [|g u d g' H IH K|g u v e du dv g' H IH K]; [apply gwf_empty| |].
  - now apply add_vertex_gwf in K.
  - now apply add_edge_gwf in K.
Qed.

Section sorted.
  Context {VD ED : Type} (g : graph VD ED) (vs : list string) (adj : string -> list string).
  Hypothesis W : gwf g.
  Hypothesis It : iterates g vs adj.

  Lemma it_adj u : In u vs -> forall v, In v (adj u) <-> edge g u v.
  Proof. intros H. destruct It as (_ & I2 & I3). apply I3. now apply I2. Qed.
  Lemma it_closed u v : edge g u v -> In u vs /\ In v vs.
  Proof.
    intros H. destruct It as (_ & I2 & _). rewrite !I2. split; [apply W; destruct H as (x & H & _); eauto|now apply (gw_closed _ W u)].
  Qed.

  Lemma sort_ok l : topological_sort vs adj = Ok l ->
    NoDup l /\ (forall u, In u l <-> u ∈ g_v g) /\ (forall u v, edge g u v -> comes_before l u v).
  Proof.
    unfold topological_sort. intros H. pose proof (dfs_outcome (edge g) vs adj it_adj it_closed) as O.
    destruct (dfs vs adj) as [st|e]; [|discriminate]. injection H as <-. destruct O as [T D]. destruct It as (_ & I2 & _).
    split; [now apply (topo_nodup (edge g))|]. split; [intros u; rewrite <- in_rev, <- D; apply I2|].
    intros u v Huv. eapply (topo_before (edge g)); [exact T| |exact Huv]. rewrite <- in_rev, <- D. apply (it_closed _ _ Huv).
  Qed.
  Lemma sort_ok_acyclic : is_ok (topological_sort vs adj) = true -> ~ cyclic g.
  Proof.
    unfold topological_sort. pose proof (dfs_outcome (edge g) vs adj it_adj it_closed) as O.
    destruct (dfs vs adj) as [st|e]; [|discriminate]. intros _. destruct O as [T D].
    eapply (topo_acyclic (edge g) vs it_closed); [exact T|]. intros x. rewrite <- in_rev. apply D.
  Qed.
  Lemma sort_fails e : topological_sort vs adj = Err e -> exists c, e = ECycle c /\ report (edge g) vs c.
  Proof.
    unfold topological_sort. pose proof (dfs_outcome (edge g) vs adj it_adj it_closed) as O.
    destruct (dfs vs adj) as [st|e']; [discriminate|]. intros [= <-]. destruct e'; try contradiction. eauto.
  Qed.
  Lemma sort_iff : (exists l, topological_sort vs adj = Ok l) <-> ~ cyclic g.
  Proof.
    split; [intros [l H]; apply sort_ok_acyclic; now rewrite H|]. intros N. destruct (topological_sort vs adj) as [l|e] eqn:H; [eauto|].
    exfalso. apply sort_fails in H as (c & _ & _ & H & _). exact (N H).
  Qed.
  Lemma cycle_free_spec : exists b, cycle_free vs adj = Ok b /\ (b = true <-> ~ cyclic g).
  Proof.
    unfold cycle_free. destruct sort_iff as [S1 S2]. unfold topological_sort in S1, S2.
    pose proof (dfs_outcome (edge g) vs adj it_adj it_closed) as O. destruct (dfs vs adj) as [st|e].
    - exists true. split; [reflexivity|]. split; [intros _; apply S1; eauto|reflexivity].
    - destruct e; try contradiction. exists false. split; [reflexivity|]. split; [discriminate|]. intros N. destruct (O) as (_ & H & _). exfalso. exact (N H).
  Qed.
  Lemma ewalk_walk l : ewalk (edge g) l <-> walk g l.
  Proof.
    induction l as [|u l IH]; simpl; [tauto|]. destruct l as [|v l]; [simpl in *; tauto|]. rewrite IH. reflexivity.
  Qed.
  Lemma report_spec c : dfs vs adj = Err (ECycle c) -> walk g c /\ cyclic g /\
    ("" ∉ g_v g -> exists a b, c = (a ++ b)%list /\ is_cycle g b).
  Proof.
    intros H. pose proof (dfs_outcome (edge g) vs adj it_adj it_closed) as O. rewrite H in O. destruct O as (O1 & O2 & O3).
    split; [now apply ewalk_walk|]. split; [exact O2|]. intros N. destruct O3 as (a & v & b & u & -> & O4 & O5 & O6).
    { destruct It as (_ & I2 & _). now rewrite I2. }
    exists a, (v :: b). split; [reflexivity|]. split; [apply NoDup_app in O4; tauto|]. split; [apply ewalk_walk; now apply ewalk_app_r in O1|].
    exists v, u. split; [reflexivity|]. split; [|exact O6]. rewrite last_app in O5. destruct (last (v :: b)) eqn:Y; [exact O5|]. apply last_None in Y. discriminate.
  Qed.
End sorted.

(** One order of iteration that always exists. *)
Definition some_vs {VD ED} (g : graph VD ED) : list string := elements (g_v g).
Definition some_adj {VD ED} (g : graph VD ED) (u : string) : list string := elements (default ∅ (g_adj g !! u)).
Lemma some_iterates {VD ED} (g : graph VD ED) : gwf g -> iterates g (some_vs g) (some_adj g).
Proof.
  intros W. split; [apply NoDup_elements|]. split; [intros u; unfold some_vs; rewrite <- elem_of_list_In; apply elem_of_elements|].
  intros u Hu. split; [apply NoDup_elements|]. intros v. unfold some_adj, edge. rewrite <- elem_of_list_In, elem_of_elements.
  apply W in Hu as [x ->]. simpl. split; [eauto|]. intros (y & [= <-] & H). exact H.
Qed.
