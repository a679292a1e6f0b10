(** * Talking to COMAR: lemmas *)
From Coq Require Import String List Bool.
From Verif Require Import Model.Py Model.Path Model.Index Spec.PathSpec Proof.PyFacts Proof.PathFacts Model.Comar Spec.ComarSpec.
Import ListNotations.
Open Scope string_scope.

Section waiting.
  Context (comes_back : bool).
  Local Notation wait := (wait comes_back).
  Lemma wait_notices p shut m ns rest : Forall notice ns -> wait p shut m (ns ++ rest) = wait p shut m rest.
  Proof. induction 1 as [|r ns -> _ IH]; [reflexivity|exact IH]. Qed.
  Lemma wait_members p shut ms rest : Forall member ms -> (forall r, In r ms -> ~ bad r) -> wait p shut true (ms ++ rest) = wait p shut true rest.
  Proof.
    induction 1 as [|r ms M _ IH]; intros N; [reflexivity|]. cbn [app]. destruct M as [->|[[-> | ->]|B]]; [..|exfalso; exact (N r (or_introl eq_refl) B)];
    cbn [Comar.wait]; apply IH; intros q I; apply N; now right.
  Qed.
  Lemma wait_bad p shut m r rest : bad r -> wait p shut m (r :: rest) = (rest, Raised EError).
  Proof. now intros [->|[-> | ->]]. Qed.
  Lemma wait_group_bad p shut ms rest : Forall member ms -> (exists r, In r ms /\ bad r) -> exists left, wait p shut true (ms ++ rest) = (left, Raised EError).
  Proof.
    induction 1 as [|r ms M F IH]; intros (x & I & B); [destruct I|]. cbn [app].
    assert (bad r \/ ~ bad r) as [Br|Nr]. { unfold bad. destruct r; (left; now auto) || (right; intuition discriminate). }
    - exists (ms ++ rest)%list. now apply wait_bad.
    - destruct I as [->|I]; [contradiction|]. destruct (IH (ex_intro _ x (conj I B))) as [l E]. exists l.
      destruct M as [->|[[-> | ->]|M]]; [exact E|exact E|exact E|contradiction].
  Qed.

  (** What comes of an answer *)
  Definition excused (p : option string) : Prop := p = Some "comar" /\ comes_back = true.
  Lemma wait_says rs shut v p : says rs shut v ->
    match v with
    | Succeeded => wait p shut false rs = ([], Done) /\ shut = false
    | Failed => exists left, wait p shut false rs = (left, Raised EError)
    | Cut => shut = true /\ ((excused p /\ wait p shut false rs = ([], Done)) \/ (~ excused p /\ wait p shut false rs = ([], Raised EError)))
    end.
  Proof.
    assert (forall m, (excused p /\ wait p true m [] = ([], Done)) \/ (~ excused p /\ wait p true m [] = ([], Raised EError))) as C.
    { intros m. cbn [Comar.wait]. unfold excused. destruct p as [n|]; [|right; split; [now intros [[=] _]|reflexivity]].
      destruct (String.eqb n "comar") eqn:E.
      - apply String.eqb_eq in E as ->. destruct comes_back; [now left|]. right. split; [now intros [_ [=]]|reflexivity].
      - apply String.eqb_neq in E. right. split; [|reflexivity]. intros [[= ->] _]. congruence. }
    intros [ns r N G|ns r more sh N B|ns ms N M G|ns ms more sh N M B|ns N|ns ms N M G].
    - rewrite wait_notices by assumption. now destruct G as [-> | ->].
    - rewrite wait_notices by assumption. exists more. now apply wait_bad.
    - rewrite wait_notices by assumption. cbn [Comar.wait]. rewrite wait_members by assumption. now cbn.
    - rewrite wait_notices by assumption. cbn [Comar.wait]. now apply wait_group_bad.
    - split; [reflexivity|]. rewrite <- (app_nil_r ns), wait_notices by assumption. apply C.
    - split; [reflexivity|]. rewrite wait_notices by assumption. cbn [Comar.wait]. rewrite <- (app_nil_r ms), wait_members by assumption. apply C.
  Qed.
End waiting.
Lemma says_one rs shut v w : says rs shut v -> says rs shut w -> v = w.
Proof.
  intros A B. apply (wait_says true _ _ _ (Some "comar")) in A, B.
  assert (excused true (Some "comar")) as X by now split.
  destruct v, w; try reflexivity; repeat match goal with H : _ /\ _ |- _ => destruct H | H : exists _, _ |- _ => destruct H | H : _ \/ _ |- _ => destruct H end; congruence.
Qed.


Section talking.
  Context (answer : list request -> list reply) (hangs_up : list request -> bool) (comes_back : bool).
  Local Notation ask := (request_and_wait answer hangs_up comes_back).
  Local Notation decides := (decides answer hangs_up).
  Local Notation answers := (answers answer hangs_up).
  Local Notation all_good := (all_good answer hangs_up).
  Local Notation excused := (excused comes_back).

  (** A list of requests *)
  Fixpoint talk (rs : list (request * option string)) (l : link) : link * outcome :=
    match rs with
    | [] => (l, Done)
    | (r, p) :: rs => match ask r p l with (l, Done) => talk rs l | x => x end
    end.
  Lemma talk_app rs qs l : talk (rs ++ qs) l = match talk rs l with (l, Done) => talk qs l | x => x end.
  Proof.
    revert l. induction rs as [|[r p] rs IH]; intros l; [reflexivity|]. cbn [app talk]. destruct (ask r p l) as [l' [|e|]]; [apply IH|reflexivity|reflexivity].
  Qed.

  (** ** For every COMAR *)
  Lemma ask_sent r p l : let '(l', o) := ask r p l in
    (sent l' = (sent l ++ [r])%list /\ closed l = false) \/ (sent l' = sent l /\ o = Raised EOS).
  Proof.
    unfold request_and_wait, send. destruct (closed l); [now right|]. unfold wait_for_result. cbn [unread closed sent].
    destruct (wait comes_back p (hangs_up (sent l ++ [r])) false (unread l ++ answer (sent l ++ [r]))) as [x o]. now left.
  Qed.
  Lemma talk_sent rs : forall l, let '(l', o) := talk rs l in
    exists n, sent l' = (sent l ++ firstn n (map fst rs))%list /\ (o = Done -> sent l' = (sent l ++ map fst rs)%list).
  Proof.
    induction rs as [|[r p] rs IH]; intros l; cbn [talk].
    - exists 0. cbn [map firstn]. rewrite app_nil_r. now split.
    - pose proof (ask_sent r p l) as A. destruct (ask r p l) as [l1 o1]. destruct o1.
      + destruct A as [[A _]|[_ A]]; [|discriminate]. specialize (IH l1). destruct (talk rs l1) as [l2 o2]. destruct IH as (n & E & D).
        exists (S n). cbn [map firstn fst]. split; [rewrite E, A, <- app_assoc; reflexivity|]. intros H. rewrite (D H), A, <- app_assoc. reflexivity.
      + destruct A as [[A _]|[A _]]; [exists 1|exists 0]; cbn [map firstn fst]; rewrite A, ?app_nil_r; (split; [reflexivity|discriminate]).
      + destruct A as [[A _]|[_ A]]; [|discriminate]. exists 1. cbn [map firstn fst]. rewrite A. split; [reflexivity|discriminate].
  Qed.

  (** ** For one that answers *)
  Lemma ask_decides r p l v : closed l = false -> unread l = [] -> decides (sent l ++ [r]) v ->
    let '(l', o) := ask r p l in
    sent l' = (sent l ++ [r])%list /\
    match v with
    | Succeeded => o = Done /\ unread l' = [] /\ closed l' = false
    | Failed => o = Raised EError
    | Cut => closed l' = true /\ ((excused p /\ o = Done) \/ (~ excused p /\ o = Raised EError))
    end.
  Proof.
    intros C U D. unfold request_and_wait, send. rewrite C, U. cbn [app]. unfold wait_for_result. cbn [unread closed sent].
    pose proof (wait_says comes_back _ _ _ p D) as W. destruct v.
    - destruct W as [-> ->]. now repeat split.
    - destruct W as [x ->]. now split.
    - destruct W as [E [[X ->]|[X ->]]]; (split; [reflexivity|]); (split; [exact E|]); [left|right]; now split.
  Qed.

  Local Notation stops := (stops answer hangs_up).
  Local Notation restarted := (restarted answer hangs_up).

  Lemma all_good_snoc rs r : all_good rs -> decides (rs ++ [r]) Succeeded -> all_good (rs ++ [r]).
  Proof.
    intros G D b q a E. destruct (exists_last (l := q :: a)) as (l & x & L); [discriminate|]. destruct a as [|y a].
    - apply app_inj_tail in E as [-> ->]. exact D.
    - assert (exists a' z, y :: a = (a' ++ [z])%list) as (a' & z & Ea). { destruct (exists_last (l := y :: a)) as (a' & z & Ea); [discriminate|]. now exists a', z. }
      rewrite Ea in E. replace (b ++ q :: a' ++ [z])%list with ((b ++ q :: a') ++ [z])%list in E by now rewrite <- app_assoc.
      apply app_inj_tail in E as [-> _]. now apply (G b q a').
  Qed.
  Lemma all_good_nil : all_good [].
  Proof. intros b r a E. now destruct b. Qed.
  Lemma talk_answers : answers -> forall rs l, closed l = false -> unread l = [] -> all_good (sent l) -> (forall r p, In (r, p) rs -> p = None) ->
    let '(l', o) := talk rs l in
    (o = Done /\ sent l' = (sent l ++ map fst rs)%list /\ all_good (sent l') /\ closed l' = false /\ unread l' = []) \/
    (o = Raised EError /\ stops (sent l ++ map fst rs) (sent l')).
  Proof.
    intros A. induction rs as [|[r p] rs IH]; intros l C U G P; cbn [talk].
    - left. cbn [map]. rewrite app_nil_r. now split.
    - rewrite (P r p (or_introl eq_refl)). destruct (A (sent l ++ [r])%list) as [v D]; [now destruct (sent l)|].
      pose proof (ask_decides r None l v C U D) as K. destruct (ask r None l) as [l1 o1]. destruct K as [S1 K].
      assert (~ excused None) as X by now intros [[=] _].
      assert (forall o, o = Raised EError -> decides (sent l ++ [r]) Failed \/ decides (sent l ++ [r]) Cut ->
        o = Raised EError /\ stops (sent l ++ map fst ((r, p) :: rs)) (sent l1)) as Stop.
      { intros o O D'. split; [exact O|]. exists (sent l), r, (map fst rs). cbn [map fst]. auto. }
      destruct v.
      + destruct K as (-> & U1 & C1). specialize (IH l1 C1 U1). rewrite S1 in IH. specialize (IH (all_good_snoc _ _ G D) (fun q p' I => P q p' (or_intror I))).
        destruct (talk rs l1) as [l2 o2]. rewrite <- app_assoc in IH. exact IH.
      + subst o1. right. now apply Stop; [|left].
      + destruct K as (_ & [[Y _]|[_ ->]]); [contradiction|]. right. now apply Stop; [|right].
  Qed.

  (** ** The two functions *)
  Context (connects : bool).
  Local Notation post_install := (post_install answer hangs_up connects comes_back).
  Local Notation pre_remove := (pre_remove answer hangs_up connects comes_back).

  Definition registers (package scriptpath : string) (scripts : list provide) : list (request * option string) :=
    map (fun s => (Register (om s) package (os_join scriptpath (script s)), None)) scripts.
  Definition own (scripts : list provide) : bool := existsb (fun s => String.eqb (om s) "System.Package") scripts.
  Lemma own_iff scripts : own scripts = true <-> has_own scripts.
  Proof. unfold own, has_own. rewrite existsb_exists. split; intros (s & I & E); exists s; (split; [exact I|]); now apply String.eqb_eq. Qed.
  Lemma register_all_is package scriptpath scripts : forall b l,
    match talk (registers package scriptpath scripts) l with
    | (l', Done) => register_all answer hangs_up comes_back package scriptpath scripts b l = (l', Done, b || own scripts)
    | (l', o) => exists b', register_all answer hangs_up comes_back package scriptpath scripts b l = (l', o, b')
    end.
  Proof.
    induction scripts as [|s scripts IH]; intros b l; cbn [registers map talk register_all own existsb].
    - now rewrite orb_false_r.
    - fold (registers package scriptpath scripts). fold (own scripts).
      destruct (ask (Register (om s) package (os_join scriptpath (script s))) None l) as [l1 [|e|]]; [|now eexists|now eexists].
      specialize (IH (if String.eqb (om s) "System.Package" then true else b) l1). destruct (talk (registers package scriptpath scripts) l1) as [l2 [|e|]]; [|exact IH|exact IH].
      rewrite IH. f_equal. now destruct (String.eqb (om s) "System.Package"), b.
  Qed.
  Definition handler metapath filepath : request := Call "System.PackageHandler.setupPackage" ["metapath"; metapath; "filepath"; filepath].
  Definition to_configure package scripts scriptpath metapath filepath : list (request * option string) :=
    (registers package scriptpath scripts ++ [(handler metapath filepath, None)] ++
     if own scripts then [(CallPackage "System.Package.postInstall" package, Some package)] else [])%list.
  Lemma post_install_is package scripts scriptpath metapath filepath : post_install package scripts scriptpath metapath filepath =
    if connects then let '(l, o) := talk (to_configure package scripts scriptpath metapath filepath) (mkLink [] [] false) in (Some l, o) else (None, Raised EError).
  Proof.
    unfold Comar.post_install, make_com. destruct connects; [|reflexivity]. unfold to_configure. rewrite talk_app.
    pose proof (register_all_is package scriptpath scripts false (mkLink [] [] false)) as R.
    destruct (talk (registers package scriptpath scripts) (mkLink [] [] false)) as [l [|e|]].
    - rewrite R. cbn [orb app talk]. fold (handler metapath filepath). destruct (ask (handler metapath filepath) None l) as [l1 [|e|]]; [|reflexivity|reflexivity].
      destruct (own scripts); [|reflexivity]. cbn [talk]. now destruct (ask (CallPackage "System.Package.postInstall" package) (Some package) l1) as [l2 [|e|]].
    - destruct R as [b ->]. reflexivity.
    - destruct R as [b ->]. reflexivity.
  Qed.
  Lemma pre_remove_is package metapath filepath : pre_remove package metapath filepath =
    if connects then let '(l, o) := talk (map (fun r => (r, None)) (asked_to_remove package metapath filepath)) (mkLink [] [] false) in (Some l, o) else (None, Raised EError).
  Proof.
    unfold Comar.pre_remove, make_com, asked_to_remove. destruct connects; [|reflexivity]. cbn [map talk].
    match goal with |- context [ask ?r ?p ?l] => destruct (ask r p l) as [l1 [|e|]]; [|reflexivity|reflexivity] end.
    match goal with |- context [ask ?r ?p ?l] => destruct (ask r p l) as [l2 [|e2|]]; [|reflexivity|reflexivity] end.
    match goal with |- context [ask ?r ?p ?l] => now destruct (ask r p l) as [l3 [|e3|]] end.
  Qed.

  Lemma join_script scriptpath scripts s : script_names scriptpath scripts -> In s scripts -> os_join scriptpath (script s) = scriptpath ++ "/" ++ script s.
  Proof.
    intros (N & E & G) I. unfold os_join.
    assert (py_startswith (script s) "/" = false) as ->. { apply not_true_iff_false. rewrite startswith_iff. intros [r Hr]. exact (G s I r Hr). }
    rewrite (proj2 (String.eqb_neq _ _) N). cbn [orb].
    assert (py_endswith scriptpath "/" = false) as ->; [|reflexivity]. apply not_true_iff_false. now rewrite endswith_iff.
  Qed.
  Lemma registers_fst package scriptpath scripts : script_names scriptpath scripts ->
    map fst (registers package scriptpath scripts) = map (fun s => Register (om s) package (scriptpath ++ "/" ++ script s)) scripts.
  Proof. intros N. unfold registers. rewrite map_map. apply map_ext_in. intros s I. cbn [fst]. now rewrite (join_script scriptpath scripts s N I). Qed.
  Lemma asked_unique package scripts scriptpath metapath filepath rs : script_names scriptpath scripts ->
    asked_to_configure package scripts scriptpath metapath filepath rs -> rs = map fst (to_configure package scripts scriptpath metapath filepath).
  Proof.
    intros N [A B]. unfold to_configure. rewrite !map_app, (registers_fst _ _ _ N). destruct (own scripts) eqn:O.
    - rewrite (A (proj1 (own_iff _) O)). unfold setup_requests. now rewrite <- app_assoc.
    - assert (~ has_own scripts) as K by (intros K; apply own_iff in K; congruence). rewrite (B K). unfold setup_requests. cbn [map fst]. now rewrite app_nil_r.
  Qed.

  Lemma all_good_not_stops rs sent' : all_good rs -> stops rs sent' -> False.
  Proof.
    intros G (b & r & a & E & _ & _ & D). specialize (G b r a E). destruct D as [D|D]; pose proof (says_one _ _ _ _ G D); discriminate.
  Qed.
  Lemma restarted_stops package scripts rs sent' : restarted package comes_back scripts rs -> stops rs sent' -> sent' = rs /\ decides rs Cut.
  Proof.
    intros (_ & _ & _ & b & r & -> & G & D) (b' & r' & a & E & -> & G' & D'). destruct a as [|x a].
    - apply app_inj_tail in E as [-> ->]. now split.
    - exfalso. destruct (exists_last (l := x :: a)) as (a' & z & Ea); [discriminate|]. rewrite Ea in E.
      replace (b' ++ r' :: a' ++ [z])%list with ((b' ++ r' :: a') ++ [z])%list in E by now rewrite <- app_assoc. apply app_inj_tail in E as [-> _].
      specialize (G b' r' a' eq_refl). destruct D' as [D'|D']; pose proof (says_one _ _ _ _ G D'); discriminate.
  Qed.

  Lemma configure package scripts scriptpath metapath filepath rs : connects = true -> answers -> script_names scriptpath scripts ->
    asked_to_configure package scripts scriptpath metapath filepath rs ->
    exists l o, post_install package scripts scriptpath metapath filepath = (Some l, o) /\
      ((o = Done /\ sent l = rs /\ (all_good rs \/ restarted package comes_back scripts rs)) \/
       (o = Raised EError /\ stops rs (sent l) /\ ~ restarted package comes_back scripts rs)).
  Proof.
    intros C A N Q. rewrite post_install_is, C. pose proof (asked_unique _ _ _ _ _ _ N Q) as E. unfold to_configure in *.
    set (first := (registers package scriptpath scripts ++ [(handler metapath filepath, None)])%list).
    assert (forall x, (registers package scriptpath scripts ++ [(handler metapath filepath, None)] ++ x)%list = (first ++ x)%list) as Fe by (intros x; unfold first; now rewrite <- app_assoc).
    rewrite Fe in *. rewrite talk_app.
    assert (forall r p, In (r, p) first -> p = None) as P.
    { intros r p I. unfold first, registers in I. apply in_app_or in I as [I|[[= _ <-]|[]]]; [|reflexivity]. apply in_map_iff in I as (s & [= _ <-] & _). reflexivity. }
    pose proof (talk_answers A first (mkLink [] [] false) eq_refl eq_refl all_good_nil P) as T.
    destruct (talk first (mkLink [] [] false)) as [l1 o1]. cbn [sent app] in T. rewrite map_app in E.
    destruct T as [(-> & S1 & G1 & C1 & U1)|(-> & (b & r & a & Eb & Sb & Gb & Db))].
    - destruct (own scripts) eqn:O; cbn [talk map fst] in *.
      + set (last := CallPackage "System.Package.postInstall" package) in *.
        destruct (A (sent l1 ++ [last])%list) as [v D]; [now destruct (sent l1)|].
        pose proof (ask_decides last (Some package) l1 v C1 U1 D) as K. destruct (ask last (Some package) l1) as [l2 o2]. destruct K as [S2 K].
        assert (rs = (sent l1 ++ [last])%list) as Ers by now rewrite S1. rewrite <- Ers in *.
        destruct v.
        * destruct K as (-> & _). exists l2, Done. split; [reflexivity|]. left. split; [reflexivity|]. split; [exact S2|]. left. rewrite Ers. apply all_good_snoc; [exact G1|]. now rewrite <- Ers.
        * subst o2. exists l2, (Raised EError). split; [reflexivity|]. right. split; [reflexivity|]. split.
          -- exists (sent l1), last, []. rewrite <- Ers. auto.
          -- intros (_ & _ & _ & b & r & _ & _ & D'). pose proof (says_one _ _ _ _ D D'). discriminate.
        * destruct K as (_ & [[X ->]|[X ->]]).
          -- exists l2, Done. split; [reflexivity|]. left. split; [reflexivity|]. split; [exact S2|]. right. destruct X as [[= ->] B].
             split; [reflexivity|]. split; [exact B|]. split; [now apply own_iff|]. exists (sent l1), last. auto.
          -- exists l2, (Raised EError). split; [reflexivity|]. right. split; [reflexivity|]. split.
             ++ exists (sent l1), last, []. rewrite <- Ers. auto.
             ++ intros (-> & B & _). apply X. now split.
      + rewrite app_nil_r in E. exists l1, Done. split; [reflexivity|]. left. split; [reflexivity|]. split; [congruence|]. left. now rewrite E, <- S1.
    - exists l1, (Raised EError). split; [reflexivity|]. right. split; [reflexivity|].
      set (tail := if own scripts then [(CallPackage "System.Package.postInstall" package, Some package)] else []) in *.
      assert (stops rs (sent l1)) as St.
      { exists b, r, (a ++ map fst tail)%list. split; [|auto]. rewrite E, Eb, <- app_assoc. reflexivity. }
      split; [exact St|]. intros R. pose proof (restarted_stops _ _ _ _ R St) as [S' _]. destruct R as (_ & _ & Ho & _). apply own_iff in Ho.
      assert (tail <> []) as Nt by (unfold tail; now rewrite Ho). assert (rs = (b ++ r :: a) ++ map fst tail)%list as E' by now rewrite E, Eb.
      rewrite Sb, E', <- app_assoc in S'. apply app_inv_head in S'. cbn [app] in S'. injection S' as S'. symmetry in S'. apply app_eq_nil in S' as [_ S'].
      now destruct tail.
  Qed.
  Lemma configure_iff package scripts scriptpath metapath filepath rs : connects = true -> answers -> script_names scriptpath scripts ->
    asked_to_configure package scripts scriptpath metapath filepath rs ->
    (snd (post_install package scripts scriptpath metapath filepath) = Done <-> all_good rs \/ restarted package comes_back scripts rs).
  Proof.
    intros C A N Q. destruct (configure _ _ _ _ _ _ C A N Q) as (l & o & -> & [(-> & _ & G)|(-> & S & R)]); cbn [snd]; split; try easy.
    intros [G|G]; [|contradiction]. exfalso. exact (all_good_not_stops _ _ G S).
  Qed.
  Lemma removal package metapath filepath : connects = true -> answers ->
    exists l o, pre_remove package metapath filepath = (Some l, o) /\
      ((o = Done /\ sent l = asked_to_remove package metapath filepath /\ all_good (asked_to_remove package metapath filepath)) \/
       (o = Raised EError /\ stops (asked_to_remove package metapath filepath) (sent l))).
  Proof.
    intros C A. rewrite pre_remove_is, C. set (rs := asked_to_remove package metapath filepath).
    assert (forall r p, In (r, p) (map (fun r => (r, None : option string)) rs) -> p = None) as P by (intros r p I; apply in_map_iff in I as (x & [= _ <-] & _); reflexivity).
    pose proof (talk_answers A _ (mkLink [] [] false) eq_refl eq_refl all_good_nil P) as T.
    destruct (talk (map (fun r => (r, None)) rs) (mkLink [] [] false)) as [l o]. exists l, o. split; [reflexivity|].
    rewrite map_map, map_id in T. cbn [sent app] in T. destruct T as [(-> & S & G & _)|(-> & S)]; [left|right]; [|now split]. split; [reflexivity|]. split; [exact S|]. now rewrite <- S.
  Qed.
  Lemma unconnected : connects = false ->
    (forall package scripts scriptpath metapath filepath, post_install package scripts scriptpath metapath filepath = (None, Raised EError)) /\
    (forall package metapath filepath, pre_remove package metapath filepath = (None, Raised EError)).
  Proof. intros C. split; intros; [rewrite post_install_is|rewrite pre_remove_is]; now rewrite C. Qed.

  (** ** Whatever COMAR does *)
  Lemma in_order package scripts scriptpath metapath filepath rs l o : script_names scriptpath scripts ->
    asked_to_configure package scripts scriptpath metapath filepath rs -> post_install package scripts scriptpath metapath filepath = (Some l, o) ->
    (exists rest, rs = (sent l ++ rest)%list) /\ (o = Done -> sent l = rs).
  Proof.
    intros N Q. rewrite post_install_is. rewrite (asked_unique _ _ _ _ _ _ N Q). destruct connects; [|discriminate].
    pose proof (talk_sent (to_configure package scripts scriptpath metapath filepath) (mkLink [] [] false)) as T.
    destruct (talk (to_configure package scripts scriptpath metapath filepath) (mkLink [] [] false)) as [l' o']. intros [= -> ->]. destruct T as (n & E & D). cbn [sent app] in *.
    split; [|exact D]. exists (skipn n (map fst (to_configure package scripts scriptpath metapath filepath))). rewrite E. now rewrite firstn_skipn.
  Qed.
  Lemma in_order_remove package metapath filepath l o : pre_remove package metapath filepath = (Some l, o) ->
    (exists rest, asked_to_remove package metapath filepath = (sent l ++ rest)%list) /\ (o = Done -> sent l = asked_to_remove package metapath filepath).
  Proof.
    rewrite pre_remove_is. destruct connects; [|discriminate]. set (rs := asked_to_remove package metapath filepath).
    pose proof (talk_sent (map (fun r => (r, None)) rs) (mkLink [] [] false)) as T.
    destruct (talk (map (fun r => (r, None)) rs) (mkLink [] [] false)) as [l' o']. intros [= -> ->]. destruct T as (n & E & D). cbn [sent app] in *. rewrite map_map, map_id in E, D.
    split; [|exact D]. exists (skipn n rs). rewrite E. now rewrite firstn_skipn.
  Qed.
End talking.
