(** * The files of removed packages *)
From Coq Require Import String Ascii ZArith List.
From stdpp Require Import gmap strings relations.
From Verif Require Import Proof.GraphFacts.
From Verif Require Import Model.Py Model.Version Model.ItemByRepo Model.Dependency Model.Package Model.ComponentDB Model.Databases
  Model.InstallDB Model.System Model.Graph Model.Plan Model.Path Model.Fs Model.Ops
  Spec.VersionSpec Spec.DependencySpec Spec.ItemByRepoSpec Spec.DatabaseSpec Spec.SystemSpec Spec.GraphSpec Spec.PlanSpec
  Spec.PathSpec Spec.FsSpec Spec.OpsSpec
  Proof.PyFacts Proof.PathFacts Proof.ItemByRepoFacts Proof.DatabaseFacts Proof.RevDepFacts Proof.ComponentFacts Proof.InstallDBFacts Proof.SystemFacts
  Proof.PlanFacts Proof.UpgradeFacts Proof.PlanTop Proof.FsFacts Proof.OpsFacts Proof.OpsTop Proof.OpsSteps.
Open Scope string_scope.

Lemma absolute_not_relative p : absolute p -> ~ relative_path p.
Proof.
  intros (r & R & ->) H. assert (E : py_lstrip "/" ("/" +:+ r) = "/" +:+ r) by now apply rel_lstrip.
  assert (E' : py_lstrip "/" ("/" +:+ r) = r) by (transitivity (py_lstrip "/" r); [reflexivity|now apply rel_lstrip]).
  rewrite E' in E. apply (f_equal String.length) in E. change (String.length ("/" +:+ r)) with (S (String.length r)) in E. lia.
Qed.
Lemma never_owned s q pkg : yinv s -> relative_lists s -> absolute q -> ~ owned_by_other (y_files s) q pkg.
Proof.
  intros Y R A (n & fi & E & _). destruct (yi_files _ Y _ _ _ E) as (I & files & L & F & <-). apply (absolute_not_relative _ A). eapply R; eauto.
Qed.

Lemma lived_system P s : lived P s -> system s.
Proof. induction 1; [constructor|]. econstructor; eauto. Qed.
Lemma located_inj dest a b : located dest a = located dest b -> a = b.
Proof.
  unfold located. destruct (String.eqb dest "/"); [now intros [= ->]|]. rewrite <- !(str_app_assoc dest "/"). generalize (dest +:+ "/"). intros p. clear.
  induction p as [|x p IH]; [auto|]. intros [= E]. auto.
Qed.

Section removing_files.
  Context (h : host) (o : opts) (D : destination (o_dest o)).

  Lemma remove_single_fs n w w' r : remove_single h o n w = (w', r) ->
    (w_fs w' = w_fs w /\ w_sys w' = w_sys w /\ forall u, r <> Ok u) \/
    (is_installed (y_inst (w_sys w)) n = true /\ exists files, list_of (w_sys w) n = Ok files /\
       ((exists f, remove_all_files h o (y_files (w_sys w)) n files (w_fs w) = Ok f /\ w_fs w' = f) \/
        (exists e, remove_all_files h o (y_files (w_sys w)) n files (w_fs w) = Err e)) /\
       (w_sys w' = w_sys w \/ record_remove (w_sys w) n = Ok (w_sys w'))).
  Proof.
    intros H. pose proof H as H0. unfold remove_single in H.
    unfold bindM in H at 1. cbn [look] in H. destruct (get_package (y_db (w_sys w)) n RInst) as [p|e]; [|injection H as <- <-; left; split; [reflexivity|]; split; [reflexivity|discriminate]].
    unfold bindM in H at 1. cbn [look] in H. destruct (list_of (w_sys w) n) as [files|e] eqn:EL; [|injection H as <- <-; left; split; [reflexivity|]; split; [reflexivity|discriminate]].
    unfold bindM in H at 1. cbn [look] in H. destruct (is_installed (y_inst (w_sys w)) n) eqn:EI; cbn [negb] in H; [|injection H as <- <-; left; split; [reflexivity|]; split; [reflexivity|discriminate]].
    unfold bindM in H at 1. destruct (run_preremove h o n w) as [w1 [u1|e]] eqn:E1.
    2: { injection H as <- <-. left. unfold run_preremove, hook in E1. destruct (o_comar o); [|discriminate]. destruct (h_hook h (w_log w) n); injection E1 as <- _; (split; [reflexivity|]; split; [reflexivity|discriminate]). }
    apply run_preremove_ok in E1 as [S1 F1]. right. split; [reflexivity|]. exists files. split; [reflexivity|].
    unfold bindM in H at 1.
    pose proof (each_touch (fun s fi => remove_file (h_sha1 h) (o_dest o) (y_files s) n fi) files w1) as T. cbv beta zeta in T.
    change (eachM (fun x => let! s := look (fun t => Ok t) in touch (remove_file (h_sha1 h) (o_dest o) (y_files s) n x)) files w1)
      with (eachM (fun fi => let! owners := look (fun s => Ok (y_files s)) in touch (remove_file (h_sha1 h) (o_dest o) owners n fi)) files w1) in T.
    destruct (eachM (fun fi => let! owners := look (fun s => Ok (y_files s)) in touch (remove_file (h_sha1 h) (o_dest o) owners n fi)) files w1) as [w2 r2] eqn:E2.
    cbn [fst snd] in T. destruct T as [[S2 L2] F2]. rewrite S1, F1 in F2.
    assert (G : w_fs w' = w_fs w2 /\ (w_sys w' = w_sys w \/ record_remove (w_sys w) n = Ok (w_sys w'))).
    { destruct r as [u|e]; [|apply remove_single_err in H0; split; [|now left]].
      - apply remove_single_ok in H0 as (H1 & _ & files' & L' & F'). split; [|now right]. rewrite EL in L'. injection L' as <-.
        unfold remove_all_files in F'. rewrite F' in F2. destruct r2; [now symmetry|destruct F2].
      - destruct r2 as [u2|e2]; [|injection H as <- <-; reflexivity].
        unfold bindM in H at 1. unfold commit in H at 1. destruct (remove_db (w_sys w2) n files); [|injection H as <- <-; reflexivity]. discriminate H. }
    destruct G as [G1 G2]. split; [|exact G2]. unfold remove_all_files.
    destruct (foldM (fun f fi => remove_file (h_sha1 h) (o_dest o) (y_files (w_sys w)) n fi f) files (w_fs w)) as [f|e]; [left|right; eauto].
    exists f. split; [reflexivity|]. rewrite G1. destruct r2; [exact F2|destruct F2].
  Qed.

  (** What a step does to the files, and leaves true of the lists *)
  Lemma one_removed n w w' r : yinv (w_sys w) -> relative_lists (w_sys w) -> tree (w_fs w) -> remove_single h o n w = (w', r) ->
    tree (w_fs w') /\ yinv (w_sys w') /\
    shrunk (w_fs w) (w_fs w') (fun q => forall x, w_fs w !! q = Some x -> gives_up (h_sha1 h) (o_dest o) (w_sys w) n q x) /\
    (forall u, r = Ok u -> record_remove (w_sys w) n = Ok (w_sys w') /\
       (forall q c, w_fs w !! q = Some (NFile c) -> (w_fs w' !! q = None <-> gives_up (h_sha1 h) (o_dest o) (w_sys w) n q (NFile c)))) /\
    (w_sys w' = w_sys w \/ record_remove (w_sys w) n = Ok (w_sys w')).
  Proof.
    intros Y R T H. destruct (remove_single_fs _ _ _ _ H) as [(E1 & E2 & E3)|(I & files & L & K & S)].
    { rewrite E1, E2. split; [exact T|]. split; [exact Y|]. split; [apply shrunk_refl|]. split; [intros u ->; now destruct (E3 u)|]. now left. }
    assert (RF : forall fi, In fi files -> relative_path (f_path fi)) by (intros fi Hf; eapply R; eauto).
    destruct (remove_files_policy (h_sha1 h) (o_dest o) (y_files (w_sys w)) n files (w_fs w) D RF T) as (f & E & Tf & Sf & Pf & _).
    unfold remove_all_files in K. rewrite E in K. destruct K as [(f' & [= <-] & K)|(e & [=])].
    assert (FR : forall q fi, In fi files -> q = located (o_dest o) (f_path fi) -> ~ owned_by_other (y_files (w_sys w)) q n).
    { intros q fi Hf ->. apply never_owned; [exact Y|exact R|]. apply located_absolute; auto. }
    assert (PF : forall q c, w_fs w !! q = Some (NFile c) -> (w_fs w' !! q = None <-> gives_up (h_sha1 h) (o_dest o) (w_sys w) n q (NFile c))).
    { intros q c F. rewrite K, (Pf q c F). split.
      - intros (fi & Hf & (M1 & M2 & M3) & C). split; [exact I|]. exists files, fi. repeat (split; [assumption|]). intros c' [= <-]. exact C.
      - intros (_ & files' & fi & L' & Hf & M1 & M2 & C). rewrite L in L'. injection L' as <-. exists fi. split; [exact Hf|]. split; [split; [exact M1|]; split; [exact M2|]; eapply FR; eauto|]. intros IC. now apply (C c). }
    split; [now rewrite K|]. split; [destruct S as [->|S]; [exact Y|now apply record_remove_facts in S]|]. split; [|split; [|exact S]].
    - rewrite K. intros q. destruct (Sf q) as [G|[G [P|P]]]; [now left| |right; split; [exact G|now right]].
      right. split; [exact G|]. left. intros [c| |t|] F.
      + apply PF; [exact F|congruence].
      + destruct P as (fi & Hf & M1 & M2 & M3). split; [exact I|]. exists files, fi. repeat (split; [assumption|]). discriminate.
      + destruct P as (fi & Hf & M1 & M2 & M3). split; [exact I|]. exists files, fi. repeat (split; [assumption|]). discriminate.
      + destruct P as (fi & Hf & M1 & M2 & M3). split; [exact I|]. exists files, fi. repeat (split; [assumption|]). discriminate.
    - intros u ->. split; [now apply remove_single_ok in H|exact PF].
  Qed.

  Lemma gives_up_later s s' m : yinv s -> record_remove s m = Ok s' -> forall n q x,
    gives_up (h_sha1 h) (o_dest o) s' n q x <-> gives_up (h_sha1 h) (o_dest o) s n q x /\ n <> m.
  Proof.
    intros Y H n q x. destruct (record_remove_facts _ _ _ Y H) as (Y' & N & Fr & _). unfold gives_up.
    destruct (decide (n = m)) as [->|Ne].
    - split; [intros [I _]; congruence|intros [_ []]; reflexivity].
    - destruct (Fr n Ne) as [F1 F2]. rewrite (is_installed_eq (y_inst s) (y_inst s') n F1), (list_of_eq s s' n F1 F2). tauto.
  Qed.
  Lemma relative_later s s' m : yinv s -> record_remove s m = Ok s' -> relative_lists s -> relative_lists s'.
  Proof.
    intros Y H R n files fi I L Hf. destruct (record_remove_facts _ _ _ Y H) as (Y' & N & Fr & _).
    destruct (decide (n = m)) as [->|Ne]; [congruence|]. destruct (Fr n Ne) as [F1 F2]. eapply R; [| |exact Hf].
    - rewrite <- I. symmetry. now apply is_installed_eq.
    - rewrite <- L. symmetry. now apply list_of_eq.
  Qed.

  Lemma many_removed order : forall w w' r, yinv (w_sys w) -> relative_lists (w_sys w) -> tree (w_fs w) -> remove_loop h o order w = (w', r) ->
    tree (w_fs w') /\
    shrunk (w_fs w) (w_fs w') (fun q => forall x, w_fs w !! q = Some x -> exists n, In n order /\ gives_up (h_sha1 h) (o_dest o) (w_sys w) n q x) /\
    (forall u, r = Ok u ->
       (forall q c, w_fs w !! q = Some (NFile c) ->
          (w_fs w' !! q = None <-> exists n, In n order /\ gives_up (h_sha1 h) (o_dest o) (w_sys w) n q (NFile c)))).
  Proof.
    induction order as [|m order IH]; intros w w' r Y R T H.
    { injection H as <- <-. split; [exact T|]. split; [apply shrunk_refl|]. intros u _ q c F. split; [congruence|intros (n & [] & _)]. }
    cbn [remove_loop eachM] in H. fold (remove_loop h o order) in H. unfold bindM in H at 1. unfold bindM in H at 1. cbn [look] in H.
    destruct (is_inst (w_sys w) m) eqn:I.
    2: { cbn [ret] in H. destruct (IH w w' r Y R T H) as (T' & S' & P'). split; [exact T'|]. split.
         - eapply shrunk_weak; [exact S'|]. intros q K x F. destruct (K x F) as (n & Hn & G). exists n. split; [now right|exact G].
         - intros u -> q c F. rewrite (P' u eq_refl q c F). split; intros (n & Hn & G); [exists n; split; [now right|exact G]|].
           destruct Hn as [<-|Hn]; [|eauto]. destruct G as [G _]. unfold is_inst in I. congruence. }
    destruct (remove_single h o m w) as [w1 r1] eqn:E1. destruct (one_removed _ _ _ _ Y R T E1) as (T1 & Y1 & S1 & P1 & SS).
    destruct r1 as [u1|e].
    2: { injection H as <- <-. split; [exact T1|]. split; [|discriminate]. eapply shrunk_weak; [exact S1|]. intros q K x F. exists m. split; [now left|auto]. }
    destruct (P1 u1 eq_refl) as [RR P1']. pose proof (relative_later _ _ _ Y RR R) as R1.
    destruct (IH w1 w' r Y1 R1 T1 H) as (T' & S' & P'). split; [exact T'|]. split.
    - intros q. destruct (S' q) as [G|[G [K|[K C]]]].
      + rewrite G. destruct (S1 q) as [G1|[G1 [K|[K C]]]]; [now left| |].
        * right. split; [exact G1|]. left. intros x F. exists m. split; [now left|auto].
        * right. split; [exact G1|]. right. split; [exact K|]. intros c [[x X] Dn]. apply (C c). split; [|exact Dn]. exists x. eapply shrunk_sub; eauto.
      + right. split; [exact G|]. destruct (S1 q) as [G1|[G1 [K1|[K1 C]]]].
        * left. intros x F. rewrite <- G1 in F. destruct (K x F) as (n & Hn & Gu). apply (gives_up_later _ _ _ Y RR) in Gu as [Gu _]. exists n. split; [now right|exact Gu].
        * left. intros x F. exists m. split; [now left|auto].
        * right. split; [exact K1|]. intros c [[x X] Dn]. apply (C c). split; [|exact Dn]. exists x. eapply shrunk_sub; eauto.
      + right. split; [exact G|]. right. split; [eapply shrunk_sub; eauto|exact C].
    - intros u -> q c F. specialize (P1' q c F). destruct (S1 q) as [G1|[G1 _]].
      + rewrite F in G1. rewrite (P' u eq_refl q c G1). split; intros (n & Hn & Gu).
        * exists n. apply (gives_up_later _ _ _ Y RR) in Gu as [Gu _]. split; [now right|exact Gu].
        * destruct (decide (n = m)) as [->|Ne].
          { apply P1' in Gu. congruence. }
          destruct Hn as [->|Hn]; [congruence|]. exists n. split; [exact Hn|]. apply (gives_up_later _ _ _ Y RR). auto.
      + split; intros _; [exists m; split; [now left|now apply P1']|]. destruct (S' q) as [G|[G _]]; congruence.
  Qed.

  Lemma installed_present s n : yinv s -> is_installed (y_inst s) n = true <-> exists p, present s n p.
  Proof.
    intros Y. split; [|intros (p & I & _); exact I]. intros I. destruct (proj1 (yi_agree _ Y n) I) as [p E]. exists p. split; [exact I|].
    now rewrite get_package_place by apply place_inst.
  Qed.
  Lemma removal_files A ig w w' r : fair h -> system (w_sys w) -> relative_lists (w_sys w) -> tree (w_fs w) -> remove h o A ig w = (w', r) ->
    tree (w_fs w') /\
    shrunk (w_fs w) (w_fs w') (fun q => forall x, w_fs w !! q = Some x -> exists n, gives_up (h_sha1 h) (o_dest o) (w_sys w) n q x) /\
    (forall b, r = Ok b -> forall q c, w_fs w !! q = Some (NFile c) ->
       (w_fs w' !! q = None <-> exists n, is_installed (y_inst (w_sys w')) n = false /\ gives_up (h_sha1 h) (o_dest o) (w_sys w) n q (NFile c))).
  Proof.
    intros Fa S R T H. pose proof (lived_yinv _ _ S) as Y. destruct (remove_cases h o _ _ _ _ _ H) as [[U _]|(A0 & A1 & order & w1 & r1 & _ & EQ & NE & OR & U & _ & L & ->)].
    { destruct U as (U1 & U2 & _). rewrite U1, U2. split; [exact T|]. split; [apply shrunk_refl|]. intros b _ q c F. split; [congruence|]. intros (n & N & I & _). congruence. }
    destruct U as (U1 & U2 & _). rewrite <- U1 in Y, R. rewrite <- U2 in T. destruct (many_removed order _ _ _ Y R T L) as (T' & S' & P'). rewrite U1, U2 in *.
    split; [exact T'|]. split; [eapply shrunk_weak; [exact S'|]; intros q K x F; destruct (K x F) as (n & _ & G); eauto|].
    intros b E q c F. destruct r1 as [u|e]; [|discriminate]. rewrite (P' u eq_refl q c F).
    assert (Y1 : yinv (w_sys w1)) by now rewrite U1.
    assert (DR : drops order (w_sys w) (w_sys w')) by (rewrite <- U1; pose proof (remove_loop_drops h o order order (fun x Hx => Hx) w1) as X; rewrite L in X; exact X).
    pose proof (drops_yinv _ _ _ DR Y) as Y'. split; intros (n & Hn & G); exists n; (split; [|exact G]).
    - destruct (is_installed (y_inst (w_sys w')) n) eqn:I; [|reflexivity]. apply (installed_present _ _ Y') in I as [p Hp]. exfalso. exact (remove_loop_gone h o order _ _ _ Y1 L n Hn p Hp).
    - destruct (in_dec string_dec n order) as [K|K]; [exact K|]. exfalso. destruct G as [G _]. apply (installed_present _ _ Y) in G as [p Hp].
      pose proof (drops_keep _ _ _ DR Y n p K Hp) as [I _]. congruence.
  Qed.

  (** If no path was ever shared, other packages keep their files. *)
  Lemma others_keep A ig w w' b : fair h -> lived no_shared_paths (w_sys w) -> relative_lists (w_sys w) -> tree (w_fs w) -> remove h o A ig w = (w', Ok b) ->
    forall n path c, is_installed (y_inst (w_sys w')) n = true -> lists (w_sys w) n path ->
      w_fs w !! located (o_dest o) path = Some (NFile c) -> w_fs w' !! located (o_dest o) path = Some (NFile c).
  Proof.
    intros Fa S R T H n path c I L F. pose proof (lived_system _ _ S) as SY.
    destruct (removal_files _ _ _ _ _ Fa SY R T H) as (_ & S' & P').
    destruct (S' (located (o_dest o) path)) as [E|[E _]]; [congruence|]. exfalso.
    apply (P' b eq_refl _ c F) in E as (m & M & IM & files & fi & Lm & Hf & Q & _).
    apply located_inj in Q. subst path.
    assert (LM : lists (w_sys w) m (f_path fi)) by (split; [exact IM|]; exists files; split; [exact Lm|]; now apply in_map).
    apply (no_shared_exact _ _ _ S) in L as [x1 X1]. apply (no_shared_exact _ _ _ S) in LM as [x2 X2]. congruence.
  Qed.
End removing_files.
