(** * Facts about the environment of builds *)
From Coq Require Import String ZArith List.
From stdpp Require Import gmap strings.
From Verif Require Import Model.Py Model.Path Model.Environ Spec.EnvironSpec.
Open Scope string_scope.

Definition updates (l : list (string * string)) (f : string -> option string) : string -> option string := fold_right (fun kv f => updated f kv.1 kv.2) f l.
Definition setenvs (l : list (string * string)) (p : proc) : proc := fold_right (fun kv p => setenv kv.1 kv.2 p) p l.
Lemma setenv_py k v p k' : p_py (setenv k v p) !! k' = updated (fun x => p_py p !! x) k v k'.
Proof. unfold updated. destruct (String.eqb_spec k k') as [->|D]; [apply lookup_insert|now apply lookup_insert_ne]. Qed.
Lemma setenv_c k v p k' : p_c (setenv k v p) !! k' = updated (fun x => p_c p !! x) k v k'.
Proof. unfold updated. destruct (String.eqb_spec k k') as [->|D]; [apply lookup_insert|now apply lookup_insert_ne]. Qed.
Lemma updated_ext f g k v : (forall x, f x = g x) -> forall x, updated f k v x = updated g k v x.
Proof. intros H x. unfold updated. now rewrite H. Qed.
Lemma setenvs_py l p k : p_py (setenvs l p) !! k = updates l (fun x => p_py p !! x) k.
Proof. revert k. induction l as [|[a b] l IH]; intros k; [reflexivity|]. cbn [setenvs updates fold_right fst snd]. rewrite setenv_py. now apply updated_ext. Qed.
Lemma setenvs_c l p k : p_c (setenvs l p) !! k = updates l (fun x => p_c p !! x) k.
Proof. revert k. induction l as [|[a b] l IH]; intros k; [reflexivity|]. cbn [setenvs updates fold_right fst snd]. rewrite setenv_c. now apply updated_ext. Qed.
Lemma setenvs_rest l p : p_initial (setenvs l p) = p_initial p /\ p_scons (setenvs l p) = p_scons p /\ p_cwd (setenvs l p) = p_cwd p.
Proof. induction l as [|[a b] l IH]; [auto|]. exact IH. Qed.
Lemma updates_cases l f k : (In k (map fst l) /\ forall g, updates l f k = updates l g k) \/ (~ In k (map fst l) /\ updates l f k = f k).
Proof.
  induction l as [|[a b] l IH]; [right; split; [intros []|reflexivity]|].
  assert (U : forall g, updates ((a, b) :: l) g k = if String.eqb a k then Some b else updates l g k) by reflexivity.
  setoid_rewrite U. cbn [map fst]. destruct (String.eqb_spec a k) as [->|D].
  - left. split; [now left|reflexivity].
  - destruct IH as [[I E]|[I E]]; [left; split; [now right|exact E]|right; split; [intros [->|K]; auto|exact E]].
Qed.

Section facts.
  Context (fl : flags) (dest tmp : string) (exists_ : string -> bool) (status : environment -> string -> string -> Z).
  Notation prepare := (prepare fl dest tmp exists_).
  Notation run := (run status).
  Notation run_action := (run_action dest tmp exists_ status).
  Notation run_stage := (run_stage dest tmp exists_ status).
  Notation run_stages := (run_stages dest tmp exists_ status).
  Notation load := (load dest tmp status).
  Notation build := (build fl dest tmp exists_ status).
  Notation perform := (perform fl dest tmp exists_ status).
  Notation live := (live fl dest tmp exists_ status).
  Notation own := (own fl dest tmp).
  Notation helper := (helper fl exists_).
  Notation fresh := (fresh fl dest tmp exists_).

  Definition settings (j : job) : list (string * string) :=
    [("SRC_RELEASE", j_release j); ("SRC_VERSION", j_version j); ("SRC_NAME", j_name j); ("INSTALL_DIR", home dest tmp j ++ "/install");
     ("WORK_DIR", home dest tmp j ++ "/work"); ("PKG_DIR", home dest tmp j); ("JOBS", f_jobs fl); ("USER_LDFLAGS", f_ldflags fl);
     ("LDFLAGS", f_ldflags fl); ("CXXFLAGS", f_cxxflags fl); ("CFLAGS", f_cflags fl); ("HOST", f_host fl)].
  Lemma own_in j k : (In k own_names /\ exists v, own j k = Some v) \/ (~ In k own_names /\ own j k = None).
  Proof.
    destruct (in_dec string_dec k own_names) as [I|N].
    - left. split; [exact I|]. repeat (destruct I as [<-|I]; [eexists; reflexivity|]). destruct I.
    - right. split; [exact N|]. destruct (own j k) eqn:E; [|reflexivity]. exfalso. apply N. clear N. revert E. unfold own.
      repeat match goal with |- context [match ?x with _ => _ end] => is_var x; destruct x; try discriminate end; intros _; cbn; tauto.
  Qed.
  Lemma settings_own j f k : updates (settings j) f k = match own j k with Some v => Some v | None => f k end.
  Proof.
    destruct (own_in j k) as [[I [v E]]|[N E]].
    - repeat (destruct I as [<-|I]; [reflexivity|]). destruct I.
    - rewrite E. destruct (updates_cases (settings j) f k) as [[I _]|[_ K]]; [|exact K]. exfalso. apply N. revert I. cbn. tauto.
  Qed.
  Lemma helper_cases p : build_helper fl exists_ p = match helper with None => (p, true) | Some d => prefix_path d p end.
  Proof.
    unfold build_helper, EnvironSpec.helper. destruct (String.eqb_spec (f_helper fl) "icecream") as [->|N1]; [now destruct (exists_ _)|].
    destruct (String.eqb_spec (f_helper fl) "ccache") as [->|N2]; [now destruct (exists_ _)|].
    assert (X : match f_helper fl with "icecream" => if exists_ "/opt/icecream/bin/gcc" then Some "/opt/icecream/bin/" else None
                | "ccache" => if exists_ "/usr/lib/ccache/bin/gcc" then Some "/usr/lib/ccache/bin/" else None | _ => None end = None); [|now rewrite X].
    revert N1 N2. generalize (f_helper fl). intros s N1 N2.
    repeat match goal with |- context [match ?x with _ => _ end] => is_var x; destruct x; try reflexivity end; congruence.
  Qed.

  (** ** Preparing *)
  Lemma prepare_spec j p p' b : prepare j p = (p', b) ->
    (b = true <-> startable fl exists_ (p_initial p)) /\ p_initial p' = p_initial p /\ p_scons p' = p_scons p /\ p_cwd p' = p_cwd p /\
    (b = true -> (forall k, p_py p' !! k = fresh (p_initial p) (p_initial p) j k) /\ (forall k, p_c p' !! k = fresh (p_initial p) (p_c p) j k)).
  Proof.
    unfold Environ.prepare. set (q := setenvs (settings j) (set_py (p_initial p) p)).
    change (setenv "SRC_RELEASE" _ _) with q. destruct (setenvs_rest (settings j) (set_py (p_initial p) p)) as (Q1 & Q2 & Q3). fold q in Q1, Q2, Q3. cbn [p_initial p_scons p_cwd set_py] in Q1, Q2, Q3.
    assert (P : forall k, p_py q !! k = match own j k with Some v => Some v | None => p_initial p !! k end) by (intros k; unfold q; now rewrite setenvs_py, settings_own).
    assert (C : forall k, p_c q !! k = match own j k with Some v => Some v | None => p_c p !! k end) by (intros k; unfold q; now rewrite setenvs_c, settings_own).
    rewrite helper_cases. unfold startable. unfold EnvironSpec.fresh. destruct helper as [d|] eqn:Hd.
    - unfold prefix_path. rewrite (P "PATH"). cbn [EnvironSpec.own]. change (own j "PATH") with (@None string). destruct (p_initial p !! "PATH") as [path|] eqn:EP; intros [= <- <-].
      + split; [split; [intros _; right; now eexists|reflexivity]|]. split; [exact Q1|]. split; [exact Q2|]. split; [exact Q3|]. intros _.
        split; intros k; [rewrite setenv_py|rewrite setenv_c]; unfold updated; rewrite ?P, ?C, (String.eqb_sym "PATH" k); destruct (own_in j k) as [[I [v E]]|[N E]]; rewrite E; try reflexivity;
          destruct (String.eqb_spec k "PATH") as [->|]; try reflexivity; discriminate E.
      + split; [split; [discriminate|intros [K|[x K]]; discriminate K]|]. split; [exact Q1|]. split; [exact Q2|]. split; [exact Q3|]. discriminate.
    - intros [= <- <-]. split; [tauto|]. split; [exact Q1|]. split; [exact Q2|]. split; [exact Q3|]. intros _.
      split; intros k; rewrite ?P, ?C; destruct (own j k); reflexivity.
  Qed.

  (** ** What a script sees *)
  Notation pyf p := (fun k => p_py p !! k).
  Notation cf p := (fun k => p_c p !! k).
  Lemma explained_ext t : forall f g f' g', (forall k, f k = f' k) -> (forall k, g k = g' k) -> explained f g t -> explained f' g' t.
  Proof.
    induction t as [|[k v|k v|e d c] t IH]; intros f g f' g' F G H; cbn [explained] in *; [exact H| | |].
    - eapply IH; [| |exact H]; now apply updated_ext.
    - destruct H as [-> H]. split; [apply F|]. eapply IH; eassumption.
    - destruct H as [E H]. split; [intros k; now rewrite E|]. eapply IH; eassumption.
  Qed.
  Lemma exporting_ext t : forall f g, (forall k, f k = g k) -> forall k, exporting f t k = exporting g t k.
  Proof. induction t as [|[a v|a v|e d c] t IH]; intros f g F k; cbn [exporting]; [apply F| | |]; apply IH; [now apply updated_ext|exact F|exact F]. Qed.
  Lemma exporting_app t1 t2 f : exporting f (t1 ++ t2)%list = exporting (exporting f t1) t2.
  Proof. revert f. induction t1 as [|[a v|a v|e d c] t1 IH]; intros f; cbn [exporting app]; auto. Qed.
  Lemma explained_app t1 : forall t2 f g, explained f g t1 -> explained (exporting f t1) (exporting g t1) t2 -> explained f g (t1 ++ t2)%list.
  Proof.
    induction t1 as [|[a v|a v|e d c] t1 IH]; intros t2 f g H1 H2; cbn [explained exporting app] in *; [exact H2|now apply IH| |]; (split; [apply H1|apply IH; [apply H1|exact H2]]).
  Qed.
  Lemma exporting_not t : forall f k, (forall v, ~ In (Exported k v) t) -> exporting f t k = f k.
  Proof.
    induction t as [|[a v|a v|e d c] t IH]; intros f k N; cbn [exporting]; [reflexivity| | |]; rewrite IH; try (intros v' K; apply (N v'); now right); try reflexivity.
    unfold updated. destruct (String.eqb_spec a k) as [->|]; [destruct (N v); now left|reflexivity].
  Qed.
  (** [t] leads from [p] to [p'] *)
  Definition leads (p : proc) (t : list happening) (p' : proc) : Prop :=
    explained (pyf p) (cf p) t /\ (forall k, p_py p' !! k = exporting (pyf p) t k) /\ (forall k, p_c p' !! k = exporting (cf p) t k) /\ p_initial p' = p_initial p.
  Lemma leads_nil p p' : p_py p' = p_py p -> p_c p' = p_c p -> p_initial p' = p_initial p -> leads p [] p'.
  Proof. intros E1 E2 E3. unfold leads. rewrite E1, E2, E3. split; [exact Logic.I|auto]. Qed.
  Lemma leads_app p t1 p1 t2 p2 : leads p t1 p1 -> leads p1 t2 p2 -> leads p (t1 ++ t2) p2.
  Proof.
    intros (A1 & A2 & A3 & A4) (B1 & B2 & B3 & B4). split; [|split; [|split; [|congruence]]].
    - apply explained_app; [exact A1|]. eapply explained_ext; [| |exact B1]; auto.
    - intros k. rewrite B2, exporting_app. now apply exporting_ext.
    - intros k. rewrite B3, exporting_app. now apply exporting_ext.
  Qed.
  Lemma leads_from p q t p' : p_py p = p_py q -> p_c p = p_c q -> p_initial p = p_initial q -> leads p t p' -> leads q t p'.
  Proof. intros E1 E2 E3 (A1 & A2 & A3 & A4). unfold leads. rewrite <- E1, <- E2, <- E3. auto. Qed.
  Lemma leads_to p t q p' : p_py p' = p_py q -> p_c p' = p_c q -> p_initial p' = p_initial q -> leads p t q -> leads p t p'.
  Proof. intros E1 E2 E3 (A1 & A2 & A3 & A4). unfold leads. rewrite E1, E2, E3. auto. Qed.
  Lemma run_leads q : forall p p' t ok, run q p = (p', t, ok) -> leads p t p'.
  Proof.
    induction q as [| |k v q IH|k q IH|c q IH|d q IH|q IH]; intros p p' t ok H; cbn [Environ.run] in H.
    - injection H as <- <- _. now apply leads_nil.
    - injection H as <- <- _. now apply leads_nil.
    - destruct (run q (setenv k v p)) as [[p1 t1] ok1] eqn:E. injection H as <- <- _. destruct (IH _ _ _ _ E) as (A1 & A2 & A3 & A4). split; [|split; [|split; [|exact A4]]].
      + cbn [explained]. eapply explained_ext; [| |exact A1]; intros x; [apply setenv_py|apply setenv_c].
      + intros x. rewrite A2. cbn [exporting]. apply exporting_ext. intros y. apply setenv_py.
      + intros x. rewrite A3. cbn [exporting]. apply exporting_ext. intros y. apply setenv_c.
    - destruct (run (q (p_py p !! k)) p) as [[p1 t1] ok1] eqn:E. injection H as <- <- _. destruct (IH _ _ _ _ _ E) as (A1 & A2 & A3 & A4). split; [|auto]. split; [reflexivity|exact A1].
    - destruct (run (q _) p) as [[p1 t1] ok1] eqn:E. injection H as <- <- _. destruct (IH _ _ _ _ _ E) as (A1 & A2 & A3 & A4). split; [|auto]. split; [reflexivity|exact A1].
    - eapply leads_from; [| | |exact (IH _ _ _ _ H)]; reflexivity.
    - destruct (run (q _) (import_scons p)) as [[p1 t1] ok1] eqn:E. injection H as <- <- _. apply IH in E.
      assert (X : p_py (import_scons p) = p_py p /\ p_c (import_scons p) = p_c p /\ p_initial (import_scons p) = p_initial p) by (unfold import_scons; destruct (p_scons p); auto).
      destruct X as (X1 & X2 & X3). apply (leads_from _ p) in E; [|assumption..]. destruct E as (A1 & A2 & A3 & A4). split; [|auto]. split; [intros k; now rewrite X2|exact A1].
  Qed.
  Lemma action_leads j q p p' t ok : run_action j q p = (p', t, ok) -> leads p t p'.
  Proof.
    unfold Environ.run_action. destruct (exists_ _); [|intros [= <- <- _]; now apply leads_nil]. destruct (run _ _) as [[p1 t1] ok1] eqn:E. intros [= <- <- <-]. apply run_leads in E.
    apply (leads_from _ p) in E; [|reflexivity..]. destruct ok1; [|exact E]. eapply leads_to; [| | |exact E]; reflexivity.
  Qed.
  Lemma stages_leads j ss : ~ In Pack ss -> forall p p' t ok, run_stages j ss p = (p', t, ok) -> leads p t p'.
  Proof.
    induction ss as [|s ss IH]; intros N p p' t ok H; cbn [Environ.run_stages] in H; [injection H as <- <- _; now apply leads_nil|].
    destruct (run_stage j s p) as [[p1 t1] ok1] eqn:E.
    assert (L : leads p t1 p1) by (destruct s; [eapply action_leads; exact E..|destruct N; now left]).
    destruct ok1; [|injection H as <- <- _; exact L]. destruct (run_stages j ss p1) as [[p2 t2] ok2] eqn:E2. injection H as <- <- _.
    eapply leads_app; [exact L|]. eapply IH; [|exact E2]. intros K. apply N. now right.
  Qed.
  Lemma stages_split j s2 : forall s1 p, run_stages j (s1 ++ s2) p =
    let '(p1, t1, ok1) := run_stages j s1 p in if ok1 : bool then let '(p2, t2, ok2) := run_stages j s2 p1 in (p2, t1 ++ t2, ok2)%list else (p1, t1, false).
  Proof.
    induction s1 as [|s s1 IH]; intros p; cbn [app Environ.run_stages].
    - now destruct (run_stages j s2 p) as [[p2 t2] ok2].
    - destruct (run_stage j s p) as [[p1 t1] ok1]. destruct ok1; [|reflexivity]. rewrite IH. destruct (run_stages j s1 p1) as [[p2 t2] ok2]. destruct ok2; [|reflexivity].
      destruct (run_stages j s2 p2) as [[p3 t3] ok3]. now rewrite app_assoc.
  Qed.
  Lemma stages_explained j ss p p' t ok : to_some_end ss -> run_stages j ss p = (p', t, ok) ->
    explained (pyf p) (cf p) t /\ (forall k, p_c p' !! k = exporting (cf p) t k) /\ p_initial p' = p_initial p.
  Proof.
    intros [(s1 & -> & N)|N] H; [|apply stages_leads in H as (A & _ & B & C); auto].
    rewrite stages_split in H. destruct (run_stages j s1 p) as [[p1 t1] ok1] eqn:E. apply stages_leads in E as (A & _ & B & C); [|exact N].
    destruct ok1; [|injection H as <- <- _; auto]. cbn [Environ.run_stages Environ.run_stage] in H. unfold pack in H. destruct (j_stuck j); injection H as <- <- _; rewrite !app_nil_r; auto.
  Qed.
  Lemma load_leads j p p' t ok : load j p = (p', t, ok) -> exists p1, run (j_load j) p = (p1, t, ok) /\ p' = (if ok then setenv "SRC_DIR" (sources dest tmp j) p1 else p1).
  Proof. unfold Environ.load. destruct (run (j_load j) p) as [[p1 t1] ok1]. intros [= <- <- <-]. eauto. Qed.

  Lemma build_explained j ss p p' t ok : to_some_end ss -> build j ss p = (p', t, ok) ->
    (~ startable fl exists_ (p_initial p) /\ t = [] /\ ok = false) \/
    (startable fl exists_ (p_initial p) /\ exists t1 t2, t = (t1 ++ t2)%list /\
      explained (fresh (p_initial p) (p_initial p) j) (fresh (p_initial p) (p_c p) j) t1 /\
      explained (updated (exporting (fresh (p_initial p) (p_initial p) j) t1) "SRC_DIR" (sources dest tmp j))
                (updated (exporting (fresh (p_initial p) (p_c p) j) t1) "SRC_DIR" (sources dest tmp j)) t2).
  Proof.
    intros TE H. unfold Environ.build in H. destruct (prepare j p) as [p1 ok1] eqn:E1. destruct (prepare_spec _ _ _ _ E1) as (S & I & Sc & Cw & F).
    destruct ok1; cbn [negb] in H; [|injection H as <- <- <-; left; split; [intros K; apply S in K; discriminate|auto]].
    right. split; [now apply S|]. destruct (F eq_refl) as [F1 F2]. destruct (load j p1) as [[p2 t2] ok2] eqn:E2. apply load_leads in E2 as (q & E2 & ->). apply run_leads in E2 as (A1 & A2 & A3 & A4).
    assert (A : explained (fresh (p_initial p) (p_initial p) j) (fresh (p_initial p) (p_c p) j) t2) by (eapply explained_ext; [exact F1|exact F2|exact A1]).
    destruct ok2; cbn [negb] in H; [|injection H as <- <- _; exists t2, []; rewrite app_nil_r; split; [reflexivity|split; [exact A|exact Logic.I]]].
    destruct (j_ready j); cbn [negb] in H; [|injection H as <- <- _; exists t2, []; rewrite app_nil_r; split; [reflexivity|split; [exact A|exact Logic.I]]].
    destruct (run_stages j ss _) as [[p3 t3] ok3] eqn:E3. injection H as <- <- _. exists t2, t3. split; [reflexivity|]. split; [exact A|].
    apply stages_explained in E3 as (B & _); [|exact TE]. eapply explained_ext; [| |exact B]; intros k; cbv beta.
    - rewrite setenv_py. apply updated_ext. intros x. cbv beta. rewrite A2. now apply exporting_ext.
    - rewrite setenv_c. apply updated_ext. intros x. cbv beta. rewrite A3. now apply exporting_ext.
  Qed.

  (** ** Nothing is carried over *)
  (** Alike but for the module scons *)
  Definition alike (p q : proc) : Prop := p_py p = p_py q /\ p_c p = p_c q /\ p_initial p = p_initial q /\ p_cwd p = p_cwd q.
  Lemma alike_setenv k v p q : alike p q -> alike (setenv k v p) (setenv k v q).
  Proof. intros (A & B & C & D). unfold alike, setenv. cbn. rewrite A, B. auto. Qed.
  Lemma alike_cwd d p q : alike p q -> alike (set_cwd d p) (set_cwd d q).
  Proof. intros (A & B & C & D). split; [exact A|split; [exact B|split; [exact C|reflexivity]]]. Qed.
  Definition alike_outcome (a b : outcome) : Prop := alike a.1.1 b.1.1 /\ a.1.2 = b.1.2 /\ a.2 = b.2.
  Lemma run_alike r : no_scons r -> forall p q, alike p q -> alike_outcome (run r p) (run r q).
  Proof.
    induction r as [| |k v r IH|k r IH|c r IH|d r IH|r IH]; intros N p q A; cbn [Environ.run no_scons] in *.
    - split; [exact A|auto].
    - split; [exact A|auto].
    - specialize (IH N _ _ (alike_setenv k v _ _ A)). destruct (run r (setenv k v p)) as [[p1 t1] ok1], (run r (setenv k v q)) as [[q1 u1] ok2]. destruct IH as (I1 & I2 & I3). cbn in *. subst. split; [exact I1|auto].
    - destruct A as (A1 & A2 & A3 & A4). rewrite <- A1. specialize (IH (p_py p !! k) (N _) p q (conj A1 (conj A2 (conj A3 A4)))).
      destruct (run (r _) p) as [[p1 t1] ok1], (run (r _) q) as [[q1 u1] ok2]. destruct IH as (I1 & I2 & I3). cbn in *. subst. split; [exact I1|auto].
    - destruct A as (A1 & A2 & A3 & A4). rewrite <- A2, <- A4. specialize (IH (status (p_c p) (p_cwd p) c) (N _) p q (conj A1 (conj A2 (conj A3 A4)))).
      destruct (run (r _) p) as [[p1 t1] ok1], (run (r _) q) as [[q1 u1] ok2]. destruct IH as (I1 & I2 & I3). cbn in *. subst. split; [exact I1|auto].
    - apply IH; [exact N|now apply alike_cwd].
    - destruct N.
  Qed.
  (** ... and, before the script is loaded, for SRC_DIR *)
  Definition near (p q : proc) : Prop := p_py p = p_py q /\ (forall k, k <> "SRC_DIR" -> p_c p !! k = p_c q !! k) /\ p_initial p = p_initial q /\ p_cwd p = p_cwd q.
  Lemma run_near r : silent r -> forall p q, near p q -> near (run r p).1.1 (run r q).1.1 /\ (run r p).1.2 = (run r q).1.2 /\ (run r p).2 = (run r q).2.
  Proof.
    induction r as [| |k v r IH|k r IH|c r IH|d r IH|r IH]; intros N p q A; cbn [Environ.run silent] in *; try destruct N.
    - split; [exact A|auto].
    - split; [exact A|auto].
    - assert (A' : near (setenv k v p) (setenv k v q)).
      { destruct A as (A & B & C & D). split; [unfold setenv; cbn; now rewrite A|]. split; [|split; [exact C|exact D]]. intros x Hx. rewrite !setenv_c. unfold updated. now rewrite (B x Hx). }
      specialize (IH N _ _ A'). destruct (run r (setenv k v p)) as [[p1 t1] ok1], (run r (setenv k v q)) as [[q1 u1] ok2]. destruct IH as (I1 & I2 & I3). cbn in *. subst. split; [exact I1|auto].
    - pose proof A as (A1 & _). rewrite <- A1. specialize (IH (p_py p !! k) (N _) p q A).
      destruct (run (r _) p) as [[p1 t1] ok1], (run (r _) q) as [[q1 u1] ok2]. destruct IH as (I1 & I2 & I3). cbn in *. subst. split; [exact I1|auto].
    - apply IH; [exact N|]. destruct A as (A & B & C & D). split; [exact A|split; [exact B|split; [exact C|reflexivity]]].
  Qed.
  Lemma action_alike j r p q : (forall s, r = Some s -> no_scons s) -> alike p q -> alike_outcome (run_action j r p) (run_action j r q).
  Proof.
    intros N A. unfold Environ.run_action. destruct (exists_ _); [|split; [exact A|auto]].
    assert (N' : no_scons (default PDone r)) by (destruct r; [now apply N|exact Logic.I]).
    pose proof (run_alike _ N' _ _ (alike_cwd (src_dir dest tmp j) _ _ A)) as R.
    destruct (run _ (set_cwd _ p)) as [[p1 t1] ok1], (run _ (set_cwd _ q)) as [[q1 u1] ok2]. destruct R as (R1 & R2 & R3). cbn in R1, R2, R3. subst. split; [|auto]. cbn.
    destruct ok2; [|exact R1]. destruct A as (_ & _ & _ & ->). now apply alike_cwd.
  Qed.
  Lemma stages_alike j ss : job_no_scons j -> forall p q, alike p q -> alike_outcome (run_stages j ss p) (run_stages j ss q).
  Proof.
    intros [_ N]. induction ss as [|s ss IH]; intros p q A; cbn [Environ.run_stages]; [split; [exact A|auto]|].
    assert (R : alike_outcome (run_stage j s p) (run_stage j s q)).
    { destruct s; cbn [Environ.run_stage]; [apply action_alike; auto..|]. unfold pack. destruct (j_stuck j); [split; [now apply alike_cwd|auto]|]. split; [|auto]. destruct A as (A1 & A2 & A3 & A4). cbn. split; [exact A3|auto]. }
    destruct (run_stage j s p) as [[p1 t1] ok1], (run_stage j s q) as [[q1 u1] ok2]. destruct R as (R1 & R2 & R3). cbn in R1, R2, R3. subst.
    destruct ok2; [|split; [exact R1|auto]]. specialize (IH _ _ R1). destruct (run_stages j ss p1) as [[p2 t2] ok3], (run_stages j ss q1) as [[q2 u2] ok4].
    destruct IH as (I1 & I2 & I3). cbn in I1, I2, I3. subst. split; [exact I1|auto].
  Qed.
  (** Outside the variables every build sets, what the commands inherit is the same *)
  Definition kept (e f : environment) : Prop := forall k, ~ In k own_names -> k <> "SRC_DIR" -> (helper = None \/ k <> "PATH") -> e !! k = f !! k.
  Lemma build_alike j ss p q : silent (j_load j) -> job_no_scons j -> p_initial p = p_initial q -> p_cwd p = p_cwd q -> kept (p_c p) (p_c q) ->
    (build j ss p).1.2 = (build j ss q).1.2 /\ (build j ss p).2 = (build j ss q).2.
  Proof.
    intros Si No E1 E2 K. unfold Environ.build. destruct (prepare j p) as [p1 ok1] eqn:P1, (prepare j q) as [q1 ok2] eqn:Q1.
    destruct (prepare_spec _ _ _ _ P1) as (A1 & A2 & A3 & A4 & A5), (prepare_spec _ _ _ _ Q1) as (B1 & B2 & B3 & B4 & B5).
    assert (ok1 = ok2) as ->. { rewrite E1 in A1. destruct ok1, ok2; try reflexivity; [symmetry; apply B1, A1|apply A1, B1]; reflexivity. }
    destruct ok2; cbn [negb]; [|auto]. destruct (A5 eq_refl) as [A6 A7], (B5 eq_refl) as [B6 B7].
    assert (Nr : near p1 q1).
    { split; [apply map_eq; intros k; now rewrite A6, B6, E1|]. split; [|split; congruence]. intros k Hk. rewrite A7, B7, E1. unfold EnvironSpec.fresh.
      destruct (own_in j k) as [[I [v E]]|[N E]]; rewrite E; [reflexivity|]. destruct helper as [d|] eqn:Hd.
      - destruct (p_initial q !! "PATH") as [path|] eqn:EP.
        + destruct (String.eqb_spec k "PATH") as [|X]; [reflexivity|]. apply K; auto.
        + exfalso. assert (true = true) as T by reflexivity. apply B1 in T as [T|[x T]]; congruence.
      - apply K; auto. }
    pose proof (run_near _ Si _ _ Nr) as (R1 & R2 & R3). unfold Environ.load.
    destruct (run (j_load j) p1) as [[p2 t2] ok2], (run (j_load j) q1) as [[q2 u2] ok3]. cbn in R1, R2, R3. subst. destruct ok3; cbn [negb]; [|auto].
    destruct (j_ready j); cbn [negb]; [|auto].
    assert (Al : alike (setenv "SRC_DIR" (src_dir dest tmp j) p2) (setenv "SRC_DIR" (src_dir dest tmp j) q2)).
    { destruct R1 as (R1 & R2 & R3 & R4). split; [unfold setenv; cbn; now rewrite R1|]. split; [|split; [exact R3|exact R4]]. apply map_eq. intros k. rewrite !setenv_c. unfold updated.
      destruct (String.eqb_spec "SRC_DIR" k); [reflexivity|]. apply R2. congruence. }
    pose proof (stages_alike j ss No _ _ Al) as (S1 & S2 & S3).
    destruct (run_stages j ss _) as [[p3 t3] ok3], (run_stages j ss _) as [[q3 u3] ok4]. cbn in S1, S2, S3. subst. auto.
  Qed.

  (** ** A history *)
  Lemma run_steady r : steady r -> forall p, p_cwd (run r p).1.1 = p_cwd p.
  Proof.
    induction r as [| |k v r IH|k r IH|c r IH|d r IH|r IH]; intros N p; cbn [Environ.run steady] in *; try destruct N; try reflexivity.
    - specialize (IH N (setenv k v p)). destruct (run r _) as [[p1 t1] ok1]. exact IH.
    - specialize (IH (p_py p !! k) (N _) p). destruct (run _ p) as [[p1 t1] ok1]. exact IH.
    - specialize (IH (status (p_c p) (p_cwd p) c) (N _) p). destruct (run _ p) as [[p1 t1] ok1]. exact IH.
    - specialize (IH (status (p_c (import_scons p)) (p_cwd (import_scons p)) (scons_command (import_scons p))) (N _) (import_scons p)). destruct (run _ _) as [[p1 t1] ok1]. cbn in *. rewrite IH. unfold import_scons. now destruct (p_scons p).
  Qed.
  Lemma stages_cwd j ss : forall p p' t, run_stages j ss p = (p', t, true) -> p_cwd p' = p_cwd p.
  Proof.
    induction ss as [|s ss IH]; intros p p' t H; cbn [Environ.run_stages] in H; [now injection H as <- _|].
    destruct (run_stage j s p) as [[p1 t1] ok1] eqn:E. destruct ok1; [|discriminate]. destruct (run_stages j ss p1) as [[p2 t2] ok2] eqn:E2. injection H as <- _ ->.
    rewrite (IH _ _ _ E2). destruct s; cbn [Environ.run_stage] in E.
    1-3: unfold Environ.run_action in E; destruct (exists_ _); [|discriminate]; destruct (run _ _) as [[q u] ok]; injection E as <- _ ->; reflexivity.
    unfold pack in E. destruct (j_stuck j); [discriminate|]. now injection E as <- _.
  Qed.
  Lemma stages_py j ss p p' t : to_the_end ss -> run_stages j ss p = (p', t, true) -> p_py p' = p_initial p'.
  Proof.
    intros (s1 & -> & N) H. rewrite stages_split in H. destruct (run_stages j s1 p) as [[p1 t1] ok1]. destruct ok1; [|discriminate].
    cbn [Environ.run_stages Environ.run_stage] in H. unfold pack in H. destruct (j_stuck j); [discriminate|]. now injection H as <- _.
  Qed.
  Lemma build_ok j ss p p' t : to_the_end ss -> build j ss p = (p', t, true) ->
    p_py p' = p_initial p /\ p_initial p' = p_initial p /\ (steady (j_load j) -> p_cwd p' = p_cwd p) /\ (tidy t -> kept (p_c p') (p_c p)).
  Proof.
    intros TE H. unfold Environ.build in H. destruct (prepare j p) as [p1 ok1] eqn:E1. destruct (prepare_spec _ _ _ _ E1) as (S & I & Sc & Cw & F). destruct ok1; [|discriminate]. cbn [negb] in H.
    destruct (F eq_refl) as [F1 F2]. destruct (load j p1) as [[p2 t2] ok2] eqn:E2. apply load_leads in E2 as (q & E2 & ->). destruct ok2; [|discriminate]. cbn [negb] in H.
    destruct (j_ready j); [|discriminate]. cbn [negb] in H. destruct (run_stages j ss _) as [[p3 t3] ok3] eqn:E3. injection H as <- <- ->.
    pose proof (run_leads _ _ _ _ _ E2) as (A1 & A2 & A3 & A4). pose proof (stages_explained _ _ _ _ _ _ (or_introl TE) E3) as (_ & B3 & B4). cbn [p_initial setenv] in B4.
    split; [rewrite (stages_py _ _ _ _ _ TE E3); congruence|]. split; [congruence|]. split.
    - intros St. rewrite (stages_cwd _ _ _ _ _ E3). cbn [p_cwd setenv]. pose proof (run_steady _ St p1) as R. rewrite E2 in R. cbn in R. congruence.
    - intros Ti k N1 N2 N3. rewrite B3, exporting_not; [|intros v K; apply N1, (Ti k v), in_app_iff; now right]. cbv beta. rewrite setenv_c. unfold updated.
      destruct (String.eqb_spec "SRC_DIR" k); [congruence|]. rewrite A3, exporting_not; [|intros v K; apply N1, (Ti k v), in_app_iff; now left]. cbv beta. rewrite F2. unfold EnvironSpec.fresh.
      destruct (own_in j k) as [[X _]|[_ ->]]; [contradiction|]. destruct helper as [d|]; [|reflexivity]. destruct (p_initial p !! "PATH"); [|reflexivity]. destruct (String.eqb_spec k "PATH") as [->|]; [|reflexivity].
      destruct N3 as [N3|N3]; [discriminate N3|congruence].
  Qed.
  Lemma live_inv ds : forall p p' ts, p_py p = p_initial p -> live ds p = (p', ts) -> Forall full ds -> Forall good_end ts ->
    p_initial p' = p_initial p /\ p_py p' = p_py p /\ p_cwd p' = p_cwd p /\ kept (p_c p') (p_c p).
  Proof.
    induction ds as [|d ds IH]; intros p p' ts I H Fu G; cbn [Environ.live] in H; [injection H as <- _; split; [reflexivity|split; [reflexivity|split; [reflexivity|intros k _ _ _; reflexivity]]]|].
    destruct (perform d p) as [[p1 t1] ok1] eqn:E. destruct (live ds p1) as [p2 ts2] eqn:E2. injection H as <- <-. apply Forall_cons_1 in Fu as [Fd Fu]. apply Forall_cons_1 in G as [[Gd Ti] G]. cbn in Gd, Ti. subst ok1.
    destruct d as [j ss|].
    - destruct Fd as [TE St]. destruct (build_ok _ _ _ _ _ TE E) as (B1 & B2 & B3 & B4). destruct (IH _ _ _ (eq_trans B1 (eq_sym B2)) E2 Fu G) as (C1 & C2 & C3 & C4).
      split; [congruence|]. split; [congruence|]. split; [rewrite C3; auto|]. intros k N1 N2 N3. rewrite (C4 k N1 N2 N3). now apply B4.
    - injection E as <- _. destruct (IH (initialise p) _ _ eq_refl E2 Fu G) as (C1 & C2 & C3 & C4). cbn in C1, C2, C3, C4. split; [congruence|auto].
  Qed.
  Lemma isolated e d ds p ts j ss : live ds (started e d) = (p, ts) -> Forall full ds -> Forall good_end ts -> silent (j_load j) -> job_no_scons j ->
    (build j ss p).1.2 = (build j ss (started e d)).1.2 /\ (build j ss p).2 = (build j ss (started e d)).2.
  Proof.
    intros H Fu G Si No. destruct (live_inv ds (started e d) p ts eq_refl H Fu G) as (A & B & C & D). now apply build_alike.
  Qed.
  (** Without reading the configuration again, the initial environment stays whatever happens *)
  Lemma initial_kept ds : (forall d, In d ds -> exists j ss, d = Build j ss /\ to_some_end ss) -> forall p, p_initial (live ds p).1 = p_initial p.
  Proof.
    induction ds as [|d ds IH]; intros N p; cbn [Environ.live]; [reflexivity|].
    destruct (perform d p) as [[p1 t1] ok1] eqn:E. specialize (IH (fun d Hd => N d (or_intror Hd)) p1). destruct (live ds p1) as [p2 ts2] eqn:E2. cbn in *. rewrite IH.
    destruct (N d (or_introl eq_refl)) as (j & ss & -> & TE). cbn [Environ.perform] in E. unfold Environ.build in E.
    destruct (prepare j p) as [q1 b1] eqn:E1. destruct (prepare_spec _ _ _ _ E1) as (_ & I & _). destruct b1; cbn [negb] in E; [|injection E as <- _ _; exact I].
    destruct (load j q1) as [[q2 u2] b2] eqn:E3. apply load_leads in E3 as (q & E3 & ->). apply run_leads in E3 as (_ & _ & _ & A).
    destruct b2; cbn [negb] in E; [|injection E as <- _ _; congruence]. destruct (j_ready j); cbn [negb] in E; [|injection E as <- _ _; cbn; congruence].
    destruct (run_stages j ss _) as [[q3 u3] b3] eqn:E4. injection E as <- _ _. apply stages_explained in E4 as (_ & _ & B); [|exact TE]. cbn in B. congruence.
  Qed.
End facts.
