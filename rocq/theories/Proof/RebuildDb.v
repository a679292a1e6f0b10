From Coq Require Import String Ascii ZArith List Bool Lia.
From stdpp Require Import gmap strings.
From Verif Require Import Model.Py Model.Version Model.Path Model.Rebuild Spec.VersionSpec Spec.PathSpec Spec.RebuildSpec
  Proof.PyFacts Proof.VersionFacts Proof.PathFacts Proof.RebuildFacts Proof.RebuildTop.
Import ListNotations.
Open Scope string_scope.

Section prog.
  Context {D : Type}.
  Implicit Types h s : home D.

  Lemma andthen_err {A B} (p : prog D A) (q : A -> prog D B) h e : snd (p h) = Err e -> andthen D p q h = (fst (p h), Err e).
  Proof. unfold andthen. destruct (p h) as [t r]. cbn. now intros ->. Qed.
  Lemma andthen_ok {A B} (p : prog D A) (q : A -> prog D B) h a : snd (p h) = Ok a ->
    andthen D p q h = ((fst (p h) ++ fst (q a (final D p h)))%list, snd (q a (final D p h))).
  Proof. unfold andthen, final. destruct (p h) as [t r]. cbn. intros ->. now destruct (q a (List.last t h)). Qed.
  Lemma andthen_final {A B} (p : prog D A) (q : A -> prog D B) h a : snd (p h) = Ok a ->
    final D (andthen D p q) h = final D (q a) (final D p h).
  Proof. intros H. unfold final at 1. rewrite (andthen_ok p q h a H). cbn. rewrite last_app. reflexivity. Qed.
  Lemma andthen_final_err {A B} (p : prog D A) (q : A -> prog D B) h e : snd (p h) = Err e ->
    final D (andthen D p q) h = final D p h.
  Proof. intros H. unfold final. now rewrite (andthen_err p q h e H). Qed.
  Lemma andthen_states {A B} (p : prog D A) (q : A -> prog D B) h s : In s (fst (andthen D p q h)) ->
    In s (fst (p h)) \/ exists a, snd (p h) = Ok a /\ In s (fst (q a (final D p h))).
  Proof.
    destruct (snd (p h)) as [a|e] eqn:E.
    - rewrite (andthen_ok p q h a E). cbn. intros H. apply in_app_iff in H as [H|H]; [now left|right]. eauto.
    - rewrite (andthen_err p q h e E). cbn. auto.
  Qed.
  Lemma final_state {A} (p : prog D A) h : final D p h = h \/ In (final D p h) (fst (p h)).
  Proof.
    unfold final. destruct (fst (p h)) as [|a t] using rev_ind; [now left|right]. rewrite last_last. apply in_app_iff. right. now left.
  Qed.
  Lemma ask_eq {A B} (f : home D -> A) (q : A -> prog D B) h : andthen D (ask D f) q h = q (f h) h.
  Proof. unfold andthen, ask. cbn. now destruct (q (f h) h). Qed.
  Lemma ask_final {A B} (f : home D -> A) (q : A -> prog D B) h : final D (andthen D (ask D f) q) h = final D (q (f h)) h.
  Proof. unfold final. now rewrite ask_eq. Qed.
  Lemma pure_final {A B} (r : res A) (q : A -> prog D B) h a : r = Ok a -> andthen D (pure D r) q h = q a h.
  Proof. intros ->. unfold andthen, pure. cbn. now destruct (q a h). Qed.

  (** ** Opening *)
  Definition unlocked (write : bool) h : Prop := write = true -> h_writable D h = true /\ h_held D h = false.
  Lemma lock_ok h : snd (lock_dbenv D h) = Ok tt <-> h_held D h = false.
  Proof. unfold lock_dbenv. rewrite ask_eq. destruct (h_held D h); cbn; split; auto; discriminate. Qed.
  Lemma lock_states h : fst (lock_dbenv D h) = [].
  Proof. unfold lock_dbenv. rewrite ask_eq. now destruct (h_held D h). Qed.

  Definition end_of_init (write : bool) : prog D unit :=
    if write then andthen D (ask D (h_writable D)) (fun w : bool => if w then lock_dbenv D else raise D EError) else ret D tt.
  Lemma end_ok write h : snd (end_of_init write h) = Ok tt <-> unlocked write h.
  Proof.
    unfold end_of_init, unlocked. destruct write; [|cbn; split; auto; intros; discriminate]. rewrite ask_eq.
    destruct (h_writable D h).
    - rewrite lock_ok. tauto.
    - cbn. split; [discriminate|]. intros H. destruct (H eq_refl). discriminate.
  Qed.
  Lemma end_states write h : fst (end_of_init write h) = [].
  Proof. unfold end_of_init. destruct write; [|reflexivity]. rewrite ask_eq. destruct (h_writable D h); [apply lock_states|reflexivity]. Qed.
  Lemma init_dbenv_eq write update h :
    init_dbenv D write update h =
    if h_readable D h then
      andthen D (check_dbversion D "dbversion" "1.1.2" write update) (fun _ =>
      andthen D (check_dbversion D "filesdbversion" "1.1.2" write update) (fun _ => end_of_init write)) h
    else ([], Err EError).
  Proof. unfold init_dbenv. rewrite ask_eq. now destruct (h_readable D h). Qed.

  Lemma stamp_with_writable h f c : h_writable D (stamp_with h f c) = h_writable D h.
  Proof. reflexivity. Qed.
  Lemma check_final_cases h f ver write update : readable_version ver ->
    final D (check_dbversion D f ver write update) h = h \/
    exists c, final D (check_dbversion D f ver write update) h = stamp_with h f c.
  Proof.
    intros R. destruct (final_state (check_dbversion D f ver write update) h) as [E|E]; [now left|right].
    apply check_states in E as (_ & _ & E & _); [|assumption]. destruct E as [-> | ->]; eauto.
  Qed.

  Theorem init_ok write update h :
    snd (init_dbenv D write update h) = Ok tt <->
    h_readable D h = true /\
    acceptable "1.1.2" write update (h_writable D h) (h_stamps D h !! "dbversion") /\
    acceptable "1.1.2" write update (h_writable D h) (h_stamps D h !! "filesdbversion") /\
    (write = true -> h_writable D h = true /\ h_held D h = false).
  Proof.
    rewrite init_dbenv_eq. destruct (h_readable D h); [|cbn; split; [discriminate|intros (? & _); discriminate]].
    pose proof (check_ok h "dbversion" "1.1.2" write update readable_112) as C1.
    destruct (snd (check_dbversion D "dbversion" "1.1.2" write update h)) as [[]|e] eqn:E1.
    - rewrite (andthen_ok _ _ _ _ E1). cbn [snd]. set (h1 := final D (check_dbversion D "dbversion" "1.1.2" write update) h).
      assert (W1 : h_writable D h1 = h_writable D h /\ h_held D h1 = h_held D h /\ h_stamps D h1 !! "filesdbversion" = h_stamps D h !! "filesdbversion").
      { subst h1. destruct (check_final_cases h "dbversion" "1.1.2" write update readable_112) as [-> | (c & ->)]; [auto|].
        split; [reflexivity|]. split; [reflexivity|]. cbn. now rewrite lookup_insert_ne by discriminate. }
      destruct W1 as (W1 & L1 & S1).
      pose proof (check_ok h1 "filesdbversion" "1.1.2" write update readable_112) as C2. rewrite W1, S1 in C2.
      destruct (snd (check_dbversion D "filesdbversion" "1.1.2" write update h1)) as [[]|e] eqn:E2.
      + rewrite (andthen_ok _ _ _ _ E2). cbn [snd]. set (h2 := final D (check_dbversion D "filesdbversion" "1.1.2" write update) h1).
        rewrite end_ok. unfold unlocked.
        assert (W2 : h_writable D h2 = h_writable D h1 /\ h_held D h2 = h_held D h1).
        { subst h2. destruct (check_final_cases h1 "filesdbversion" "1.1.2" write update readable_112) as [-> | (c & ->)]; auto. }
        destruct W2 as (W2 & L2). rewrite W2, L2, W1, L1. tauto.
      + rewrite (andthen_err _ _ _ _ E2). cbn. split; [discriminate|]. intros (_ & _ & A & _). apply C2 in A. discriminate.
    - rewrite (andthen_err _ _ _ _ E1). cbn. split; [discriminate|]. intros (_ & A & _). apply C1 in A. discriminate.
  Qed.

  (** Every state it passes through differs from the first only in the two version files *)
  Definition same_but_stamps h s : Prop := exists m, s = set_stamps D h m.
  Lemma same_refl h : same_but_stamps h h.
  Proof. exists (h_stamps D h). now destruct h. Qed.
  Lemma same_trans h s t : same_but_stamps h s -> same_but_stamps s t -> same_but_stamps h t.
  Proof. intros (m & ->) (m' & ->). now exists m'. Qed.
  Lemma check_same_but h f ver write update : readable_version ver ->
    same_but_stamps h (final D (check_dbversion D f ver write update) h).
  Proof. intros R. destruct (check_final_cases h f ver write update R) as [-> | (c & ->)]; [apply same_refl|eexists; reflexivity]. Qed.

  Lemma init_states write update h s : In s (fst (init_dbenv D write update h)) ->
    write = true /\ h_writable D h = true /\ same_but_stamps h s /\
    forall f, h_stamps D s !! f = h_stamps D h !! f \/
      (f = "dbversion" \/ f = "filesdbversion") /\ (h_stamps D s !! f = Some "" \/ h_stamps D s !! f = Some "1.1.2") /\
      (h_stamps D h !! f = None \/ update = true).
  Proof.
    rewrite init_dbenv_eq. destruct (h_readable D h); [|easy]. intros H. apply andthen_states in H as [H|([] & E1 & H)].
    - apply check_states in H as (-> & W & C & U); [|apply readable_112]. split; [reflexivity|]. split; [assumption|].
      split; [destruct C as [-> | ->]; eexists; reflexivity|]. intros f. destruct (decide (f = "dbversion")) as [->|Ne].
      + right. split; [auto|]. split; [|assumption]. destruct C as [-> | ->]; cbn; rewrite lookup_insert; auto.
      + left. destruct C as [-> | ->]; cbn; now rewrite lookup_insert_ne by congruence.
    - apply andthen_states in H as [H|([] & E2 & H)]; [|now rewrite end_states in H].
      pose proof (check_final h "dbversion" "1.1.2" write update readable_112 E1) as F.
      set (h1 := final D (check_dbversion D "dbversion" "1.1.2" write update) h) in *.
      apply check_states in H as (-> & W & C & U); [|apply readable_112].
      assert (B : same_but_stamps h h1) by (apply check_same_but, readable_112).
      assert (W' : h_writable D h = true). { destruct B as (m & ->). exact W. }
      split; [reflexivity|]. split; [assumption|].
      split; [eapply same_trans; [exact B|]; destruct C as [-> | ->]; eexists; reflexivity|].
      intros f. destruct (decide (f = "filesdbversion")) as [->|Ne].
      + right. split; [auto|]. split; [destruct C as [-> | ->]; cbn; rewrite lookup_insert; auto|].
        replace (h_stamps D h1 !! "filesdbversion") with (h_stamps D h !! "filesdbversion") in U; [assumption|].
        rewrite F. destruct (h_stamps D h !! "dbversion"); [destruct update|]; try reflexivity; cbn; now rewrite lookup_insert_ne by discriminate.
      + replace (h_stamps D s !! f) with (h_stamps D h1 !! f).
        2:{ destruct C as [-> | ->]; cbn; now rewrite lookup_insert_ne by congruence. }
        destruct (decide (f = "dbversion")) as [->|Ne'].
        * rewrite F. destruct (h_stamps D h !! "dbversion") as [c|] eqn:E; [destruct update|]; cbn; try rewrite lookup_insert; auto.
        * left. rewrite F. destruct (h_stamps D h !! "dbversion"); [destruct update|]; try reflexivity; cbn; now rewrite lookup_insert_ne by congruence.
  Qed.

  Lemma init_final write update h : snd (init_dbenv D write update h) = Ok tt ->
    same_but_stamps h (final D (init_dbenv D write update) h) /\
    forall f, h_stamps D (final D (init_dbenv D write update) h) !! f =
      if bool_decide (f = "dbversion" \/ f = "filesdbversion") then
        match h_stamps D h !! f with Some c => Some (if update then "1.1.2" else c) | None => Some "1.1.2" end
      else h_stamps D h !! f.
  Proof.
    assert (Eq : final D (init_dbenv D write update) h = final D (fun h => init_dbenv D write update h) h) by reflexivity.
    unfold final in *. rewrite init_dbenv_eq in *. destruct (h_readable D h); [|discriminate].
    fold (final D (andthen D (check_dbversion D "dbversion" "1.1.2" write update) (fun _ =>
      andthen D (check_dbversion D "filesdbversion" "1.1.2" write update) (fun _ => end_of_init write))) h). clear Eq.
    intros H.
    destruct (snd (check_dbversion D "dbversion" "1.1.2" write update h)) as [[]|e] eqn:E1; [|rewrite (andthen_err _ _ _ _ E1) in H; discriminate].
    rewrite (andthen_final _ _ _ _ E1). rewrite (andthen_ok _ _ _ _ E1) in H. cbn [snd] in H.
    pose proof (check_final h "dbversion" "1.1.2" write update readable_112 E1) as F.
    pose proof (check_same_but h "dbversion" "1.1.2" write update readable_112) as B.
    set (h1 := final D (check_dbversion D "dbversion" "1.1.2" write update) h) in *.
    destruct (snd (check_dbversion D "filesdbversion" "1.1.2" write update h1)) as [[]|e] eqn:E2; [|rewrite (andthen_err _ _ _ _ E2) in H; discriminate].
    rewrite (andthen_final _ _ _ _ E2). 
    pose proof (check_final h1 "filesdbversion" "1.1.2" write update readable_112 E2) as F2.
    pose proof (check_same_but h1 "filesdbversion" "1.1.2" write update readable_112) as B2.
    set (h2 := final D (check_dbversion D "filesdbversion" "1.1.2" write update) h1) in *.
    assert (Fe : final D (end_of_init write) h2 = h2). { unfold final. now rewrite end_states. }
    rewrite Fe. split; [now apply same_trans with h1|]. intros f. rewrite F2.
    assert (G : h_stamps D h1 !! "filesdbversion" = h_stamps D h !! "filesdbversion").
    { rewrite F. destruct (h_stamps D h !! "dbversion"); [destruct update|]; try reflexivity; cbn; now rewrite lookup_insert_ne by discriminate. }
    assert (G1 : h_stamps D h1 !! "dbversion" = match h_stamps D h !! "dbversion" with Some c => Some (if update then "1.1.2" else c) | None => Some "1.1.2" end).
    { rewrite F. destruct (h_stamps D h !! "dbversion") eqn:E; [destruct update|]; cbn; try rewrite lookup_insert; auto. }
    assert (G2 : forall f, f <> "dbversion" -> f <> "filesdbversion" -> h_stamps D h1 !! f = h_stamps D h !! f).
    { intros g N1 N2. rewrite F. destruct (h_stamps D h !! "dbversion"); [destruct update|]; try reflexivity; cbn; now rewrite lookup_insert_ne by congruence. }
    assert (Look : forall g, h_stamps D (stamp_with h1 "filesdbversion" "1.1.2") !! g = if decide (g = "filesdbversion") then Some "1.1.2" else h_stamps D h1 !! g).
    { intros g. cbn. destruct (decide (g = "filesdbversion")) as [->|N]; [apply lookup_insert|apply lookup_insert_ne; congruence]. }
    destruct (decide (f = "filesdbversion")) as [->|N2].
    - rewrite bool_decide_true by auto. rewrite <- G. destruct (h_stamps D h1 !! "filesdbversion") eqn:E; [destruct update|].
      + rewrite Look. now destruct (decide ("filesdbversion" = "filesdbversion")).
      + exact E.
      + rewrite Look. now destruct (decide ("filesdbversion" = "filesdbversion")).
    - assert (R : h_stamps D (match h_stamps D h1 !! "filesdbversion" with
                 | Some _ => if update then stamp_with h1 "filesdbversion" "1.1.2" else h1
                 | None => stamp_with h1 "filesdbversion" "1.1.2" end) !! f = h_stamps D h1 !! f).
      { destruct (h_stamps D h1 !! "filesdbversion"); [destruct update|]; try reflexivity; rewrite Look; now destruct (decide (f = "filesdbversion")). }
      rewrite R. destruct (decide (f = "dbversion")) as [->|N1].
      + rewrite bool_decide_true by auto. exact G1.
      + rewrite bool_decide_false by tauto. now apply G2.
  Qed.

  (** ** Duplicates *)
  Definition cleaning (pkg : string) : prog D unit := change D (fun h => set_dirs D h (clean_dir pkg (h_dirs D h))).
  Lemma clean_dir_in pkg dirs d : In d (clean_dir pkg dirs) <-> In d dirs /\ d <> pkg.
  Proof. unfold clean_dir. rewrite filter_In, negb_true_iff, String.eqb_neq. tauto. Qed.
  Definition same_but_dirs h s : Prop := exists l, s = set_dirs D h l.
  Lemma cleaning_each l : forall h, snd (each D cleaning l h) = Ok tt /\
    (forall s, In s (fst (each D cleaning l h)) -> same_but_dirs h s /\ (forall d, In d (h_dirs D s) -> In d (h_dirs D h)) /\
       (forall d, In d (h_dirs D h) -> ~ In d l -> In d (h_dirs D s))) /\
    same_but_dirs h (final D (each D cleaning l) h) /\
    (forall d, In d (h_dirs D (final D (each D cleaning l) h)) <-> In d (h_dirs D h) /\ ~ In d l).
  Proof.
    induction l as [|x l IH]; intros h.
    - cbn. split; [reflexivity|]. split; [easy|]. split; [exists (h_dirs D h); now destruct h|]. tauto.
    - set (h1 := set_dirs D h (clean_dir x (h_dirs D h))). assert (E : snd (cleaning x h) = Ok tt) by reflexivity.
      assert (F : final D (cleaning x) h = h1) by reflexivity.
      cbn [each]. rewrite (andthen_ok _ _ _ _ E), (andthen_final _ _ _ _ E), F. cbn [fst snd].
      destruct (IH h1) as (I1 & I2 & (l1 & I3) & I4). split; [exact I1|]. split; [|split].
      + intros s Hs. apply in_app_iff in Hs as [[<-|[]]|Hs].
        * split; [eexists; reflexivity|]. split; [intros d Hd; cbn in Hd; apply clean_dir_in in Hd; tauto|].
          intros d Hd Nd. cbn. apply clean_dir_in. split; [assumption|]. intros ->. apply Nd. now left.
        * destruct (I2 s Hs) as ((l2 & ->) & A & B). split; [exists l2; reflexivity|]. split.
          -- intros d Hd. apply A in Hd. cbn in Hd. apply clean_dir_in in Hd. tauto.
          -- intros d Hd Nd. apply B; [|intros K; apply Nd; now right]. cbn. apply clean_dir_in. split; [assumption|]. intros ->. apply Nd. now left.
      + rewrite I3. exists l1. reflexivity.
      + intros d. rewrite I4. cbn [h_dirs h1 set_dirs]. unfold h1. cbn. rewrite clean_dir_in. split; [intros ((A & B) & C)|intros (A & B)].
        * split; [assumption|]. intros [->|K]; [now apply B|contradiction].
        * split; [split; [assumption|]; intros ->; apply B; now left|]. intros K. apply B. now right.
  Qed.

  Lemma clean_eq h : clean_duplicates D h =
    match find_replicas empty [] (h_dirs D h) with Ok l => each D cleaning l h | Err e => ([], Err e) end.
  Proof.
    unfold clean_duplicates. rewrite ask_eq. destruct (find_replicas empty [] (h_dirs D h)) as [l|e] eqn:E; [|reflexivity].
    now rewrite (pure_final _ _ _ l eq_refl).
  Qed.
  Lemma clean_outcome h : NoDup (h_dirs D h) -> snd (clean_duplicates D h) = Ok tt ->
    same_but_dirs h (final D (clean_duplicates D) h) /\
    (forall d, In d (h_dirs D (final D (clean_duplicates D) h)) -> In d (h_dirs D h)) /\
    (forall d, In d (h_dirs D h) -> exists n v, directory_of d n v) /\
    forall d n v, In d (h_dirs D h) -> directory_of d n v ->
    exists k w, directory_of k n w /\
      (forall d', (In d' (h_dirs D (final D (clean_duplicates D) h)) /\ exists v', directory_of d' n v') <-> d' = k) /\
      (forall s, In s (fst (clean_duplicates D h)) -> In k (h_dirs D s)) /\
      (forall d' v', In d' (h_dirs D h) -> directory_of d' n v' -> d' = k \/ readable_version v' /\ readable_version w /\ ~ newer v' w).
  Proof.
    intros ND. unfold final. rewrite clean_eq. destruct (find_replicas empty [] (h_dirs D h)) as [l|e] eqn:E; [|discriminate]. intros _.
    destruct (find_replicas_found (h_dirs D h) [] empty [] l found_start ND E) as (iv & [K N Sub Dr]). cbn [app] in *.
    destruct (cleaning_each l h) as (_ & I2 & I3 & I4). unfold final in I3, I4. split; [exact I3|]. split; [intros d Hd; now apply I4 in Hd|].
    split; [exact Dr|]. intros d n v Hd Dd. destruct (iv !! n) as [w|] eqn:L; [|exfalso; now apply (N n L d v)].
    destruct (K n w L) as (k & Ik & Dk & Nk & All). exists k, w. split; [assumption|]. split; [|split].
    - intros d'. split.
      + intros (Hin & v' & Dv). apply I4 in Hin as (Hin & Nin). destruct (All d' v' Hin Dv) as [?|(? & _)]; [assumption|contradiction].
      + intros ->. split; [now apply I4|eauto].
    - intros s Hs. destruct (I2 s Hs) as (_ & _ & A). now apply A.
    - intros d' v' Hin Dv. destruct (All d' v' Hin Dv) as [?|(_ & ?)]; auto.
  Qed.
  Lemma clean_ok_iff h : NoDup (h_dirs D h) ->
    ((snd (clean_duplicates D h) = Ok tt) <->
    (forall d, In d (h_dirs D h) -> exists n v, directory_of d n v) /\
    forall d d' n v v', In d (h_dirs D h) -> In d' (h_dirs D h) -> d <> d' -> directory_of d n v -> directory_of d' n v' -> readable_version v).
  Proof.
    intros ND. pose proof (find_replicas_fails (h_dirs D h) [] empty [] found_start ND) as F. cbn [app] in F.
    rewrite clean_eq. destruct (find_replicas empty [] (h_dirs D h)) as [l|e] eqn:E.
    - destruct (cleaning_each l h) as (-> & _). split; [intros _|auto]. destruct F as [F _]. destruct F as (A & B); [eauto|]. split; [exact A|].
      intros d d' n v v' I1 I2 Ne D1 D2. exact (proj1 (B d d' n v v' I1 I2 I1 Ne D1 D2)).
    - cbn. split; [discriminate|]. intros (A & B). destruct F as [_ F]. destruct F as (r & C); [|discriminate]. split; [exact A|].
      intros d d' n v v' I1 I2 _ Ne D1 D2. split; [exact (B d d' n v v' I1 I2 Ne D1 D2)|].
      refine (B d' d n v' v I2 I1 _ D2 D1). congruence.
  Qed.
  Lemma clean_err_states h e : snd (clean_duplicates D h) = Err e -> fst (clean_duplicates D h) = [].
  Proof.
    rewrite clean_eq. destruct (find_replicas empty [] (h_dirs D h)) as [l|e']; [|reflexivity]. destruct (cleaning_each l h) as (-> & _). discriminate.
  Qed.
End prog.
