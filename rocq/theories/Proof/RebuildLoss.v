From Coq Require Import String Ascii ZArith List Bool Lia.
From stdpp Require Import gmap strings.
From Verif Require Import Model.Py Model.Version Model.Path Model.Rebuild Spec.VersionSpec Spec.PathSpec Spec.RebuildSpec
  Proof.PyFacts Proof.PathFacts Proof.RebuildFacts Proof.RebuildTop Proof.RebuildDb.
Import ListNotations.
Open Scope string_scope.

Section rebuild.
  Context {D : Type} (blank : D) (listing : gmap string D -> list string) (add_repo : string -> prog D unit).
  Implicit Types h s : home D.

  Definition same_but_dbs h s : Prop := exists m, s = set_dbs D h m.
  Lemma dbs_refl h : same_but_dbs h h.
  Proof. exists (h_dbs D h). now destruct h. Qed.
  Lemma dbs_trans h s t : same_but_dbs h s -> same_but_dbs s t -> same_but_dbs h t.
  Proof. intros (m & ->) (m' & ->). now exists m'. Qed.

  Definition destroying (files : bool) (mydb : string) : prog D unit :=
    if doomed files mydb then change D (fun h => set_dbs D h (delete mydb (h_dbs D h))) else ret D tt.
  Lemma destroying_each files l : forall h, snd (each D (destroying files) l h) = Ok tt /\
    (forall s, In s (fst (each D (destroying files) l h)) -> same_but_dbs h s /\
       forall n, doomed files n = false -> h_dbs D s !! n = h_dbs D h !! n) /\
    same_but_dbs h (final D (each D (destroying files) l) h) /\
    (forall n, h_dbs D (final D (each D (destroying files) l) h) !! n =
       if doomed files n && bool_decide (n ∈ l) then None else h_dbs D h !! n).
  Proof.
    induction l as [|x l IH]; intros h.
    - cbn. split; [reflexivity|]. split; [easy|]. split; [apply dbs_refl|]. intros n. rewrite bool_decide_false by set_solver. now rewrite andb_false_r.
    - assert (E : snd (destroying files x h) = Ok tt) by (unfold destroying; now destruct (doomed files x)).
      cbn [each]. rewrite (andthen_ok _ _ _ _ E), (andthen_final _ _ _ _ E). cbn [fst snd].
      set (h1 := final D (destroying files x) h).
      assert (F : h1 = if doomed files x then set_dbs D h (delete x (h_dbs D h)) else h).
      { unfold h1, destroying. now destruct (doomed files x). }
      assert (S1 : same_but_dbs h h1). { rewrite F. destruct (doomed files x); [eexists; reflexivity|apply dbs_refl]. }
      assert (L1 : forall n, h_dbs D h1 !! n = if doomed files n && bool_decide (x = n) then None else h_dbs D h !! n).
      { intros n. rewrite F. destruct (bool_decide_reflect (x = n)) as [->|Ne].
        - destruct (doomed files n) eqn:Dn; cbn; [apply lookup_delete|reflexivity].
        - rewrite andb_false_r. destruct (doomed files x); cbn; [now apply lookup_delete_ne|reflexivity]. }
      destruct (IH h1) as (I1 & I2 & I3 & I4). split; [exact I1|]. split; [|split].
      + intros s Hs. apply in_app_iff in Hs as [Hs|Hs].
        * assert (s = h1) as ->. { rewrite F. unfold destroying in Hs. destruct (doomed files x); [|easy]. destruct Hs as [<-|[]]. reflexivity. }
          split; [assumption|]. intros n Hn. now rewrite L1, Hn.
        * destruct (I2 s Hs) as (A & B). split; [now apply dbs_trans with h1|]. intros n Hn. rewrite B, L1, Hn by assumption. reflexivity.
      + now apply dbs_trans with h1.
      + intros n. rewrite I4, L1. destruct (doomed files n); cbn; [|reflexivity]. repeat case_bool_decide; try reflexivity; exfalso; set_solver.
  Qed.

  Definition opening (name : string) : prog D unit := open_database D blank name.
  Lemma opening_each l : forall h, snd (each D opening l h) = Ok tt /\
    (forall s, In s (fst (each D opening l h)) -> same_but_dbs h s /\ forall n x, h_dbs D h !! n = Some x -> h_dbs D s !! n = Some x) /\
    same_but_dbs h (final D (each D opening l) h) /\
    (forall n, h_dbs D (final D (each D opening l) h) !! n =
       match h_dbs D h !! n with Some x => Some x | None => if bool_decide (n ∈ l) then Some blank else None end).
  Proof.
    induction l as [|x l IH]; intros h.
    - cbn. split; [reflexivity|]. split; [easy|]. split; [apply dbs_refl|]. intros n. rewrite bool_decide_false by set_solver. now destruct (h_dbs D h !! n).
    - set (h1 := match h_dbs D h !! x with Some _ => h | None => set_dbs D h (<[ x := blank ]> (h_dbs D h)) end).
      assert (E : snd (opening x h) = Ok tt) by reflexivity. assert (F : final D (opening x) h = h1) by reflexivity.
      assert (Tr : fst (opening x h) = [h1]) by reflexivity.
      cbn [each]. rewrite (andthen_ok _ _ _ _ E), (andthen_final _ _ _ _ E), F, Tr. cbn [fst snd].
      assert (S1 : same_but_dbs h h1). { unfold h1. destruct (h_dbs D h !! x); [apply dbs_refl|eexists; reflexivity]. }
      assert (L1 : forall n, h_dbs D h1 !! n = match h_dbs D h !! n with Some y => Some y | None => if bool_decide (x = n) then Some blank else None end).
      { intros n. unfold h1. destruct (h_dbs D h !! x) as [y|] eqn:Ex.
        - destruct (bool_decide_reflect (x = n)) as [->|Ne]; [now rewrite Ex|]. now destruct (h_dbs D h !! n).
        - cbn. destruct (bool_decide_reflect (x = n)) as [->|Ne]; [rewrite lookup_insert; now rewrite Ex|].
          rewrite lookup_insert_ne by assumption. now destruct (h_dbs D h !! n). }
      destruct (IH h1) as (I1 & I2 & I3 & I4). split; [exact I1|]. split; [|split].
      + intros s Hs. cbn [app] in Hs. destruct Hs as [<-|Hs].
        * split; [assumption|]. intros n y Hn. now rewrite L1, Hn.
        * destruct (I2 s Hs) as (A & B). split; [now apply dbs_trans with h1|]. intros n y Hn. apply B. now rewrite L1, Hn.
      + now apply dbs_trans with h1.
      + intros n. rewrite I4, L1. destruct (h_dbs D h !! n); [reflexivity|]. repeat case_bool_decide; try reflexivity; exfalso; set_solver.
  Qed.

  Definition reloading (package_fn : string) : prog D unit := if String.eqb package_fn "scripts" then ret D tt else raise D EAttribute.
  Lemma reload_eq h : reload_packages D h = each D reloading (h_dirs D h) h.
  Proof. unfold reload_packages. now rewrite ask_eq. Qed.
  Lemma reload_states l h : fst (each D reloading l h) = [].
  Proof.
    induction l as [|x l IH]; [reflexivity|]. cbn [each]. unfold andthen, reloading at 1. destruct (String.eqb x "scripts"); [|reflexivity].
    cbn. destruct (each D reloading l h) eqn:E. cbn in *. assumption.
  Qed.
  Lemma reload_result l h : (exists d, In d l /\ d <> "scripts") -> snd (each D reloading l h) = Err EAttribute.
  Proof.
    induction l as [|x l IH]; intros (d & Hin & Ne); [easy|]. cbn [each]. unfold andthen, reloading at 1. destruct (String.eqb_spec x "scripts") as [->|N]; [|reflexivity].
    cbn. destruct (each D reloading l h) as [t r] eqn:E. cbn in *. destruct Hin as [<-|Hin]; [congruence|]. apply IH. eauto.
  Qed.
  Lemma reload_nothing l h : (forall d, In d l -> d = "scripts") -> each D reloading l h = ([], Ok tt).
  Proof.
    induction l as [|x l IH]; intros H; [reflexivity|]. cbn [each]. unfold andthen, reloading at 1. rewrite (H x) by now left. cbn.
    rewrite IH by (intros; apply H; now right). reflexivity.
  Qed.

  Definition files_wanted (files : bool) h : bool :=
    match snd (check_dbversion D "filesdbversion" "1.1.2" false false h) with Ok _ => files | Err _ => true end.
  Definition rebuild_rest (files : bool) : prog D unit :=
    andthen D (destroy D listing files) (fun _ => andthen D (init D blank) (fun _ =>
    andthen D (clean_duplicates D) (fun _ => andthen D (reload_packages D) (fun _ => reload_indices D add_repo)))).
  Lemma rebuild_eq files h : rebuild_db D blank listing add_repo files h =
    andthen D (init_dbenv D true true) (fun _ => rebuild_rest (files_wanted files h)) h.
  Proof.
    unfold rebuild_db, files_wanted. set (q := fun b : bool => andthen D (init_dbenv D true true) (fun _ => rebuild_rest b)).
    change (andthen D (fun h0 => match snd (check_dbversion D "filesdbversion" filesdbversion false false h0) with
      Ok _ => ([], Ok files) | Err _ => ([], Ok true) end) q h = q (match snd (check_dbversion D "filesdbversion" filesdbversion false false h) with
      Ok _ => files | Err _ => true end) h).
    unfold andthen at 1. destruct (snd (check_dbversion D "filesdbversion" filesdbversion false false h)); cbn [List.last app];
      match goal with |- context [q ?b h] => now destruct (q b h) end.
  Qed.
  Lemma files_wanted_iff files h : files_wanted files h = true <->
    files = true \/ ~ exists c, h_stamps D h !! "filesdbversion" = Some c /\ stamp_same c "1.1.2".
  Proof.
    unfold files_wanted. pose proof (check_ok h "filesdbversion" "1.1.2" false false readable_112) as C. unfold acceptable in C.
    destruct (snd (check_dbversion D "filesdbversion" "1.1.2" false false h)) as [[]|e].
    - destruct C as [C _]. destruct C as [(c & E & S & _)|(? & _)]; [reflexivity| |discriminate]. split; [auto|]. intros [?|N]; [assumption|]. exfalso. eauto.
    - split; [|reflexivity]. intros _. right. intros (c & E & S). destruct C as [_ C]. discriminate C. left. eauto.
  Qed.

  Lemma init_dbenv_again h : snd (init_dbenv D true true h) = Ok tt ->
    forall s, same_but_dbs (final D (init_dbenv D true true) h) s ->
    snd (init_dbenv D true false s) = Ok tt /\ fst (init_dbenv D true false s) = [].
  Proof.
    intros H s Hs. pose proof (init_final true true h H) as ((m & Em) & Lk). apply init_ok in H as (R & A1 & A2 & U).
    assert (X : h_readable D s = true /\ h_writable D s = true /\ h_held D s = false).
    { destruct Hs as (m' & ->). rewrite Em. cbn. destruct (U eq_refl). auto. }
    assert (Y : forall f, f = "dbversion" \/ f = "filesdbversion" -> h_stamps D s !! f = Some "1.1.2").
    { intros f Hf. destruct Hs as (m' & ->). change (h_stamps D (final D (init_dbenv D true true) h) !! f = Some "1.1.2"). rewrite Lk.
      rewrite bool_decide_true by assumption. now destruct (h_stamps D h !! f). }
    destruct X as (X1 & X2 & X3).
    assert (Ok2 : snd (init_dbenv D true false s) = Ok tt).
    { apply init_ok. split; [assumption|]. split; [|split; [|auto]].
      - left. exists "1.1.2". rewrite Y by auto. split; [reflexivity|]. split; [apply same_112|reflexivity].
      - left. exists "1.1.2". rewrite Y by auto. split; [reflexivity|]. split; [apply same_112|reflexivity]. }
    split; [exact Ok2|]. rewrite init_dbenv_eq, X1.
    pose proof (check_same s "dbversion" "1.1.2" true false "1.1.2" (Y _ (or_introl eq_refl)) same_112) as C1.
    pose proof (check_same s "filesdbversion" "1.1.2" true false "1.1.2" (Y _ (or_intror eq_refl)) same_112) as C2. cbv iota in C1, C2.
    unfold andthen at 1. rewrite C1. cbn [List.last app]. unfold andthen. rewrite C2. cbn [List.last app].
    pose proof (end_states true s) as Es. destruct (end_of_init true s) as [t r]. cbn in *. assumption.
  Qed.

  (** Up to the point where the packages are read back *)
  Lemma rebuild_prefix files h : (forall m n x, m !! n = Some x -> In n (listing m)) -> snd (init_dbenv D true true h) = Ok tt ->
    exists h2, 
      final D (rebuild_db D blank listing add_repo files) h =
        final D (andthen D (clean_duplicates D) (fun _ => andthen D (reload_packages D) (fun _ => reload_indices D add_repo))) h2 /\
      snd (rebuild_db D blank listing add_repo files h) =
        snd (andthen D (clean_duplicates D) (fun _ => andthen D (reload_packages D) (fun _ => reload_indices D add_repo)) h2) /\
      (exists m m', h2 = set_dbs D (set_stamps D h m) m') /\
      forall n, h_dbs D h2 !! n =
        match (if doomed (files_wanted files h) n then None else h_dbs D h !! n) with
        | Some x => Some x | None => if bool_decide (n ∈ databases) then Some blank else None end.
  Proof.
    intros Ls H. set (w := files_wanted files h). set (h1 := final D (init_dbenv D true true) h).
    pose proof (init_final true true h H) as ((m & Em) & _). fold h1 in Em.
    assert (Ed : destroy D listing w h1 = each D (destroying w) (listing (h_dbs D h1)) h1) by (unfold destroy; now rewrite ask_eq).
    destruct (destroying_each w (listing (h_dbs D h1)) h1) as (D1 & D2 & D3 & D4).
    assert (Fd : final D (destroy D listing w) h1 = final D (each D (destroying w) (listing (h_dbs D h1))) h1) by (unfold final; now rewrite Ed).
    rewrite <- Ed in D1. rewrite <- Fd in D3, D4. set (hd := final D (destroy D listing w) h1) in *.
    destruct (init_dbenv_again h H hd D3) as (A1 & A2).
    assert (Fa : final D (init_dbenv D true false) hd = hd) by (unfold final; now rewrite A2).
    assert (Fi : snd (init D blank hd) = Ok tt /\ final D (init D blank) hd = final D (each D opening databases) hd).
    { unfold init. split.
      - rewrite (andthen_ok _ _ _ _ A1), Fa. cbn [snd]. apply opening_each.
      - rewrite (andthen_final _ _ _ _ A1), Fa. reflexivity. }
    destruct Fi as (Fi1 & Fi2). destruct (opening_each databases hd) as (_ & _ & O3 & O4). rewrite <- Fi2 in O3, O4.
    set (h2 := final D (init D blank) hd) in *. exists h2. split; [|split; [|split]].
    - unfold final at 1. rewrite rebuild_eq. fold w. fold (final D (andthen D (init_dbenv D true true) (fun _ => rebuild_rest w)) h).
      rewrite (andthen_final _ _ _ _ H). fold h1. unfold rebuild_rest. rewrite (andthen_final _ _ _ _ D1). fold hd.
      rewrite (andthen_final _ _ _ _ Fi1). reflexivity.
    - rewrite rebuild_eq. fold w. rewrite (andthen_ok _ _ _ _ H). cbn [snd]. fold h1. unfold rebuild_rest. rewrite (andthen_ok _ _ _ _ D1). cbn [snd]. fold hd.
      rewrite (andthen_ok _ _ _ _ Fi1). reflexivity.
    - destruct O3 as (m2 & ->), D3 as (m1 & ->). rewrite Em. exists m, m2. reflexivity.
    - intros n. rewrite O4, D4. assert (Eh : h_dbs D h1 = h_dbs D h) by (rewrite Em; reflexivity). rewrite Eh.
      destruct (doomed w n); cbn [andb]; [|reflexivity]. case_bool_decide as Hin; [reflexivity|].
      destruct (h_dbs D h !! n) as [x|] eqn:E; [|reflexivity]. exfalso. apply Hin. apply elem_of_list_In. eapply Ls. exact E.
  Qed.

  Lemma clean_result (q : unit -> prog D unit) h2 : NoDup (h_dirs D h2) ->
    h_dbs D (final D (clean_duplicates D) h2) = h_dbs D h2.
  Proof.
    intros ND. destruct (snd (clean_duplicates D h2)) as [[]|e] eqn:E.
    - destruct (clean_outcome h2 ND E) as ((l & ->) & _). reflexivity.
    - unfold final. now rewrite (clean_err_states _ _ E).
  Qed.

  (** A package directory is still there after the cleaning *)
  Lemma clean_leaves h2 : NoDup (h_dirs D h2) -> snd (clean_duplicates D h2) = Ok tt ->
    (exists d, In d (h_dirs D h2) /\ d <> "scripts") ->
    exists d, In d (h_dirs D (final D (clean_duplicates D) h2)) /\ d <> "scripts".
  Proof.
    intros ND E (d & Hd & Ne). destruct (clean_outcome h2 ND E) as (_ & _ & Dr & All).
    destruct (Dr d Hd) as (n & v & Dd). destruct (All d n v Hd Dd) as (k & w & Dk & One & _ & Best).
    destruct (proj2 (One k) eq_refl) as (Ik & _). exists k. split; [assumption|]. intros ->.
    destruct (Best d v Hd Dd) as [->|(_ & Rw & _)]; [congruence|].
    assert (P : parse_package_name "scripts" = Ok ("scripts", "")) by reflexivity. apply parse_directory in P.
    destruct (directory_fun _ _ _ _ _ P Dk) as [<- <-]. now apply unreadable_empty.
  Qed.

  Theorem rebuild_forgets files h : (forall m n x, m !! n = Some x -> In n (listing m)) -> NoDup (h_dirs D h) ->
    snd (init_dbenv D true true h) = Ok tt -> (exists d, In d (h_dirs D h) /\ d <> "scripts") ->
    (exists e, snd (rebuild_db D blank listing add_repo files h) = Err e) /\
    forall n, In n databases -> doomed (files_wanted files h) n = true -> h_dbs D (final D (rebuild_db D blank listing add_repo files) h) !! n = Some blank.
  Proof.
    intros Ls ND H Ex. destruct (rebuild_prefix files h Ls H) as (h2 & F & R & (m & m' & E2) & L). rewrite F, R.
    assert (Ed : h_dirs D h2 = h_dirs D h) by (rewrite E2; reflexivity). rewrite <- Ed in ND, Ex.
    pose proof (clean_result (fun _ => ret D tt) h2 ND) as Cd.
    destruct (snd (clean_duplicates D h2)) as [[]|e] eqn:E.
    - pose proof (clean_leaves h2 ND E Ex) as Ex'. set (h3 := final D (clean_duplicates D) h2) in *.
      assert (Er : snd (reload_packages D h3) = Err EAttribute) by (rewrite reload_eq; now apply reload_result). split.
      + exists EAttribute. rewrite (andthen_ok _ _ _ _ E). cbn [snd]. fold h3. now rewrite (andthen_err _ _ _ _ Er).
      + intros n Hn Dn. rewrite (andthen_final _ _ _ _ E). fold h3. rewrite (andthen_final_err _ _ _ _ Er).
        assert (Fr : final D (reload_packages D) h3 = h3). { unfold final. rewrite reload_eq, reload_states. reflexivity. }
        rewrite Fr, Cd, L, Dn. rewrite bool_decide_true by (now apply elem_of_list_In); reflexivity.
    - split.
      + exists e. now rewrite (andthen_err _ _ _ _ E).
      + intros n Hn Dn. rewrite (andthen_final_err _ _ _ _ E), Cd, L, Dn. rewrite bool_decide_true by (now apply elem_of_list_In); reflexivity.
  Qed.

  (** Refused before anything is destroyed *)
  Theorem rebuild_refused files h e : snd (init_dbenv D true true h) = Err e ->
    snd (rebuild_db D blank listing add_repo files h) = Err e /\
    forall s, In s (fst (rebuild_db D blank listing add_repo files h)) -> h_dbs D s = h_dbs D h /\ h_dirs D s = h_dirs D h.
  Proof.
    intros H. rewrite rebuild_eq, (andthen_err _ _ _ _ H). split; [reflexivity|]. cbn [fst]. intros s Hs.
    apply init_states in Hs as (_ & _ & (m & ->) & _). auto.
  Qed.

  (** The databases the rebuild does not destroy *)
  Theorem rebuild_spares files h n x : (forall m n x, m !! n = Some x -> In n (listing m)) ->
    (forall r h', h_dbs D (final D (add_repo r) h') !! n = h_dbs D h' !! n) -> NoDup (h_dirs D h) ->
    doomed (files_wanted files h) n = false -> h_dbs D h !! n = Some x ->
    h_dbs D (final D (rebuild_db D blank listing add_repo files) h) !! n = Some x.
  Proof.
    intros Ls Ra ND Dn Hn. destruct (snd (init_dbenv D true true h)) as [[]|e] eqn:H.
    - destruct (rebuild_prefix files h Ls H) as (h2 & F & R & (m & m' & E2) & L). rewrite F.
      assert (Ed : h_dirs D h2 = h_dirs D h) by (rewrite E2; reflexivity). rewrite <- Ed in ND.
      pose proof (clean_result (fun _ => ret D tt) h2 ND) as Cd.
      assert (L2 : h_dbs D h2 !! n = Some x) by (now rewrite L, Dn, Hn).
      destruct (snd (clean_duplicates D h2)) as [[]|e] eqn:E.
      + rewrite (andthen_final _ _ _ _ E). set (h3 := final D (clean_duplicates D) h2) in *.
        assert (Fr : final D (reload_packages D) h3 = h3). { unfold final. rewrite reload_eq, reload_states. reflexivity. }
        destruct (snd (reload_packages D h3)) as [[]|e] eqn:Er.
        * rewrite (andthen_final _ _ _ _ Er), Fr. unfold reload_indices. rewrite ask_final.
          enough (G : forall l h', h_dbs D h' !! n = Some x -> h_dbs D (final D (each D (fun repo => andthen D (add_repo repo) (fun _ => raise D EAttribute)) l) h') !! n = Some x).
          { apply G. now rewrite Cd. }
          intros l. induction l as [|r l IH]; intros h' Hh; [exact Hh|]. cbn [each].
          assert (Fe : exists e, snd (andthen D (add_repo r) (fun _ : unit => raise D (A:=unit) EAttribute) h') = Err e).
          { destruct (snd (add_repo r h')) as [u|e] eqn:Ea; [rewrite (andthen_ok _ _ _ _ Ea)|rewrite (andthen_err _ _ _ _ Ea)]; eauto. }
          destruct Fe as (e & Fe). rewrite (andthen_final_err _ _ _ _ Fe).
          destruct (snd (add_repo r h')) as [u|e'] eqn:Ea.
          -- rewrite (andthen_final _ _ _ _ Ea). change (h_dbs D (final D (add_repo r) h') !! n = Some x). now rewrite Ra.
          -- rewrite (andthen_final_err _ _ _ _ Ea). now rewrite Ra.
        * rewrite (andthen_final_err _ _ _ _ Er), Fr. now rewrite Cd.
      + rewrite (andthen_final_err _ _ _ _ E). now rewrite Cd.
    - pose proof (rebuild_refused files h e H) as (_ & R). destruct (final_state (rebuild_db D blank listing add_repo files) h) as [->|Hin]; [assumption|].
      destruct (R _ Hin) as (-> & _). assumption.
  Qed.

  Theorem rebuild_nothing files h : (forall m n x, m !! n = Some x -> In n (listing m)) -> NoDup (h_dirs D h) ->
    snd (init_dbenv D true true h) = Ok tt -> (forall d, In d (h_dirs D h) -> d = "scripts") -> h_index D h = [] ->
    snd (rebuild_db D blank listing add_repo files h) = Ok tt.
  Proof.
    intros Ls ND H All Ix. destruct (rebuild_prefix files h Ls H) as (h2 & F & R & (m & m' & E2) & L). rewrite R.
    assert (Ed : h_dirs D h2 = h_dirs D h) by (rewrite E2; reflexivity). assert (Ei : h_index D h2 = []) by (rewrite E2; exact Ix).
    rewrite <- Ed in ND, All.
    assert (E : snd (clean_duplicates D h2) = Ok tt).
    { apply clean_ok_iff; [assumption|]. split.
      - intros d Hd. rewrite (All d Hd). exists "scripts", "". now apply parse_directory.
      - intros d d' n v v' H1 H2 Ne. rewrite (All d H1), (All d' H2) in Ne. congruence. }
    rewrite (andthen_ok _ _ _ _ E). cbn [snd]. destruct (clean_outcome h2 ND E) as ((l & E3) & Sub & _).
    set (h3 := final D (clean_duplicates D) h2) in *.
    assert (Er : reload_packages D h3 = ([], Ok tt)). { rewrite reload_eq. apply reload_nothing. auto. }
    assert (Er2 : snd (reload_packages D h3) = Ok tt) by now rewrite Er.
    rewrite (andthen_ok _ _ _ _ Er2). cbn [snd]. unfold final. rewrite Er. cbn [fst List.last]. unfold reload_indices. rewrite ask_eq.
    assert (Ei3 : h_index D h3 = []) by (rewrite E3; exact Ei). rewrite Ei3. reflexivity.
  Qed.
End rebuild.
