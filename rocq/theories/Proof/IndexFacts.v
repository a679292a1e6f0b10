(** * Making an index *)
From Coq Require Import String Ascii List Bool Lia.
From stdpp Require Import gmap strings.
From Verif Require Import Model.Py Model.Path Model.ItemByRepo Model.Package Model.ComponentDB Model.Databases Model.Index
  Spec.PathSpec Spec.ItemByRepoSpec Spec.DatabaseSpec Spec.IndexSpec Proof.PyFacts Proof.PathFacts Proof.ItemByRepoFacts Proof.ItemByRepoMain Proof.DatabaseFacts Proof.SearchSystem.
Open Scope string_scope.
Open Scope list_scope.

(** ** Names *)
Definition good (n : string) : Prop := n <> "" /\ free_of "/" n.
Lemma good_start n : good n -> py_startswith n "/" = false.
Proof.
  intros [N F]. destruct n as [|a n]; [congruence|]. destruct (py_startswith (String a n) "/") eqn:E; [|reflexivity]. exfalso. apply startswith_iff in E as [r E].
  injection E as -> ->. apply F. now left.
Qed.
Lemma os_join_under d n : d <> "" -> good n -> os_join d n = if ends_in_slash_dec d then (d +:+ n)%string else (d +:+ "/" +:+ n)%string.
Proof.
  intros D G. unfold os_join. rewrite (good_start _ G). rewrite (proj2 (String.eqb_neq d "") D). cbn [orb]. destruct (ends_in_slash_dec d) as [E|E].
  - assert (py_endswith d "/" = true) as ->; [|reflexivity]. apply endswith_iff. exact E.
  - destruct (py_endswith d "/") eqn:K; [|reflexivity]. apply endswith_iff in K. contradiction.
Qed.
Lemma split_good n : good n -> splitpath n = [n].
Proof. intros G. rewrite splitpath_plain; [apply split_no_sep, G|apply G|apply free_no_end; apply G]. Qed.
Lemma splitpath_join d n : d <> "" -> good n -> splitpath (os_join d n) = splitpath d ++ [n] /\ os_join d n <> "" /\ ~ ends_in_slash (os_join d n).
Proof.
  intros D G. rewrite (os_join_under _ _ D G). pose proof (free_no_end n (proj1 G) (proj2 G)) as NE.
  assert (Q : forall t, splitpath (t +:+ "/" +:+ n) = py_split slash t ++ [n] /\ (t +:+ "/" +:+ n)%string <> "" /\ ~ ends_in_slash (t +:+ "/" +:+ n)).
  { intros t. rewrite splitpath_app, (split_good _ G). split; [reflexivity|]. split; [destruct t; discriminate|]. intros K.
    apply ends_slash_app in K; [|discriminate]. apply (ends_slash_app "/" n) in K; [contradiction|apply G]. }
  destruct (ends_in_slash_dec d) as [[t ->]|E].
  - rewrite splitpath_slash, str_app_assoc. apply Q.
  - rewrite (splitpath_plain d D E). apply Q.
Qed.
Definition under (d : string) (path : list string) : string := fold_left os_join path d.
Lemma splitpath_under path : Forall good path -> forall d, d <> "" -> splitpath (under d path) = splitpath d ++ path /\ under d path <> "".
Proof.
  induction 1 as [|n path G _ IH]; intros d D; [rewrite app_nil_r; auto|]. cbn [under fold_left]. destruct (splitpath_join d n D G) as (S1 & S2 & _).
  destruct (IH _ S2) as [S3 S4]. unfold under in *. split; [|exact S4]. rewrite S3, S1, <- app_assoc. reflexivity.
Qed.
Lemma concat_join path : String.concat "/" path = py_join "/" path.
Proof. induction path as [|x [|y path] IH]; [reflexivity|reflexivity|]. cbn [String.concat py_join]. cbn [String.concat py_join] in IH. now rewrite IH. Qed.
Lemma address_under d path : path <> [] -> Forall good path -> d <> "" -> removepathprefix d (under d path) = Ok (relative_name path).
Proof.
  intros N G D. destruct (splitpath_under path G d D) as [S _]. unfold removepathprefix. rewrite S.
  rewrite (proj2 (remove_prefix_iff String.eqb string_eqb_iff (splitpath d) (splitpath d ++ path) path) eq_refl). cbn [bind].
  destruct path as [|c cs]; [congruence|]. apply Forall_cons in G as [G1 G2]. rewrite join_path_comps; [|apply G1|apply free_no_end; apply G1|exact G2].
  reflexivity.
Qed.
Lemma join_free d n : d <> "" -> good n -> stands_at d [n] (os_join d n).
Proof. intros D G. rewrite (os_join_under _ _ D G). unfold stands_at. change (relative_name [n]) with n. destruct (ends_in_slash_dec d); split; intros; try contradiction; reflexivity. Qed.
Lemma under_full path : path <> [] -> Forall good path -> forall d, d <> "" -> stands_at d path (under d path).
Proof.
  induction path as [|n path IH]; intros N G d D; [congruence|]. apply Forall_cons in G as [G1 G2]. destruct path as [|m path]; [now apply join_free|].
  destruct (splitpath_join d n D G1) as (_ & S2 & S3). destruct (IH ltac:(discriminate) G2 (os_join d n) S2) as [_ Q]. specialize (Q S3).
  destruct (join_free d n D G1) as [J1 J2]. change (under d (n :: m :: path)) with (under (os_join d n) (m :: path)). rewrite Q.
  assert (R : relative_name (n :: m :: path) = (n +:+ "/" +:+ relative_name (m :: path))%string) by reflexivity. change (relative_name [n]) with n in *.
  split; intros E; [rewrite (J1 E)|rewrite (J2 E)]; rewrite R, !str_app_assoc; reflexivity.
Qed.

(** ** The walk as a list *)
Section tree_ind.
  Context (P : tree -> Prop) (H : forall files subs, Forall (fun dt => P dt.2) subs -> P (Dir files subs)).
  Fixpoint tree_ind' (t : tree) : P t :=
    match t with
    | Dir files subs => H files subs ((fix go (l : list (string * tree)) : Forall (fun dt => P dt.2) l :=
        match l with [] => List.Forall_nil _ | x :: l => List.Forall_cons _ x l (tree_ind' x.2) (go l) end) subs)
    end.
End tree_ind.
Section walk.
  Context (nr : bool).
  Fixpoint paths (t : tree) : list (list string * content) :=
    match t with
    | Dir files subs =>
        map (fun f => ([f.1], f.2)) files ++
        (if nr then [] else flat_map (fun dt => map (fun pc => (dt.1 :: pc.1, pc.2)) (paths dt.2)) subs)
    end.
  Lemma paths_spec t : forall path c, In (path, c) (paths t) <-> looked_at nr t path c.
  Proof.
    induction t as [files subs IH] using tree_ind'. intros path c. cbn [paths]. rewrite in_app_iff, in_map_iff. unfold looked_at. split.
    - intros [([f c'] & [= <- <-] & K)|K]; [split; [now constructor|auto]|]. destruct nr eqn:NR; [destruct K|]. split; [|discriminate].
      apply in_flat_map in K as ([d t] & K1 & K2). apply in_map_iff in K2 as ([path' c'] & [= <- <-] & K2). rewrite List.Forall_forall in IH. apply (IH _ K1) in K2 as [K2 _].
      econstructor; [exact K1|exact K2].
    - intros [K L]. inversion K as [? ? f c0 K1 Ef Ec|? ? d t path' c0 K1 K2 Ef Ec]; subst.
      + left. exists (f, c). auto.
      + destruct nr eqn:NR.
        * specialize (L eq_refl). destruct path'; [inversion K2|discriminate].
        * right. apply in_flat_map. exists (d, t). split; [exact K1|]. apply in_map_iff. exists (path', c). split; [reflexivity|]. rewrite List.Forall_forall in IH. apply (IH _ K1). split; [exact K2|discriminate].
  Qed.
  Lemma file_at_good t path c : well_named t -> file_at t path c -> path <> [] /\ Forall good path.
  Proof.
    intros W K. induction K as [files subs f c I|files subs d t path c I K IH]; inversion W as [? ? W1 W2]; subst.
    - split; [discriminate|]. constructor; [exact (W1 _ _ I)|constructor].
    - destruct (W2 _ _ I) as (G1 & G2 & W'). destruct (IH W') as [_ G]. split; [discriminate|]. constructor; [split; assumption|exact G].
  Qed.
  Lemma paths_nodup t : told_apart t -> List.NoDup (map fst (paths t)).
  Proof.
    induction t as [files subs IH] using tree_ind'. intros T. inversion T as [? ? T1 T2 T3]; subst. cbn [paths]. rewrite map_app, map_map. cbn [fst].
    assert (A : List.NoDup (map (fun f : string * content => [f.1]) files)).
    { clear - T1. induction files as [|x files IH]; [constructor|]. apply NoDup_cons_iff in T1 as [N1 N2]. cbn [map]. apply NoDup_cons_iff. split; [|now apply IH].
      intros K. apply in_map_iff in K as (y & E & K). injection E as E. apply N1. apply in_map_iff. eauto. }
    destruct nr eqn:NR; [now rewrite app_nil_r|].
    assert (Top : forall t, ~ In [] (map fst (paths t))).
    { intros t K. apply in_map_iff in K as ([p c] & E & K). cbn [fst] in E. subst p. apply paths_spec in K as [K _]. inversion K. }
    assert (Hd : forall d p l, In (d :: p) (map fst (flat_map (fun dt : string * tree => map (fun pc => (dt.1 :: pc.1, pc.2)) (paths dt.2)) l)) -> exists t, In (d, t) l /\ In p (map fst (paths t))).
    { intros d p l K. apply in_map_iff in K as ([p' c] & E & K). cbn [fst] in E. subst p'. apply in_flat_map in K as ([d' t] & K1 & K2). apply in_map_iff in K2 as ([p'' c'] & E & K2). injection E as <- <- <-.
      exists t. split; [exact K1|]. apply in_map_iff. exists (p'', c'). auto. }
    assert (B : List.NoDup (map fst (flat_map (fun dt : string * tree => map (fun pc => (dt.1 :: pc.1, pc.2)) (paths dt.2)) subs))).
    { clear A T1 T. induction subs as [|[d t] subs IHs]; [constructor|]. cbn [flat_map]. rewrite map_app, map_map. cbn [fst snd]. apply NoDup_cons_iff in T2 as [N1 N2]. apply List.Forall_cons_iff in IH as [I1 I2].
      apply NoDup_ListNoDup, NoDup_app. split; [|split].
      - apply NoDup_ListNoDup. assert (Q : List.NoDup (map fst (paths t))) by (apply I1; apply (T3 d t); now left). cbn [snd] in I1.
        change (map (fun x : list string * content => d :: x.1) (paths t)) with (map (fun x => (fun p => d :: p) (fst x)) (paths t)). rewrite <- map_map. apply FinFun.Injective_map_NoDup; [|exact Q]. intros x y E. now injection E.
      - intros p K1 K2. apply elem_of_list_In in K1, K2. apply in_map_iff in K1 as (x & <- & K1). apply Hd in K2 as (t' & K2 & _). apply N1. apply in_map_iff. exists (d, t'). auto.
      - apply NoDup_ListNoDup, IHs; [exact I2|exact N2|]. intros d' t' K. apply (T3 d' t'). now right. }
    apply NoDup_ListNoDup, NoDup_app. split; [now apply NoDup_ListNoDup|]. split; [|now apply NoDup_ListNoDup].
    intros p K1 K2. apply elem_of_list_In in K1, K2. apply in_map_iff in K1 as (x & <- & K1). apply Hd in K2 as (t' & _ & K2). exact (Top t' K2).
  Qed.
End walk.

Section making.
  Context (absolute : option (string -> string)) (skip nr : bool).
  Notation one := (index_one absolute skip).
  Definition put_one (repo root : string) (ix : made) (pc : list string * content) : res made :=
    one repo (under root (removelast pc.1)) ix (List.last pc.1 "", pc.2).
  Lemma foldM_app {A S} (f : S -> A -> res S) l m s : foldM f (l ++ m) s = (s' <- foldM f l s ;; foldM f m s').
  Proof. revert s. induction l as [|x l IH]; intros s; [reflexivity|]. cbn [app foldM]. destruct (f s x); [apply IH|reflexivity]. Qed.
  Lemma foldM_map {A B S} (f : S -> B -> res S) (g : A -> B) l : forall s, foldM f (map g l) s = foldM (fun s a => f s (g a)) l s.
  Proof. induction l as [|x l IH]; intros s; [reflexivity|]. cbn [map foldM]. destruct (f s (g x)); [apply IH|reflexivity]. Qed.
  Lemma foldM_ext {A S} (f g : S -> A -> res S) l : (forall s x, In x l -> f s x = g s x) -> forall s, foldM f l s = foldM g l s.
  Proof. induction l as [|x l IH]; intros H s; [reflexivity|]. cbn [foldM]. rewrite H by now left. destruct (g s x); [|reflexivity]. cbn [bind]. apply IH. intros; apply H. now right. Qed.
  Lemma walk_list repo t : forall root ix, index_tree absolute skip nr repo root t ix = foldM (put_one repo root) (paths nr t) ix.
  Proof.
    induction t as [files subs IH] using tree_ind'. intros root ix. cbn [index_tree paths]. rewrite foldM_app, foldM_map.
    assert (E : foldM (fun s a => put_one repo root s ([a.1], a.2)) files ix = foldM (one repo root) files ix). { apply foldM_ext. intros s [f c] _. reflexivity. }
    rewrite E. destruct (foldM (one repo root) files ix) as [ix1|e]; [|reflexivity]. cbn [bind]. destruct nr eqn:NR; [reflexivity|]. clear E ix. revert ix1.
    induction subs as [|[d t] subs IHs]; intros ix1; [reflexivity|]. apply List.Forall_cons_iff in IH as [I1 I2]. cbn [flat_map snd fst]. rewrite foldM_app, foldM_map. cbn [snd] in I1. rewrite I1.
    assert (E : foldM (fun s a => put_one repo root s (d :: a.1, a.2)) (paths false t) ix1 = foldM (put_one repo (os_join root d)) (paths false t) ix1).
    { apply foldM_ext. intros s [p c] K. apply paths_spec in K as [K _]. unfold put_one. cbn [fst snd]. destruct p as [|x p]; [inversion K|]. reflexivity. }
    rewrite E. destruct (foldM (put_one repo (os_join root d)) (paths false t) ix1) as [ix2|e]; [|reflexivity]. cbn [bind]. apply IHs. exact I2.
  Qed.

  (** what one file adds *)
  Definition address_of (repo : string) (path : list string) : string :=
    match absolute with Some real => real (under repo path) | None => relative_name path end.
  Definition adds (repo : string) (pc : list string * content) (ix ix' : made) : Prop :=
    let name := List.last pc.1 "" in
    m_packages ix' = m_packages ix ++ (if py_endswith name ".pisi" then match f_package pc.2 with Ok (p, true) => [(p, address_of repo pc.1)] | _ => [] end else []) /\
    m_components ix' = m_components ix ++ (if String.eqb name "component.xml" then match f_component pc.2 with Ok x => [x] | _ => [] end else []) /\
    m_specs ix' = m_specs ix ++ (if String.eqb name "pspec.xml" && negb skip then match f_spec pc.2 with Ok x => [(x, address_of repo pc.1)] | _ => [] end else []).
  Lemma under_last d path : path <> [] -> os_join (under d (removelast path)) (List.last path "") = under d path.
  Proof. intros N. rewrite (app_removelast_last "" N) at 3. unfold under. rewrite fold_left_app. reflexivity. Qed.
  Lemma put_spec repo pc : repo <> "" -> pc.1 <> [] -> Forall good pc.1 -> forall ix,
    match put_one repo repo ix pc with
    | Ok ix' => readable_file skip pc.1 pc.2 /\ adds repo pc ix ix'
    | Err _ => ~ readable_file skip pc.1 pc.2
    end.
  Proof.
    destruct pc as [path c]. cbn [fst snd]. intros R N G ix. unfold put_one, index_one, adds, readable_file, file_name. cbn [fst snd]. cbv zeta. rewrite (under_last _ _ N).
    assert (A : address absolute repo (under repo path) = Ok (address_of repo path)). { unfold address, address_of. destruct absolute; [reflexivity|]. now apply address_under. }
    set (name := List.last path ""). unfold package_suffix.
    assert (EW : py_endswith name ".pisi" = true <-> ends_with name ".pisi") by apply endswith_iff.
    unfold index_package, index_component, index_spec, index_distro. rewrite A. cbn [bind].
    destruct (py_endswith name ".pisi") eqn:E1.
    - destruct (f_package c) as [[p b]|e] eqn:F1; cbn [bind fst snd].
      2: { intros (K & _). destruct (K (proj1 EW eq_refl)). discriminate. }
      assert (N1 : name <> "component.xml") by (intros K; rewrite K in E1; vm_compute in E1; discriminate).
      assert (N2 : name <> "pspec.xml") by (intros K; rewrite K in E1; vm_compute in E1; discriminate).
      assert (N3 : name <> "distribution.xml") by (intros K; rewrite K in E1; vm_compute in E1; discriminate).
      apply String.eqb_neq in N1 as M1. apply String.eqb_neq in N2 as M2. apply String.eqb_neq in N3 as M3.
      destruct b; cbn [bind]; rewrite M1; cbn [bind]; rewrite M2; cbn [andb bind]; rewrite M3; (split; [split; [eauto|split; [tauto|split; tauto]]|rewrite !app_nil_r; auto]).
    - assert (W : ~ ends_with name ".pisi") by (intros K; apply EW in K; discriminate). cbn [bind].
      destruct (String.eqb_spec name "component.xml") as [->|N1].
      + cbn [String.eqb]. destruct (f_component c) as [x|e] eqn:F1; cbn [bind].
        2: { intros (_ & K & _). destruct (K eq_refl). discriminate. }
        split; [split; [tauto|split; [eauto|split; discriminate]]|]. cbn. rewrite !app_nil_r. auto.
      + cbn [bind]. destruct (String.eqb_spec name "pspec.xml") as [->|N2].
        * cbn [andb]. destruct skip; cbn [negb bind].
          -- split; [split; [tauto|split; [tauto|split; [discriminate|discriminate]]]|]. rewrite !app_nil_r. auto.
          -- destruct (f_spec c) as [x|e] eqn:F1; cbn [bind].
             ++ split; [split; [tauto|split; [tauto|split; [eauto|discriminate]]]|]. cbn. rewrite !app_nil_r. auto.
             ++ intros (_ & _ & K & _). destruct (K eq_refl eq_refl). discriminate.
        * cbn [andb bind]. destruct (String.eqb_spec name "distribution.xml") as [->|N3].
          -- destruct (f_distro c) as [x|e] eqn:F1; cbn [bind].
             ++ split; [split; [tauto|split; [tauto|split; [tauto|eauto]]]|]. cbn. rewrite !app_nil_r. auto.
             ++ intros (_ & _ & _ & K). destruct (K eq_refl). discriminate.
          -- split; [split; [tauto|split; [tauto|split; tauto]]|]. rewrite !app_nil_r. auto.
  Qed.

  (** ** Everything *)
  Definition pk (x : string * (list string * content)) : list (package * string) :=
    if py_endswith (List.last x.2.1 "") ".pisi" then match f_package x.2.2 with Ok (p, true) => [(p, address_of x.1 x.2.1)] | _ => [] end else [].
  Definition cmp (x : string * (list string * content)) : list component :=
    if String.eqb (List.last x.2.1 "") "component.xml" then match f_component x.2.2 with Ok c => [c] | _ => [] end else [].
  Definition src (x : string * (list string * content)) : list (spec * string) :=
    if String.eqb (List.last x.2.1 "") "pspec.xml" && negb skip then match f_spec x.2.2 with Ok c => [(c, address_of x.1 x.2.1)] | _ => [] end else [].
  Definition proper (x : string * (list string * content)) : Prop := x.1 <> "" /\ x.2.1 <> [] /\ Forall good x.2.1.
  Lemma fold_made L : List.Forall proper L -> forall ix,
    match foldM (fun ix x => put_one x.1 x.1 ix x.2) L ix with
    | Ok ix' => List.Forall (fun x => readable_file skip x.2.1 x.2.2) L /\ m_packages ix' = m_packages ix ++ flat_map pk L /\
        m_components ix' = m_components ix ++ flat_map cmp L /\ m_specs ix' = m_specs ix ++ flat_map src L
    | Err _ => ~ List.Forall (fun x => readable_file skip x.2.1 x.2.2) L
    end.
  Proof.
    induction 1 as [|x L (P1 & P2 & P3) _ IH]; intros ix; cbn [foldM flat_map].
    - rewrite !app_nil_r. auto.
    - pose proof (put_spec x.1 x.2 P1 P2 P3 ix) as Q. destruct (put_one x.1 x.1 ix x.2) as [ix1|e]; cbn [bind].
      + destruct Q as (R & A1 & A2 & A3). specialize (IH ix1). destruct (foldM _ L ix1) as [ix2|e].
        * destruct IH as (I0 & I1 & I2 & I3). split; [now constructor|]. rewrite I1, A1, I2, A2, I3, A3, <- !app_assoc. auto.
        * intros K. apply IH. now inversion K.
      + intros K. apply Q. now inversion K.
  Qed.
  Definition given_dirs (dirs : list string) : list string := match dirs with [] => ["."] | _ => dirs end.
  Lemma given_spec dirs d : In d (given_dirs dirs) <-> gone_through dirs d.
  Proof. unfold gone_through. destruct dirs as [|x dirs]; cbn [given_dirs In]; [|split; [auto|intros [K|[K _]]; [exact K|discriminate]]]. split; [intros [<-|[]]; auto|intros [[]|[_ ->]]; auto]. Qed.
  Definition all_of (at_ : string -> tree) (dirs : list string) : list (string * (list string * content)) :=
    flat_map (fun d => map (pair d) (paths nr (at_ d))) dirs.
  Lemma make_list at_ dirs : make_index absolute skip nr at_ dirs = foldM (fun ix x => put_one x.1 x.1 ix x.2) (all_of at_ (given_dirs dirs)) no_index.
  Proof.
    unfold make_index. fold (given_dirs dirs). generalize no_index. induction (given_dirs dirs) as [|d l IH]; intros ix; [reflexivity|]. cbn [foldM all_of flat_map].
    rewrite foldM_app, foldM_map, walk_list. cbn [fst snd]. change (fun s a => put_one d d s a) with (put_one d d). destruct (foldM (put_one d d) (paths nr (at_ d)) ix) as [ix1|e]; [|reflexivity]. cbn [bind]. apply IH.
  Qed.
  Lemma in_all at_ l d path c : In (d, (path, c)) (all_of at_ l) <-> In d l /\ looked_at nr (at_ d) path c.
  Proof.
    unfold all_of. rewrite in_flat_map. split.
    - intros (d' & K1 & K2). apply in_map_iff in K2 as (pc & E & K2). injection E as <- ->. split; [exact K1|now apply paths_spec].
    - intros [K1 K2]. exists d. split; [exact K1|]. apply in_map_iff. exists (path, c). split; [reflexivity|now apply paths_spec].
  Qed.
  Context (at_ : string -> tree) (dirs : list string).
  Context (HD : forall d, gone_through dirs d -> d <> "" /\ well_named (at_ d)).
  Lemma all_proper : List.Forall proper (all_of at_ (given_dirs dirs)).
  Proof.
    apply List.Forall_forall. intros (d & path & c) K. apply in_all in K as [K1 [K2 _]]. apply given_spec in K1. destruct (HD d K1) as [H1 H2]. destruct (file_at_good _ _ _ H2 K2) as [H3 H4].
    split; [exact H1|]. split; [exact H3|exact H4].
  Qed.
  Lemma address_spec x uri : proper x -> (uri = address_of x.1 x.2.1 <-> addressed absolute x.1 x.2.1 uri).
  Proof.
    intros (P1 & P2 & P3). unfold address_of, addressed. destruct absolute as [real|]; [|reflexivity]. pose proof (under_full _ P2 P3 _ P1) as U. split.
    - intros ->. eauto.
    - intros (full & [F1 F2] & ->). f_equal. destruct U as [U1 U2]. destruct (ends_in_slash_dec x.1); [rewrite (F1 e), (U1 e)|rewrite (F2 n), (U2 n)]; reflexivity.
  Qed.
  Lemma made_succeeds : (exists ix, make_index absolute skip nr at_ dirs = Ok ix) <->
    forall d path c, gone_through dirs d -> looked_at nr (at_ d) path c -> readable_file skip path c.
  Proof.
    rewrite make_list. pose proof (fold_made _ all_proper no_index) as Q.
    assert (E : List.Forall (fun x => readable_file skip x.2.1 x.2.2) (all_of at_ (given_dirs dirs)) <-> forall d path c, gone_through dirs d -> looked_at nr (at_ d) path c -> readable_file skip path c).
    { rewrite List.Forall_forall. split.
      - intros K d path c K1 K2. apply (K (d, (path, c))). apply in_all. split; [now apply given_spec|exact K2].
      - intros K (d & path & c) I. apply in_all in I as [I1 I2]. apply given_spec in I1. exact (K d path c I1 I2). }
    rewrite <- E. destruct (foldM _ _ _) as [ix|e]; [split; [intros _; apply Q|eauto]|]. split; [intros [ix K]; discriminate|contradiction].
  Qed.
  Lemma made_lists ix : make_index absolute skip nr at_ dirs = Ok ix -> let L := all_of at_ (given_dirs dirs) in
    m_packages ix = flat_map pk L /\ m_components ix = flat_map cmp L /\ m_specs ix = flat_map src L.
  Proof. rewrite make_list. intros K. pose proof (fold_made _ all_proper no_index) as Q. rewrite K in Q. apply Q. Qed.
  Lemma made_packages ix p uri : make_index absolute skip nr at_ dirs = Ok ix -> (In (p, uri) (m_packages ix) <-> package_found absolute nr at_ dirs p uri).
  Proof.
    intros K. apply made_lists in K as (-> & _ & _). rewrite in_flat_map. pose proof all_proper as AP. rewrite List.Forall_forall in AP. split.
    - intros ((d & path & c) & I & J). pose proof (AP _ I) as PR. apply in_all in I as [I1 I2]. apply given_spec in I1. unfold pk in J. cbn [fst snd] in J.
      destruct (py_endswith _ _) eqn:E; [|destruct J]. destruct (f_package c) as [[p' []]|e] eqn:F; cbn [In] in J; try contradiction. destruct J as [J|[]]. injection J as -> J.
      exists d, path, c. split; [exact I1|]. split; [exact I2|]. split; [now apply endswith_iff in E|]. split; [exact F|]. apply (address_spec (d, (path, c))); [exact PR|]. now symmetry.
    - intros (d & path & c & I1 & I2 & E & F & A). assert (I : In (d, (path, c)) (all_of at_ (given_dirs dirs))) by (apply in_all; split; [now apply given_spec|exact I2]).
      exists (d, (path, c)). split; [exact I|]. unfold pk. cbn [fst snd]. unfold file_name in E. rewrite (proj2 (endswith_iff _ _) E). rewrite F. left. f_equal. symmetry. apply (address_spec (d, (path, c))); [exact (AP _ I)|exact A].
  Qed.
  Lemma made_components ix x : make_index absolute skip nr at_ dirs = Ok ix -> (In x (m_components ix) <-> component_found nr at_ dirs x).
  Proof.
    intros K. apply made_lists in K as (_ & -> & _). rewrite in_flat_map. split.
    - intros ((d & path & c) & I & J). apply in_all in I as [I1 I2]. apply given_spec in I1. unfold cmp in J. cbn [fst snd] in J.
      destruct (String.eqb_spec (List.last path "") "component.xml") as [E|E]; [|destruct J]. destruct (f_component c) as [y|e] eqn:F; cbn [In] in J; try contradiction. destruct J as [->|[]].
      exists d, path, c. auto.
    - intros (d & path & c & I1 & I2 & E & F). exists (d, (path, c)). split; [apply in_all; split; [now apply given_spec|exact I2]|]. unfold cmp. cbn [fst snd]. unfold file_name in E. rewrite E. cbn [String.eqb]. rewrite F. now left.
  Qed.
  Lemma made_specs ix x uri : make_index absolute skip nr at_ dirs = Ok ix -> (In (x, uri) (m_specs ix) <-> skip = false /\ source_found absolute nr at_ dirs x uri).
  Proof.
    intros K. apply made_lists in K as (_ & _ & ->). rewrite in_flat_map. pose proof all_proper as AP. rewrite List.Forall_forall in AP. split.
    - intros ((d & path & c) & I & J). pose proof (AP _ I) as PR. apply in_all in I as [I1 I2]. apply given_spec in I1. unfold src in J. cbn [fst snd] in J.
      destruct (String.eqb_spec (List.last path "") "pspec.xml") as [E|E]; [|destruct J]. destruct skip; cbn [andb negb] in J; [destruct J|]. destruct (f_spec c) as [y|e] eqn:F; cbn [In] in J; try contradiction. destruct J as [J|[]]. injection J as -> J.
      split; [reflexivity|]. exists d, path, c. split; [exact I1|]. split; [exact I2|]. split; [exact E|]. split; [exact F|]. apply (address_spec (d, (path, c))); [exact PR|]. now symmetry.
    - intros (SK & d & path & c & I1 & I2 & E & F & A). assert (I : In (d, (path, c)) (all_of at_ (given_dirs dirs))) by (apply in_all; split; [now apply given_spec|exact I2]).
      exists (d, (path, c)). split; [exact I|]. unfold src. cbn [fst snd]. unfold file_name in E. rewrite E, F, String.eqb_refl, SK. cbn [andb negb In]. left. f_equal. symmetry. apply (address_spec (d, (path, c))); [exact (AP _ I)|exact A].
  Qed.
End making.
