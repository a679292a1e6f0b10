(** * What an installation does to the file system *)
From Coq Require Import String Ascii List Bool Arith Lia.
From stdpp Require Import gmap strings.
From Verif Require Import Proof.GraphFacts.
From Verif Require Import Model.Py Model.ItemByRepo Model.Dependency Model.Package Model.ComponentDB Model.Databases
  Model.InstallDB Model.System Model.Graph Model.Plan Model.Path Model.Fs Model.Ops Model.Check
  Spec.PathSpec Spec.FsSpec Spec.OpsSpec Spec.PackSpec
  Proof.PyFacts Proof.PathFacts Proof.FsFacts Proof.OpsFacts Proof.RemoveFiles Proof.KeepConfig Proof.CheckFacts.
Open Scope string_scope.

Lemma above_irrefl p : ~ above p p.
Proof. intros [r E]. apply (f_equal String.length) in E. rewrite !str_app_length in E. cbn in E. lia. Qed.

(** ** New directories *)
Lemma makedirs_new n : forall f d f' q, makedirs n f d = Ok f' -> f' !! q = f !! q \/ f' !! q = Some NDir.
Proof.
  induction n as [|n IH]; intros f d f' q H; simpl in H; destruct (node_at f d) as [[]|] eqn:N; try discriminate; try (injection H as <-; now left).
  apply Proof.DatabaseFacts.bind_ok in H as (f1 & H & [= <-]). destruct (decide (q = d)) as [->|Hq]; [right; apply lookup_insert|].
  rewrite lookup_insert_ne by congruence. eauto.
Qed.
Lemma zip_new dest p e f f' q : destination dest -> relative_path p -> unpack_zip dest (p, e) f = Ok f' -> q <> located dest p ->
  f' !! q = f !! q \/ f' !! q = Some NDir \/ ((exists t, e = ALink t) /\ above (located dest p) q).
Proof.
  intros D R H Hq. unfold unpack_zip in H. cbn [fst snd] in H. rewrite join_located in H by assumption. set (P := located dest p) in *.
  assert (CD : forall f1 f2 : fs, check_dir f (dirname P) = Ok f1 -> (if isfile f1 P || islink f1 P then unlink f1 P else Ok f1) = Ok f2 -> f2 !! q = f !! q \/ f2 !! q = Some NDir).
  { intros f1 f2 H1 H2. assert (K : f2 !! q = f1 !! q). { destruct (_ || _); [apply unlink_ok in H2 as (_ & ->); now rewrite lookup_delete_ne by congruence|now injection H2 as <-]. }
    rewrite K. eapply makedirs_new; eauto. }
  destruct e as [x| |t].
  - apply Proof.DatabaseFacts.bind_ok in H as (f1 & H1 & H). apply Proof.DatabaseFacts.bind_ok in H as (f2 & H2 & H). specialize (CD f1 f2 H1 H2).
    destruct (node_at f2 P) as [[]|]; try discriminate; injection H as <-; rewrite lookup_insert_ne by congruence; destruct CD; auto.
  - destruct (isdir f P); [injection H as <-; auto|]. destruct (makedirs_new _ _ _ _ q H); auto.
  - apply Proof.DatabaseFacts.bind_ok in H as (f1 & H1 & H). apply Proof.DatabaseFacts.bind_ok in H as (f2 & H2 & H). specialize (CD f1 f2 H1 H2). cbv zeta in H.
    destruct (node_at _ P); [discriminate|]. injection H as <-. rewrite lookup_insert_ne by congruence.
    destruct (isdir f2 P); [|destruct CD; auto]. destruct (under P q) eqn:Un; [apply under_iff' in Un as [Un|Un]; [congruence|eauto 6]|].
    assert (K : rmtree f2 P !! q = f2 !! q).
    { unfold rmtree. destruct (f2 !! q) as [x|] eqn:E; [now apply map_filter_lookup_Some|]. apply map_filter_lookup_None. auto. }
    rewrite K. destruct CD; auto.
Qed.
Lemma tar_new dest p e f f' q : destination dest -> relative_path p -> unpack_tar dest (p, e) f = Ok f' -> q <> located dest p ->
  f' !! q = f !! q \/ f' !! q = Some NDir.
Proof.
  intros D R H Hq. unfold unpack_tar in H. cbn [fst snd] in H. rewrite join_located in H by assumption. set (P := located dest p) in *. cbv zeta in H.
  apply Proof.DatabaseFacts.bind_ok in H as (f2 & H2 & H). apply (makedirs_new _ _ _ _ q) in H2. rewrite (tar_clear f P q _ eq_refl Hq) in H2.
  assert (K : f' !! q = f2 !! q).
  { destruct e as [x| |t]; destruct (node_at f2 P) as [[]|]; try discriminate H; injection H as <-; try reflexivity; now rewrite lookup_insert_ne by congruence. }
  now rewrite K.
Qed.
(** One member: elsewhere only new directories on the way, and what lies below a link from a
    zip file *)
Lemma unpack_step fmt dest p e f f' q : destination dest -> relative_path p -> unpack_one fmt dest (p, e) f = Ok f' -> q <> located dest p ->
  f' !! q = f !! q \/ (f !! q = None /\ f' !! q = Some NDir /\ above q (located dest p)) \/ (fmt = Zip /\ (exists t, e = ALink t) /\ above (located dest p) q).
Proof.
  intros D R H Hq. destruct fmt; cbn [unpack_one] in H.
  - destruct (zip_only _ _ _ _ _ q D R H Hq) as [K|[[K A]|K]]; [auto| |auto]. destruct (zip_new _ _ _ _ _ q D R H Hq) as [N|[N|N]]; auto.
  - destruct (tar_only _ _ _ _ _ q D R H Hq) as [K|[K A]]; [auto|]. destruct (tar_new _ _ _ _ _ q D R H Hq) as [N|N]; auto.
Qed.
Lemma node_at_located f dest p : destination dest -> relative_path p -> node_at f (located dest p) = f !! located dest p.
Proof. intros D R. apply node_at_map, absolute_root, located_absolute; assumption. Qed.
Lemma stat_none f p : node_at f p = None -> stat f p = None.
Proof. intros H. unfold stat. cbn [follow]. now rewrite H. Qed.
Lemma stat_dir f p : node_at f p = Some NDir -> stat f p = Some NDir.
Proof. intros H. unfold stat. cbn [follow]. now rewrite H. Qed.
(** A directory member where nothing, or a directory, is *)
Lemma unpack_dir fmt dest p f f' : destination dest -> relative_path p -> f !! located dest p = None \/ f !! located dest p = Some NDir ->
  unpack_one fmt dest (p, ADir) f = Ok f' -> f' !! located dest p = Some NDir.
Proof.
  intros D R B H. pose proof (located_absolute dest p D R) as A. destruct fmt; cbn [unpack_one] in H.
  - unfold unpack_zip in H. cbn [fst snd] in H. rewrite join_located in H by assumption. set (P := located dest p) in *.
    destruct B as [B|B].
    + unfold isdir in H. rewrite stat_none in H by (rewrite node_at_map by (now apply absolute_root); exact B).
      destruct (String.length P) as [|n]; simpl in H; (rewrite node_at_map in H by (now apply absolute_root)); rewrite B in H; [discriminate|].
      apply Proof.DatabaseFacts.bind_ok in H as (f1 & _ & [= <-]). apply lookup_insert.
    + unfold isdir in H. rewrite stat_dir in H by (rewrite node_at_map by (now apply absolute_root); exact B). now injection H as <-.
  - unfold unpack_tar in H. cbn [fst snd] in H. rewrite join_located in H by assumption. set (P := located dest p) in *. cbv zeta in H.
    assert (NA : node_at f P = f !! P) by (apply node_at_map; now apply absolute_root).
    assert (E : (isfile f P || islink f P) = false).
    { unfold isfile, islink. rewrite NA. destruct B as [B|B]; [rewrite stat_none by congruence|rewrite stat_dir by congruence]; rewrite B; reflexivity. }
    rewrite E in H. apply Proof.DatabaseFacts.bind_ok in H as (f2 & H2 & H). apply (check_dir_only _ _ _ P A) in H2 as [H2|[_ H2]]; [|now apply above_irrefl in H2].
    rewrite node_at_map in H by (now apply absolute_root). rewrite H2 in H. destruct B as [B|B]; rewrite B in *; injection H as <-; [apply lookup_insert|exact H2].
Qed.

(** ** The installation as a whole *)
Section frame.
  Context (h : host) (o : opts) (D : destination (o_dest o)) (k : pkgfile) (Rf : forall fi, In fi (k_files k) -> relative_path (f_path fi)).
  Definition suffix (s : string) : Prop := s = "" \/ s = ".old" \/ s = ".newconfig".
  (** [P] does not mind what happens to the names beside a configuration file *)
  Definition careless (P : fs -> Prop) (fi : finfo) : Prop :=
    forall s f, suffix s -> P f -> P (delete (located (o_dest o) (f_path fi) +:+ s) f) /\ forall n, P (<[located (o_dest o) (f_path fi) +:+ s := n]> f).
  (** ... to put a configuration file aside *)
  Definition lenient (P : fs -> Prop) (fi : finfo) : Prop :=
    forall s f, suffix s -> P f -> P (delete (located (o_dest o) (f_path fi) +:+ s) f) /\ forall n, s <> "" -> P (<[located (o_dest o) (f_path fi) +:+ s := n]> f).
  Lemma careless_lenient P fi : careless P fi -> lenient P fi.
  Proof. intros H s f Hs Hp. destruct (H s f Hs Hp). auto. Qed.
  Definition absent (P : fs -> Prop) (fi : finfo) : Prop :=
    forall f, P f -> f !! located (o_dest o) (f_path fi) = None \/ f !! located (o_dest o) (f_path fi) = Some NDir.

  Context (J P Q : fs -> Prop) (PJ : forall f, P f -> J f) (QJ : forall f, Q f -> J f).
  Context (C : forall fi, In fi (k_files k) -> is_config fi -> (lenient P fi /\ careless Q fi) \/ absent P fi).
  Definition put_by (ch : list string) : Prop := forall x, In x ch -> exists fi, In fi (k_files k) /\ lenient P fi /\ careless Q fi /\ x = located (o_dest o) (f_path fi).
  Lemma lenient0 R fi : lenient R fi -> forall f, R f -> R (delete (located (o_dest o) (f_path fi)) f).
  Proof. intros K f Hf. specialize (K "" f (or_introl eq_refl) Hf). rewrite str_app_nil_r in K. apply K. Qed.
  Lemma careless0 R fi : careless R fi -> forall f, R f -> R (delete (located (o_dest o) (f_path fi)) f) /\ forall n, R (<[located (o_dest o) (f_path fi) := n]> f).
  Proof. intros K f Hf. specialize (K "" f (or_introl eq_refl) Hf). now rewrite str_app_nil_r in K. Qed.
  Lemma e_keep ch fi hash : put_by ch -> In fi (k_files k) -> is_config fi ->
    triple J P (keep_config h o ch (f_path fi) hash) (fun ch' f => P f /\ put_by ch').
  Proof.
    intros Hc Hf Cf. unfold keep_config. rewrite join_located by auto. cbv zeta. destruct (C fi Hf Cf) as [[CP CQ]|A].
    - apply (t_bind _ _ _ (fun _ => P)); [apply t_look; auto|]. intros [x|]; [|apply t_ret; auto]. destruct (bool_decide _); [apply t_ret; auto|].
      apply (t_bind _ _ _ (fun _ => P)); [|intros _; apply t_ret; intros f Hp; split; [auto|]; split; [exact Hp|]; intros y Hy; apply in_app_iff in Hy as [Hy|[<-|[]]]; [auto|eauto 6]].
      unfold put_aside. apply (t_bind _ _ _ (fun _ => P)).
      + apply t_touch; [exact PJ|]. intros f f' Hp H. assert (K : P f'); [|auto]. destruct (exists_ f _); [apply unlink_ok in H as [_ ->]; apply CP; [right; auto|exact Hp]|now injection H as <-].
      + intros _. apply t_touch; [exact PJ|]. intros f f' Hp H. assert (K : P f'); [|auto]. apply rename_ok in H as (n & _ & _ & ->). apply CP; [right; auto| |discriminate]. now apply (lenient0 P fi CP).
    - apply (t_bind _ _ _ (fun hs f => hs = None /\ P f)).
      + apply t_look. intros f Hp. split; [auto|]. split; [|exact Hp]. unfold sha1_file.
        destruct (A f Hp) as [K|K]; [rewrite stat_none|rewrite stat_dir]; try reflexivity; rewrite node_at_located by auto; exact K.
      + intros hs w [-> Hp]. apply (t_ret J P ch (fun ch' f => P f /\ put_by ch')); [auto|exact Hp].
  Qed.
  Lemma e_configs pairs : (forall a b, In (a, b) pairs -> In a (k_files k)) -> forall ch, put_by ch ->
    triple J P (keep_configs h o pairs ch) (fun ch' f => P f /\ put_by ch').
  Proof.
    induction pairs as [|[a b] pairs IH]; intros H ch Hc; cbn [keep_configs]; [apply t_ret; auto|]. destruct (String.eqb (f_path a) (f_path b)) eqn:E; [|now apply t_throw]. apply String.eqb_eq in E.
    apply (t_bind _ _ _ (fun ch' f => P f /\ put_by ch')).
    - destruct (String.eqb (f_type a) "config") eqn:Ea; cbn [andb]; [|apply t_ret; auto]. destruct (String.eqb (f_type b) "config"); [|apply t_ret; auto].
      rewrite <- E. apply e_keep; [exact Hc|eapply H; left; reflexivity|now apply String.eqb_eq].
    - intros ch' w [Hp Hw]. exact (IH (fun a b K => H a b (or_intror K)) ch' Hw w Hp).
  Qed.
  Lemma e_stray files : (forall a, In a files -> In a (k_files k)) -> forall ch, put_by ch ->
    triple J P (keep_stray h o files ch) (fun ch' f => P f /\ put_by ch').
  Proof.
    induction files as [|a files IH]; intros H ch Hc; cbn [keep_stray]; [apply t_ret; auto|].
    apply (t_bind _ _ _ (fun ch' f => P f /\ put_by ch')).
    - destruct (String.eqb (f_type a) "config") eqn:Ea; [|apply t_ret; auto]. apply e_keep; [exact Hc|apply H; left; reflexivity|now apply String.eqb_eq].
    - intros ch' w [Hp Hw]. exact (IH (fun a K => H a (or_intror K)) ch' Hw w Hp).
  Qed.
  Lemma e_restore x fi : careless Q fi -> x = located (o_dest o) (f_path fi) -> triple J Q (restore_config x) (fun _ => Q).
  Proof.
    intros CQ ->. unfold restore_config. apply (t_bind _ _ _ (fun _ => Q)).
    { apply t_touch; [exact QJ|]. intros f f' Hp H. assert (K : Q f'); [|auto]. destruct (exists_ f _); [apply unlink_ok in H as [_ ->]; apply CQ; [right; auto|exact Hp]|now injection H as <-]. }
    intros _. apply (t_bind _ _ _ (fun _ => Q)).
    - apply t_touch; [exact QJ|]. intros f f' Hp H. assert (K : Q f'); [|auto]. apply rename_ok in H as (n & _ & _ & ->). apply CQ; [right; auto|]. now apply (careless0 Q fi CQ).
    - intros _. apply t_touch; [exact QJ|]. intros f f' Hp H. assert (K : Q f'); [|auto]. apply rename_ok in H as (n & _ & _ & ->). apply (careless0 Q fi CQ). apply CQ; [right; auto|exact Hp].
  Qed.
  Context (Un : triple J P (eachM (fun pe => touch (unpack_one (k_format k) (o_dest o) pe)) (k_data k)) (fun _ => Q)).
  Lemma e_extract old : triple J P (extract_install h o k old) (fun _ => Q).
  Proof.
    unfold extract_install. cbv zeta. apply (t_bind _ _ _ (fun ch f => P f /\ put_by ch)).
    { destruct old as [old|]; [|apply e_stray; [auto|intros x []]]. apply e_configs; [|intros x []]. intros a b Hab. apply elem_of_list_In, elem_of_zip_l, elem_of_list_In, filter_In in Hab as [Hab _].
      now rewrite sort_perm in Hab. }
    intros ch w [Hp Hc]. revert w Hp. change (triple J P (do! eachM (fun pe => touch (unpack_one (k_format k) (o_dest o) pe)) (k_data k) in do! eachM restore_config ch in
        match old with Some old => if existsb (fun x => negb (has_path (k_files k) x)) old then throw EType else ret tt | None => ret tt end) (fun _ => Q)).
    apply (t_bind _ _ _ (fun _ => Q)); [exact Un|]. intros _. apply (t_bind _ _ _ (fun _ => Q)).
    - apply t_each; [exact QJ|]. intros x Hx. destruct (Hc x Hx) as (fi & A & B & B' & E). now apply (e_restore x fi).
    - intros _. destruct old as [old|]; [destruct (existsb _ _); [now apply t_throw|]|]; apply t_ret; auto.
  Qed.
  Lemma e_install i a : triple J P (install_package h o k i a) (fun _ => Q).
  Proof.
    unfold install_package. cbv zeta. apply (t_bind _ _ _ (fun _ => P)); [apply still_t; [auto|apply s_relations]|]. intros _.
    apply (t_bind _ _ _ (fun _ => P)); [apply still_t; [auto|apply s_reinstall]|]. intros old.
    apply (t_bind _ _ _ (fun _ => Q)); [apply e_extract|]. intros _.
    apply (t_bind _ _ _ (fun _ => Q)); [apply still_t; [auto|apply s_store]|]. intros _.
    apply still_t; [auto|]. apply s_bind; [destruct (o_comar o); [apply s_hook|apply s_ret]|]. intros _. apply s_bind; [apply s_commit|]. intros _. apply s_note.
  Qed.
End frame.

(** ** Nothing else is touched *)
Section untouched.
  Context (h : host) (o : opts) (D : destination (o_dest o)) (k : pkgfile) (R : relative_paths k) (f0 : fs).
  Definition its_own (q : string) : Prop := own_place (o_dest o) k q \/ (k_format k = Zip /\ below_a_link (o_dest o) k q).
  Definition framed (f : fs) : Prop :=
    forall q, its_own q \/ f !! q = f0 !! q \/ (f0 !! q = None /\ f !! q = Some NDir /\ on_the_way (o_dest o) k q).
  Lemma framed_careless fi : In fi (k_files k) -> is_config fi -> careless o framed fi.
  Proof.
    intros Hf Cf s f Hs Hp. assert (O : its_own (located (o_dest o) (f_path fi) +:+ s)). { left. right. exists (f_path fi), s. rewrite located_app. split; [now exists fi|]. auto. }
    split; [|intros n]; intros q; (destruct (decide (q = located (o_dest o) (f_path fi) +:+ s)) as [->|N]; [now left|]); [rewrite lookup_delete_ne by congruence|rewrite lookup_insert_ne by congruence]; apply Hp.
  Qed.
  Lemma framed_unpack : triple framed framed (eachM (fun pe => touch (unpack_one (k_format k) (o_dest o) pe)) (k_data k)) (fun _ => framed).
  Proof.
    apply t_each; [auto|]. intros [p e] Hp. apply t_touch; [auto|]. intros f f' Hf U. assert (K : framed f'); [|auto]. intros q.
    destruct (decide (q = located (o_dest o) p)) as [->|N]; [left; left; left; eauto|]. destruct R as [_ Rd].
    destruct (unpack_step _ _ _ _ _ _ q D (Rd p e Hp) U N) as [E|[(E1 & E2 & E3)|(E1 & (t & ->) & E3)]].
    - rewrite E. apply Hf.
    - destruct (Hf q) as [K|[K|(K1 & K2 & K3)]]; [now left| |congruence]. right. right. split; [congruence|]. split; [exact E2|]. exists p, e. auto.
    - left. right. split; [exact E1|]. exists p, t. auto.
  Qed.
  Lemma framed_install i a w : w_fs w = f0 -> all_along framed w (install_package h o k i a w).1.
  Proof.
    intros E. assert (T : triple framed framed (install_package h o k i a) (fun _ => framed)).
    { apply e_install; [exact D|apply R|auto|auto| |apply framed_unpack]. intros fi Hf Cf. left. split; [apply careless_lenient|]; now apply framed_careless. }
    apply T. intros q. right. left. now rewrite E.
  Qed.
End untouched.

(** ** What is there afterwards *)
Section afterwards.
  Context (h : host) (o : opts) (D : destination (o_dest o)) (k : pkgfile) (O : in_order k) (p : string) (e : Fs.entry) (I : In (p, e) (k_data k)).
  Notation L := (located (o_dest o) p).
  Definition installed_as (e : Fs.entry) : node := match e with AFile c => NFile c | ALink g => NLink g | ADir => NDir end.
  (** What may be at its place before *)
  Definition fit (n : option node) : Prop := listed_config k p \/ e = ADir -> n = None \/ (n = Some NDir /\ e = ADir).
  Lemma p_ok : relative_path p /\ ~ side_name p. Proof. destruct O as (_ & _ & _ & H & _). exact (H _ _ I). Qed.
  Lemma elsewhere fi s : In fi (k_files k) -> suffix s -> located (o_dest o) (f_path fi) +:+ s = L -> f_path fi = p.
  Proof.
    intros Hf Hs E. rewrite <- located_app in E. apply located_inj in E. destruct Hs as [->|[->| ->]]; [now rewrite str_app_nil_r in E| |];
      exfalso; apply p_ok; exists (f_path fi); auto.
  Qed.
  Lemma other_place fi : In fi (k_files k) -> f_path fi <> p -> forall (X : option node -> Prop), careless o (fun f => X (f !! L)) fi.
  Proof.
    intros Hf N X s f Hs HX. assert (K : located (o_dest o) (f_path fi) +:+ s <> L) by (intros E; exact (N (elsewhere fi s Hf Hs E))).
    split; [now rewrite lookup_delete_ne by exact K|]. intros n. now rewrite lookup_insert_ne by exact K.
  Qed.
  Lemma other_member (X : option node -> Prop) p' e' : In (p', e') (k_data k) -> p' <> p -> (X None -> e = ADir -> X (Some NDir)) ->
    triple (fun _ => True) (fun f => X (f !! L)) (touch (unpack_one (k_format k) (o_dest o) (p', e'))) (fun _ f => X (f !! L)).
  Proof.
    intros I' N HX. apply t_touch; [auto|]. intros f f' Hf U. split; [exact Logic.I|]. destruct O as (_ & _ & _ & K1 & K2). destruct (K1 _ _ I') as [R' _].
    destruct (unpack_step _ _ _ _ _ _ L D R' U) as [E|[(E1 & E2 & E3)|(_ & (t & ->) & E3)]].
    - intros E. apply located_inj in E. congruence.
    - now rewrite E.
    - apply above_located in E3. rewrite E2. rewrite E1 in Hf. exact (HX Hf (K2 _ _ _ _ I I' E3)).
    - apply above_located in E3. pose proof (K2 _ _ _ _ I' I E3). congruence.
  Qed.
  Lemma unpack_this f f' : fit (f !! L) -> unpack_one (k_format k) (o_dest o) (p, e) f = Ok f' -> f' !! L = Some (installed_as e).
  Proof.
    intros B U. destruct p_ok as [Rp _]. destruct e as [c| |g] eqn:Ee; cbn [installed_as].
    - eapply unpack_file; eauto.
    - eapply unpack_dir; eauto. destruct (B (or_intror Ee)) as [K|[K _]]; auto.
    - eapply (unpack_link o D k); eauto.
  Qed.
  Lemma there i a w w' : fit (w_fs w !! L) -> install_package h o k i a w = (w', Ok tt) -> w_fs w' !! L = Some (installed_as e).
  Proof.
    intros B H. pose proof p_ok as [Rp Sp]. assert (Nd : NoDup (map fst (k_data k))) by apply O. assert (Rf : forall fi, In fi (k_files k) -> relative_path (f_path fi)) by (intros fi Hf; now apply O).
    assert (Split : exists d1 d2, k_data k = (d1 ++ (p, e) :: d2)%list /\ (forall q x, In (q, x) d1 \/ In (q, x) d2 -> q <> p)).
    { apply in_split in I as (d1 & d2 & E). exists d1, d2. split; [exact E|]. intros q x Hx ->. rewrite E, map_app in Nd. cbn [map fst] in Nd. apply NoDup_app in Nd as (_ & Q1 & Q2). apply NoDup_cons in Q2 as [Q2 _].
      destruct Hx as [Hx|Hx]; [apply (Q1 p); [apply elem_of_list_In, in_map_iff; exists (p, x); auto|left]|apply Q2, elem_of_list_In, in_map_iff; exists (p, x); auto]. }
    destruct Split as (d1 & d2 & Ed & Nq).
    assert (Sub : forall q x, In (q, x) d1 \/ In (q, x) d2 -> In (q, x) (k_data k)) by (intros q x Hx; rewrite Ed; apply in_or_app; destruct Hx; [left|right; right]; assumption).
    assert (T : triple (fun _ => True) (fun f => fit (f !! L)) (install_package h o k i a) (fun _ f => f !! L = Some (installed_as e))).
    2: { destruct (T w B) as [_ K]. rewrite H in K. exact (K tt eq_refl). }
    apply e_install; [exact D|exact Rf|auto|auto| |].
    - intros fi Hf Cf. destruct (decide (f_path fi = p)) as [E|N].
      + right. intros f Hx. rewrite E. destruct (Hx (or_introl (ex_intro _ fi (conj Hf (conj E Cf))))) as [K|[K _]]; auto.
      + left. split; [exact (careless_lenient o _ fi (other_place fi Hf N fit))|exact (other_place fi Hf N (fun n => n = Some (installed_as e)))].
    - rewrite Ed. apply t_each_split; [auto|auto| | |].
      + intros [q x] Hx. apply (other_member fit); [auto|eauto|]. intros _ E _. auto.
      + apply t_touch; [auto|]. intros f f' Hx U. split; [exact Logic.I|]. exact (unpack_this f f' Hx U).
      + intros [q x] Hx. apply (other_member (fun n => n = Some (installed_as e))); [auto|eauto|]. discriminate.
  Qed.
End afterwards.

(** ** Both formats *)
Lemma dir_shorter d : d = "/" \/ absolute d -> (dirname d = "/" \/ absolute (dirname d)) /\ (String.length (dirname d) <= String.length d)%nat.
Proof. intros [->|A]; [cbn; auto|]. destruct (absolute_dirname d A) as [H L]. split; [exact H|lia]. Qed.
Lemma makedirs_fuel n : forall m f d, d = "/" \/ absolute d -> (String.length d <= n)%nat -> (String.length d <= m)%nat -> makedirs n f d = makedirs m f d.
Proof.
  induction n as [|n IH]; intros [|m] f d A Ln Lm; cbn [makedirs]; destruct (node_at f d) as [[]|] eqn:N; try reflexivity.
  - destruct d; [|cbn in Ln; lia]. destruct A as [A|[r [_ A]]]; discriminate A.
  - destruct d; [|cbn in Lm; lia]. destruct A as [A|[r [_ A]]]; discriminate A.
  - destruct A as [->|A]; [discriminate N|]. destruct (absolute_dirname d A) as [H L]. rewrite (IH m f (dirname d)); [reflexivity|exact H|lia|lia].
Qed.
Lemma makedirs_delete n P : absolute P -> forall f d, d = "/" \/ absolute d -> (String.length d < String.length P)%nat ->
  makedirs n (delete P f) d = (g <- makedirs n f d ;; Ok (delete P g)).
Proof.
  intros AP. induction n as [|n IH]; intros f d A L; cbn [makedirs];
    (assert (E : node_at (delete P f) d = node_at f d); [unfold node_at; destruct (String.eqb d "/"); [reflexivity|]; apply lookup_delete_ne; intros ->; lia|]); rewrite E; destruct (node_at f d) as [[]|] eqn:N; try reflexivity.
  destruct A as [->|A]; [discriminate N|]. destruct (absolute_dirname d A) as [H Ld]. rewrite IH; [|exact H|lia]. destruct (makedirs n f (dirname d)) as [g|e]; cbn [bind]; [|reflexivity].
  f_equal. rewrite delete_insert_ne; [reflexivity|]. intros ->. lia.
Qed.

Section formats.
  Context (dest : string) (D : destination dest).
  Definition fits (e : Fs.entry) (n : option node) : Prop :=
    match e with ADir => n = None | AFile _ => n <> Some NDir | ALink _ => n <> Some NDir /\ n <> Some NOther end.
  Lemma one_alike p e f : relative_path p -> fits e (f !! located dest p) -> unpack_zip dest (p, e) f = unpack_tar dest (p, e) f.
  Proof.
    intros R F. pose proof (located_absolute dest p D R) as A. unfold unpack_zip, unpack_tar. cbn [fst snd]. rewrite join_located by assumption. set (P := located dest p) in *. cbv zeta.
    assert (NP : P <> "/") by (now apply absolute_root). destruct (absolute_dirname P A) as [Ad Ld].
    assert (CP : forall f1, check_dir f (dirname P) = Ok f1 -> f1 !! P = f !! P).
    { intros f1 H1. destruct (check_dir_only _ _ _ P A H1) as [K|[_ K]]; [exact K|now apply above_irrefl in K]. }
    (* what tar does before writing a file or a link *)
    assert (T : forall x, x <> NDir -> f !! P <> Some NDir ->
      (f2 <- check_dir (if isfile f P || islink f P then match unlink f P with Ok g => g | Err _ => f end else f) (dirname P) ;;
       match node_at f2 P with Some NDir => Err EOS | _ => Ok (<[P:=x]> f2) end) = (f1 <- check_dir f (dirname P) ;; Ok (<[P:=x]> f1))).
    { intros x _ Nd. assert (G : forall f', f' = f \/ f' = delete P f -> (f2 <- check_dir f' (dirname P) ;; match node_at f2 P with Some NDir => Err EOS | _ => Ok (<[P:=x]> f2) end) = (f1 <- check_dir f (dirname P) ;; Ok (<[P:=x]> f1))).
      { intros f' [->| ->].
        - destruct (check_dir f (dirname P)) as [f1|e1] eqn:C1; cbn [bind]; [|reflexivity]. rewrite node_at_map by exact NP. rewrite (CP f1 eq_refl). destruct (f !! P) as [[]|]; congruence.
        - unfold check_dir at 1. rewrite (makedirs_delete _ P A f (dirname P) Ad Ld). fold (check_dir f (dirname P)). destruct (check_dir f (dirname P)) as [f1|e1]; cbn [bind]; [|reflexivity].
          rewrite node_at_map by exact NP. rewrite lookup_delete, insert_delete_insert. reflexivity. }
      apply G. destruct (_ || _); [|auto]. destruct (unlink f P) as [g|e1] eqn:Ul; [|auto]. apply unlink_ok in Ul as (_ & ->). auto. }
    assert (SF : forall (g : fs) n, g !! P = Some n -> (forall t, n <> NLink t) -> stat g P = Some n).
    { intros g n K Nl. unfold stat. cbn [follow]. rewrite node_at_map by exact NP. rewrite K. destruct n; try reflexivity. now destruct (Nl target). }
    destruct e as [c| |g]; cbn [fits] in F.
    - rewrite T by (congruence || exact F). destruct (check_dir f (dirname P)) as [f1|e1] eqn:C1; cbn [bind]; [|reflexivity]. pose proof (CP f1 eq_refl) as K.
      destruct (f !! P) as [[x| |x|]|] eqn:Fp; [| | | |].
      + assert (E : isfile f1 P = true) by (unfold isfile; rewrite (SF f1 _ K) by discriminate; reflexivity). rewrite E. cbn [orb]. unfold unlink. rewrite node_at_map, K by exact NP. cbn [bind].
        rewrite node_at_map, lookup_delete, insert_delete_insert by exact NP. reflexivity.
      + congruence.
      + assert (E : islink f1 P = true) by (unfold islink; rewrite node_at_map, K by exact NP; reflexivity). rewrite E, orb_true_r. unfold unlink. rewrite node_at_map, K by exact NP. cbn [bind].
        rewrite node_at_map, lookup_delete, insert_delete_insert by exact NP. reflexivity.
      + unfold isfile, islink. rewrite (SF f1 _ K) by discriminate. rewrite node_at_map, K by exact NP. cbn [orb bind]. rewrite node_at_map, K by exact NP. reflexivity.
      + unfold isfile, islink. rewrite stat_none by (now rewrite node_at_map by exact NP). rewrite node_at_map, K by exact NP. cbn [orb bind]. rewrite node_at_map, K by exact NP. reflexivity.
    - assert (Z : isdir f P = false) by (unfold isdir; rewrite stat_none by (now rewrite node_at_map by exact NP); reflexivity). rewrite Z.
      assert (Y : isfile f P || islink f P = false) by (unfold isfile, islink; rewrite stat_none by (now rewrite node_at_map by exact NP); rewrite node_at_map, F by exact NP; reflexivity). rewrite Y.
      destruct (String.length P) as [|n] eqn:Len; [lia|]. cbn [makedirs]. rewrite node_at_map, F by exact NP.
      unfold check_dir in *. rewrite (makedirs_fuel n (String.length (dirname P)) f (dirname P)) by (exact Ad || lia).
      destruct (makedirs (String.length (dirname P)) f (dirname P)) as [f1|e1] eqn:C1; cbn [bind]; [|reflexivity]. rewrite node_at_map by exact NP. rewrite (CP f1 eq_refl), F. reflexivity.
    - destruct F as [F1 F2]. rewrite T by (congruence || exact F1). destruct (check_dir f (dirname P)) as [f1|e1] eqn:C1; cbn [bind]; [|reflexivity]. pose proof (CP f1 eq_refl) as K.
      assert (St : forall g0 : fs, g0 !! P = None -> (let f3 := if isdir g0 P then rmtree g0 P else g0 in match node_at f3 P with Some _ => Err EOS | None => Ok (<[P:=NLink g]> f3) end) = Ok (<[P:=NLink g]> g0)).
      { intros g0 G0. unfold isdir. rewrite stat_none by (now rewrite node_at_map by exact NP). cbv zeta. rewrite node_at_map, G0 by exact NP. reflexivity. }
      destruct (f !! P) as [[x| |x|]|] eqn:Fp; [| | | |].
      + assert (E : isfile f1 P = true) by (unfold isfile; rewrite (SF f1 _ K) by discriminate; reflexivity). rewrite E. cbn [orb]. unfold unlink. rewrite node_at_map, K by exact NP. cbn [bind].
        cbv zeta in St. rewrite St by apply lookup_delete. now rewrite insert_delete_insert.
      + congruence.
      + assert (E : islink f1 P = true) by (unfold islink; rewrite node_at_map, K by exact NP; reflexivity). rewrite E, orb_true_r. unfold unlink. rewrite node_at_map, K by exact NP. cbn [bind].
        cbv zeta in St. rewrite St by apply lookup_delete. now rewrite insert_delete_insert.
      + congruence.
      + unfold isfile, islink. rewrite stat_none by (now rewrite node_at_map by exact NP). rewrite node_at_map, K by exact NP. cbn [orb bind]. cbv zeta in St. now rewrite St by exact K.
  Qed.

  Notation free := (nothing_in_the_way dest).
  Lemma all_alike l : NoDup (map fst l) -> (forall p e, In (p, e) l -> relative_path p) -> nothing_nested l -> forall w, free l (w_fs w) ->
    eachM (fun pe => touch (unpack_one Zip dest pe)) l w = eachM (fun pe => touch (unpack_one Tar dest pe)) l w.
  Proof.
    induction l as [|[p e] l IH]; intros Nd R Fl w Fr; [reflexivity|]. cbn [eachM]. apply NoDup_cons in Nd as [Np Nd].
    pose proof (R p e (or_introl eq_refl)) as Rp. unfold bindM, touch. cbn [unpack_one]. rewrite (one_alike p e (w_fs w) Rp (Fr p e (or_introl eq_refl))).
    destruct (unpack_tar dest (p, e) (w_fs w)) as [f'|e1] eqn:U; [|reflexivity]. apply IH; [exact Nd|intros q x Hq; apply (R q x); now right|intros q x q' x' Hq Hq'; apply (Fl q x q' x'); now right|].
    intros q x Hq. cbn [w_fs]. assert (Nq : located dest q <> located dest p).
    { intros E. apply located_inj in E. subst q. apply Np, elem_of_list_In, in_map_iff. exists (p, x). auto. }
    destruct (tar_only _ _ _ _ _ _ D Rp U Nq) as [E|[_ E]]; [rewrite E; apply Fr; now right|].
    exfalso. apply above_located in E. exact (Fl q x p e (or_intror Hq) (or_introl eq_refl) E).
  Qed.
End formats.

Section alike.
  Context (h : host) (o : opts) (D : destination (o_dest o)) (p : package) (files : list finfo) (data : list (string * Fs.entry)).
  Notation k fmt := (mkPackfile p files data fmt).
  Context (O : in_order (k Tar)) (Fl : nothing_nested data).
  Lemma free_lenient fi : In fi files -> lenient o (nothing_in_the_way (o_dest o) data) fi.
  Proof.
    intros Hf s f Hs Fr. destruct O as (_ & _ & Kf & Kd & _). cbn [k_files k_data] in *. split.
    - intros q e Hq. destruct (decide (located (o_dest o) q = located (o_dest o) (f_path fi) +:+ s)) as [->|N]; [rewrite lookup_delete; destruct e; cbn; auto; split; discriminate|].
      rewrite lookup_delete_ne by congruence. now apply Fr.
    - intros n Ns q e Hq. rewrite lookup_insert_ne; [now apply Fr|]. rewrite <- located_app. intros E. apply located_inj in E. destruct (Kd q e Hq) as [_ S]. apply S. exists (f_path fi).
      destruct Hs as [->|[->| ->]]; [congruence|auto|auto].
  Qed.
  Lemma extract_alike old w : nothing_in_the_way (o_dest o) data (w_fs w) -> extract_install h o (k Zip) old w = extract_install h o (k Tar) old w.
  Proof.
    intros Fr. unfold extract_install. cbv zeta. cbn [k_files k_data k_format]. unfold bindM at 1. unfold bindM at 3.
    assert (Rf : forall fi, In fi (k_files (k Tar)) -> relative_path (f_path fi)) by (intros fi Hf; now apply O).
    assert (T : triple (fun _ => True) (nothing_in_the_way (o_dest o) data)
      (match old with
       | Some old => keep_configs h o (zip (List.filter (has_path old) (sort_by_path files)) (List.filter (has_path files) (sort_by_path old))) []
       | None => keep_stray h o files [] end) (fun ch f => nothing_in_the_way (o_dest o) data f /\ put_by o (k Tar) (nothing_in_the_way (o_dest o) data) (fun _ => True) ch)).
    { assert (C : forall fi, In fi files -> is_config fi -> (lenient o (nothing_in_the_way (o_dest o) data) fi /\ careless o (fun _ => True) fi) \/ absent o (nothing_in_the_way (o_dest o) data) fi).
      { intros fi Hf _. left. split; [now apply free_lenient|]. intros s f _ _. auto. }
      destruct old as [old|]; [|apply (e_stray h o D (k Tar) Rf); [auto|exact C|auto|intros x []]].
      apply (e_configs h o D (k Tar) Rf); [auto|exact C| |intros x []]. intros a b Hab. apply elem_of_list_In, elem_of_zip_l, elem_of_list_In, filter_In in Hab as [Hab _]. now rewrite sort_perm in Hab. }
    set (m := match old with Some old => _ | None => _ end) in *. destruct (T w Fr) as [_ T2]. destruct (m w) as [w1 [ch|e]]; cbn [fst snd] in *; [|reflexivity].
    destruct (T2 ch eq_refl) as [Fr1 _]. unfold bindM at 1. unfold bindM at 2. destruct O as (_ & Nd & _ & Kd & _).
    rewrite (all_alike (o_dest o) D data Nd (fun q e Hq => proj1 (Kd q e Hq)) Fl w1 Fr1). reflexivity.
  Qed.
  Lemma install_alike i a w : nothing_in_the_way (o_dest o) data (w_fs w) -> install_package h o (k Zip) i a w = install_package h o (k Tar) i a w.
  Proof.
    intros Fr. unfold install_package. cbv zeta. cbn [k_pkg k_files].
    change (check_relations h o (k Zip) i) with (check_relations h o (k Tar) i). change (check_reinstall h o (k Zip) a) with (check_reinstall h o (k Tar) a).
    change (store_pisi_files (k Zip)) with (store_pisi_files (k Tar)).
    unfold bindM at 1. unfold bindM at 6. pose proof (s_relations h o (k Tar) i w) as [S1 _]. destruct (check_relations h o (k Tar) i w) as [w1 [u|e]]; [|reflexivity].
    unfold bindM at 1. unfold bindM at 5. pose proof (s_reinstall h o (k Tar) a w1) as [S2 _]. destruct (check_reinstall h o (k Tar) a w1) as [w2 [old|e]]; [|reflexivity].
    unfold bindM at 1. unfold bindM at 4. rewrite extract_alike; [reflexivity|]. cbn [fst] in S1, S2. rewrite S2, S1. exact Fr.
  Qed.
End alike.
