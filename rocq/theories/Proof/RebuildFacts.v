From Coq Require Import String Ascii ZArith List Bool Lia.
From stdpp Require Import gmap strings.
From Verif Require Import Model.Py Model.Version Model.Path Model.Rebuild Spec.VersionSpec Spec.PathSpec Spec.RebuildSpec
  Proof.PyFacts Proof.VersionFacts Proof.VersionSyntax Proof.PathFacts.
Import ListNotations.
Open Scope string_scope.

(** ** Directory names *)
Lemma list_words ws : Forall good_word ws -> exists s, plain_words s /\ forall w, py_join "-" (w :: ws) = w ++ s.
Proof.
  induction ws as [|x ws IH]; intros F.
  - exists "". split; [constructor|]. intros w. now rewrite str_app_nil_r.
  - inversion F as [|? ? (N & Fx & Dx) F' E1]; subst. destruct (IH F') as (s & P & J). exists ("-" ++ x ++ s). split.
    + now constructor.
    + intros w. rewrite (join_cons "-" w (x :: ws)) by discriminate. now rewrite J.
Qed.

Lemma name_parts_back parts : forall name r, name <> [] -> Forall (fun p => ~ In "-"%char (los p)) parts -> name_parts name parts = Ok r ->
  exists ws, Forall good_word ws /\ r = (name ++ ws)%list /\
             (parts = ws \/ exists x rest, parts = (ws ++ x :: rest)%list /\ digit_first x).
Proof.
  induction parts as [|p parts IH]; intros name r N F H.
  - cbn in H. injection H as <-. exists []. rewrite app_nil_r. auto.
  - destruct name as [|n name]; [congruence|]. inversion F as [|? ? Fp F' E1]; subst. cbn [name_parts] in H.
    destruct p as [|c p]; [discriminate|]. destruct (is_digit c) eqn:D.
    + injection H as <-. exists []. rewrite app_nil_r. split; [constructor|]. split; [reflexivity|]. right. exists (String c p), parts.
      split; [reflexivity|]. now exists c, p.
    + apply IH in H as (ws & Fw & -> & C); [|discriminate|assumption]. exists (String c p :: ws). split.
      * constructor; [|assumption]. split; [discriminate|]. split; [exact Fp|]. intros (c' & t' & E & D'). injection E as <- <-. congruence.
      * split; [now rewrite <- app_assoc|]. destruct C as [->|(x & rest & -> & Dx)]; [now left|right]. now exists x, rest.
Qed.

Lemma digit_first_nonempty v : digit_first v -> v <> "".
Proof. now intros (c & t & -> & _). Qed.

Lemma parse_directory d n v : parse_package_name d = Ok (n, v) <-> directory_of d n v.
Proof.
  split.
  - unfold parse_package_name. intros H. destruct (name_parts [] (py_split "-" d)) as [parts|] eqn:E; [|discriminate]. cbn [bind] in H.
    injection H as Hn Hv. destruct (py_split "-" d) as [|w l] eqn:Sp; [now apply split_nonempty in Sp|].
    change (name_parts [] (w :: l)) with (name_parts [w] l) in E.
    pose proof (split_pieces_no_sep "-" d) as F. rewrite Sp in F. inversion F as [|? ? Fw F' E1]; subst.
    apply name_parts_back in E as (ws & Fws & -> & C); [|discriminate|assumption]. cbn [app] in *.
    destruct (list_words ws Fws) as (s & P & J).
    assert (Pn : plain_name (py_join "-" (w :: ws))). { rewrite J. exists w, s. auto. }
    assert (Dd : d = py_join "-" (w :: l)). { rewrite <- (join_split "-" d). now rewrite Sp. }
    destruct C as [->|(x & rest & -> & Dx)].
    + rewrite <- Dd. rewrite <- Dd in Pn. assert (E0 : py_drop (String.length d + 1) d = "").
      { clear. induction d as [|c d IH]; [reflexivity|]. cbn. exact IH. }
      rewrite E0. now constructor.
    + assert (Eq : d = py_join "-" (w :: ws) ++ "-" ++ py_join "-" (x :: rest)).
      { rewrite Dd. change (w :: ws ++ x :: rest)%list with ((w :: ws) ++ x :: rest)%list. apply join_app; discriminate. }
      assert (E1 : py_drop (String.length (py_join "-" (w :: ws)) + 1) d = py_join "-" (x :: rest)).
      { rewrite Eq at 1. rewrite <- (str_app_assoc _ "-" _). change 1%nat with (String.length "-").
        rewrite <- (str_app_length _ "-"). apply drop_app. }
      rewrite E1. rewrite Eq. constructor; [assumption|]. destruct Dx as (c & t & -> & Dc).
      destruct rest; [now exists c, t|]. exists c. eexists. split; [reflexivity|assumption].
  - intros [n' v' P D|n' P].
    + now apply parse_plain.
    + destruct P as (w & s & Fw & P & ->). destruct (words_list s P) as (ws & F & J). unfold parse_package_name.
      assert (Sn : py_split "-" (w ++ s) = w :: ws).
      { rewrite <- J. apply split_join; [discriminate|]. constructor; [assumption|]. eapply Forall_impl; [exact F|]. now intros ? (_ & ? & _). }
      rewrite Sn. change (name_parts [] (w :: ws)) with (name_parts [w] ws).
      assert (Go : forall name, name <> [] -> name_parts name ws = Ok (name ++ ws)%list).
      { clear -F. induction ws as [|y ws IH]; intros name N; [cbn; now rewrite app_nil_r|].
        inversion F as [|? ? (Ny & Fy & Dy) F' E1]; subst. destruct name as [|m name]; [congruence|]. destruct y as [|a y]; [congruence|].
        cbn [name_parts]. destruct (is_digit a) eqn:Da; [exfalso; apply Dy; now exists a, y|].
        rewrite IH by (try assumption; discriminate). now rewrite <- app_assoc. }
      rewrite Go by discriminate. cbn [bind app]. rewrite J. f_equal. f_equal.
      generalize (w ++ s). clear. intros d. induction d as [|c d IH]; [reflexivity|]. cbn. exact IH.
Qed.

Lemma directory_fun d n v n' v' : directory_of d n v -> directory_of d n' v' -> n = n' /\ v = v'.
Proof. rewrite <- !parse_directory. intros H K. rewrite H in K. injection K as -> ->. auto. Qed.
Lemma directory_inj d d' n v : directory_of d n v -> directory_of d' n v -> d = d'.
Proof.
  intros H K. inversion H; subst; inversion K; subst; try reflexivity.
  - exfalso. now apply (digit_first_nonempty "").
  - exfalso. now apply (digit_first_nonempty "").
Qed.

(** ** Versions as texts *)
Lemma parse_syntax s v : parse_version s = Ok v <-> version_syntax s v.
Proof. exact (parse_version_iff all_keywords s v all_keywords_all). Qed.
Lemma syntax_fun s v v' : version_syntax s v -> version_syntax s v' -> v = v'.
Proof. rewrite <- !parse_syntax. congruence. Qed.
Lemma parse_unreadable s : (~ readable_version s) <-> parse_version s = Err EValue.
Proof.
  unfold readable_version. destruct (parse_version_total all_keywords s all_keywords_all) as [(v & H & K)|(H & K)].
  - fold (parse_version s) in H. split; [intros C; exfalso; eauto|congruence].
  - fold (parse_version s) in H. split; [auto|]. intros _ (v & Hv). now apply (K v).
Qed.
Lemma unreadable_empty : ~ readable_version "".
Proof. apply parse_unreadable. reflexivity. Qed.
Lemma newer_trans a b c : newer a b -> newer b c -> newer a c.
Proof.
  intros (va & vb & A & B & H) (vb' & vc & B' & C & K). pose proof (syntax_fun _ _ _ B B') as <-.
  exists va, vc. repeat split; try assumption. now apply ver_before_trans with vb.
Qed.
Lemma newer_asym a b : newer a b -> ~ newer b a.
Proof.
  intros (va & vb & A & B & H) (vb' & va' & B' & A' & K). pose proof (syntax_fun _ _ _ B B') as <-. pose proof (syntax_fun _ _ _ A A') as <-.
  now apply (ver_before_asym va vb).
Qed.
Lemma gt_newer s t a b : parse_version s = Ok a -> parse_version t = Ok b -> v_gt a b = true <-> newer s t.
Proof.
  rewrite !parse_syntax. intros A B. unfold v_gt. rewrite Z.ltb_lt.
  pose proof (vcompare_cases a b) as C. split.
  - intros H. exists a, b. repeat split; try assumption. apply vcompare_gt. intuition lia.
  - intros (a' & b' & A' & B' & H). rewrite <- (syntax_fun _ _ _ A A'), <- (syntax_fun _ _ _ B B') in H. apply vcompare_gt in H. lia.
Qed.

(** ** Duplicates *)
Record found (done : list string) (iv : gmap string string) (replica : list string) : Prop := mkFound {
  f_keep : forall n w, iv !! n = Some w -> exists k, In k done /\ directory_of k n w /\ ~ In k replica /\
     forall d v, In d done -> directory_of d n v -> d = k \/ (In d replica /\ readable_version v /\ readable_version w /\ ~ newer v w);
  f_none : forall n, iv !! n = None -> forall d v, In d done -> ~ directory_of d n v;
  f_sub : forall d, In d replica -> In d done;
  f_dirs : forall d, In d done -> exists n v, directory_of d n v }.

Lemma found_start : found [] empty [].
Proof. split; try easy. Qed.

Lemma found_step done iv replica pkg n v : found done iv replica -> ~ In pkg done -> directory_of pkg n v ->
  (iv !! n = None -> found (done ++ [pkg]) (<[ n := v ]> iv) replica) /\
  (forall w, iv !! n = Some w -> newer v w -> found (done ++ [pkg]) (<[ n := v ]> iv) (replica ++ [n ++ "-" ++ w])) /\
  (forall w, iv !! n = Some w -> readable_version v -> readable_version w -> ~ newer v w ->
             found (done ++ [pkg]) iv (replica ++ [n ++ "-" ++ v])).
Proof.
  intros [K N Sub Dr] Hp Hd. repeat split.
  - intros m w Hm. destruct (decide (n = m)) as [<-|Ne].
    + rewrite lookup_insert in Hm. injection Hm as <-. exists pkg. split; [apply in_app_iff; right; now left|]. split; [assumption|].
      split; [now intros ?%Sub|]. intros d w' Hin Hdir. apply in_app_iff in Hin as [Hin|[<-|[]]]; [|now left]. exfalso. now apply (N n H d w').
    + rewrite lookup_insert_ne in Hm by assumption. destruct (K m w Hm) as (k & Ik & Dk & Nk & All). exists k. split; [apply in_app_iff; now left|].
      repeat (split; [assumption|]). intros d w' Hin Hdir. apply in_app_iff in Hin as [Hin|[<-|[]]]; [eauto|].
      destruct (directory_fun _ _ _ _ _ Hd Hdir). congruence.
  - intros m Hm d w Hin Hdir. destruct (decide (n = m)) as [<-|Ne]; [rewrite lookup_insert in Hm; discriminate|].
    rewrite lookup_insert_ne in Hm by assumption. apply in_app_iff in Hin as [Hin|[<-|[]]]; [now apply (N m Hm d w)|].
    destruct (directory_fun _ _ _ _ _ Hd Hdir). congruence.
  - intros d Hin. apply in_app_iff. left. auto.
  - intros d Hin. apply in_app_iff in Hin as [Hin|[<-|[]]]; eauto.
  - intros m u Hm. destruct (K n w H) as (k & Ik & Dk & Nk & All).
    assert (Rv : readable_version v /\ readable_version w) by (destruct H0 as (a & b & A & B & _); split; eexists; eauto).
    assert (Ek : k = n ++ "-" ++ w).
    { inversion Dk; subst; [reflexivity|]. exfalso. now apply unreadable_empty. }
    destruct (decide (n = m)) as [<-|Ne].
    + rewrite lookup_insert in Hm. injection Hm as <-. exists pkg. split; [apply in_app_iff; right; now left|]. split; [assumption|]. split.
      * rewrite in_app_iff. intros [Hin|[Hin|[]]]; [now apply Hp, Sub|]. rewrite <- Ek in Hin. subst. contradiction.
      * intros d w' Hin Hdir. apply in_app_iff in Hin as [Hin|[<-|[]]]; [|now left]. right.
        destruct (All d w' Hin Hdir) as [->|(In' & Rv' & Rw & Nn)].
        -- destruct (directory_fun _ _ _ _ _ Dk Hdir) as [_ <-]. split; [apply in_app_iff; right; left; now rewrite <- Ek|].
           split; [tauto|]. split; [tauto|]. now apply newer_asym.
        -- split; [apply in_app_iff; now left|]. split; [assumption|]. split; [tauto|]. intros C. apply Nn. now apply newer_trans with v.
    + rewrite lookup_insert_ne in Hm by assumption. destruct (K m u Hm) as (k' & Ik' & Dk' & Nk' & All'). exists k'. split; [apply in_app_iff; now left|].
      split; [assumption|]. split.
      * rewrite in_app_iff. intros [Hin|[Hin|[]]]; [contradiction|]. rewrite <- Ek in Hin. subst k'. destruct (directory_fun _ _ _ _ _ Dk Dk'). congruence.
      * intros d w' Hin Hdir. apply in_app_iff in Hin as [Hin|[<-|[]]].
        -- destruct (All' d w' Hin Hdir) as [->|(In' & R)]; [now left|right]. split; [apply in_app_iff; now left|assumption].
        -- destruct (directory_fun _ _ _ _ _ Hd Hdir). congruence.
  - intros m Hm d w' Hin Hdir. destruct (decide (n = m)) as [<-|Ne]; [rewrite lookup_insert in Hm; discriminate|].
    rewrite lookup_insert_ne in Hm by assumption. apply in_app_iff in Hin as [Hin|[<-|[]]]; [now apply (N m Hm d w')|].
    destruct (directory_fun _ _ _ _ _ Hd Hdir). congruence.
  - intros d Hin. apply in_app_iff in Hin as [Hin|[<-|[]]]; apply in_app_iff; left; [auto|].
    destruct (K n w H) as (k & Ik & Dk & Nk & All).
    assert (Rv : readable_version w) by (destruct H0 as (a & b & A & B & _); eexists; eauto).
    inversion Dk; subst; [assumption|]. exfalso. now apply unreadable_empty.
  - intros d Hin. apply in_app_iff in Hin as [Hin|[<-|[]]]; eauto.
  - assert (Ep : pkg = n ++ "-" ++ v). { inversion Hd; subst; [reflexivity|]. exfalso. now apply unreadable_empty. }
    intros m u Hm. destruct (K m u Hm) as (k & Ik & Dk & Nk & All). exists k. split; [apply in_app_iff; now left|].
    split; [assumption|]. split.
    + rewrite in_app_iff. intros [Hin|[Hin|[]]]; [contradiction|]. rewrite <- Ep in Hin. subst. contradiction.
    + intros d w' Hin Hdir. apply in_app_iff in Hin as [Hin|[<-|[]]].
      * destruct (All d w' Hin Hdir) as [->|(In' & R)]; [now left|right]. split; [apply in_app_iff; now left|assumption].
      * destruct (directory_fun _ _ _ _ _ Hd Hdir) as [<- <-]. rewrite H in Hm. injection Hm as <-. right.
        split; [apply in_app_iff; right; left; now rewrite <- Ep|]. auto.
  - intros m Hm d w' Hin Hdir. apply in_app_iff in Hin as [Hin|[<-|[]]]; [now apply (N m Hm d w')|].
    destruct (directory_fun _ _ _ _ _ Hd Hdir) as [<- <-]. congruence.
  - intros d Hin. apply in_app_iff in Hin as [Hin|[<-|[]]]; apply in_app_iff; [left; auto|right; left].
    inversion Hd; subst; [reflexivity|]. exfalso. now apply unreadable_empty.
  - intros d Hin. apply in_app_iff in Hin as [Hin|[<-|[]]]; eauto.
Qed.

Lemma find_replicas_found listing : forall done iv replica r, found done iv replica -> NoDup (done ++ listing) ->
  find_replicas iv replica listing = Ok r -> exists iv', found (done ++ listing) iv' r.
Proof.
  induction listing as [|pkg listing IH]; intros done iv replica r F ND H.
  - cbn in H. injection H as <-. rewrite app_nil_r. eauto.
  - cbn [find_replicas] in H. destruct (parse_package_name pkg) as [[n v]|] eqn:P; [|discriminate]. cbn [bind fst snd] in H.
    apply parse_directory in P.
    assert (Np : ~ In pkg done). { apply NoDup_app in ND as (_ & Dj & _). intros Hin. apply (Dj pkg); [now apply elem_of_list_In|left]. }
    assert (Ea : (done ++ pkg :: listing)%list = ((done ++ [pkg]) ++ listing)%list) by now rewrite <- app_assoc.
    rewrite Ea in ND |- *. destruct (found_step _ _ _ _ _ _ F Np P) as (S1 & S2 & S3).
    destruct (iv !! n) as [w|] eqn:L.
    + destruct (parse_version v) as [a|] eqn:Pa; [|discriminate]. destruct (parse_version w) as [b|] eqn:Pb; [|discriminate]. cbn [bind] in H.
      pose proof (gt_newer _ _ _ _ Pa Pb) as G. destruct (v_gt a b).
      * eapply IH; [|exact ND|exact H]. apply S2; [reflexivity|]. now apply G.
      * eapply IH; [|exact ND|exact H]. apply (S3 w); [reflexivity| | |].
        -- exists a. now apply parse_syntax.
        -- exists b. now apply parse_syntax.
        -- rewrite <- G. discriminate.
    + eapply IH; [|exact ND|exact H]. now apply S1.
Qed.

(** When it goes through *)
Lemma find_replicas_fails listing : forall done iv replica, found done iv replica -> NoDup (done ++ listing) ->
  ((exists r, find_replicas iv replica listing = Ok r) <->
   ((forall d, In d listing -> exists n v, directory_of d n v) /\
    forall d d' n v v', In d (done ++ listing) -> In d' (done ++ listing) -> In d listing -> d <> d' -> directory_of d n v -> directory_of d' n v' ->
       readable_version v /\ readable_version v')).
Proof.
  induction listing as [|pkg listing IH]; intros done iv replica F ND.
  - split; [|intros _; cbn; eauto]. intros _. split; [easy|]. intros d d' n v v' H1 H2 [].
  - cbn [find_replicas].
    assert (Np : ~ In pkg done). { apply NoDup_app in ND as (_ & Dj & _). intros Hin. apply (Dj pkg); [now apply elem_of_list_In|left]. }
    assert (Ea : (done ++ pkg :: listing)%list = ((done ++ [pkg]) ++ listing)%list) by now rewrite <- app_assoc.
    destruct (parse_package_name pkg) as [[n v]|] eqn:P.
    2:{ cbn [bind]. split; [intros (r & C); discriminate|]. intros (A & _). destruct (A pkg (or_introl eq_refl)) as (n & v & D).
        apply parse_directory in D. congruence. }
    apply parse_directory in P. cbn [bind fst snd]. rewrite Ea in ND |- *. destruct (found_step _ _ _ _ _ _ F Np P) as (S1 & S2 & S3).
    assert (Tail : forall iv' replica', found (done ++ [pkg]) iv' replica' ->
      (forall d' v', In d' done -> directory_of d' n v' -> readable_version v /\ readable_version v') ->
      ((exists r, find_replicas iv' replica' listing = Ok r) <->
      (forall d, In d (pkg :: listing) -> exists n v, directory_of d n v) /\
      forall d d' n v v', In d ((done ++ [pkg]) ++ listing) -> In d' ((done ++ [pkg]) ++ listing) -> In d (pkg :: listing) -> d <> d' ->
         directory_of d n v -> directory_of d' n v' -> readable_version v /\ readable_version v')).
    { intros iv' replica' F' Rd. rewrite (IH _ _ _ F' ND). split.
      - intros (A & B). split.
        + intros d [<-|Hin]; [eauto|auto].
        + intros d d' m u u' I1 I2 [<-|I3] Ne D1 D2; [|exact (B d d' m u u' I1 I2 I3 Ne D1 D2)].
          destruct (directory_fun _ _ _ _ _ P D1) as [<- <-]. rewrite in_app_iff in I2. destruct I2 as [I2|I2].
          * rewrite in_app_iff in I2. destruct I2 as [I2|[I2|[]]]; [eauto|contradiction].
          * destruct (B d' pkg n u' v) as [? ?]; auto; rewrite !in_app_iff; cbn; auto.
      - intros (A & B). split; [intros d Hin; apply A; now right|]. intros d d' m u u' I1 I2 I3 Ne D1 D2. exact (B d d' m u u' I1 I2 (or_intror I3) Ne D1 D2). }
    destruct (iv !! n) as [w|] eqn:L.
    + destruct (f_keep _ _ _ F _ _ L) as (k & Ik & Dk & Nk & All). 
      destruct (parse_version v) as [a|] eqn:Pa.
      * destruct (parse_version w) as [b|] eqn:Pb.
        -- cbn [bind]. pose proof (gt_newer _ _ _ _ Pa Pb) as G.
           assert (Rv : readable_version v) by (exists a; now apply parse_syntax).
           assert (Rw : readable_version w) by (exists b; now apply parse_syntax).
           assert (Rd : forall d' v', In d' done -> directory_of d' n v' -> readable_version v /\ readable_version v').
           { intros d' v' Hin Hd'. destruct (All d' v' Hin Hd') as [->|(_ & R & _)]; [|auto]. destruct (directory_fun _ _ _ _ _ Dk Hd') as [_ <-]. auto. }
           destruct (v_gt a b).
           ++ apply Tail; [|assumption]. apply S2; [reflexivity|]. now apply G.
           ++ apply Tail; [|assumption]. apply (S3 w); auto. rewrite <- G. discriminate.
        -- cbn [bind]. split; [intros (r & C); discriminate|]. intros (_ & B). exfalso.
           destruct (B pkg k n v w) as [_ (x & R)]; auto.
           ++ apply in_app_iff. left. apply in_app_iff. right. now left.
           ++ apply in_app_iff. left. apply in_app_iff. now left.
           ++ now left.
           ++ intros ->. contradiction.
           ++ apply parse_syntax in R. congruence.
      * cbn [bind]. split; [intros (r & C); discriminate|]. intros (_ & B). exfalso.
        destruct (B pkg k n v w) as [(x & R) _]; auto.
        ++ apply in_app_iff. left. apply in_app_iff. right. now left.
        ++ apply in_app_iff. left. apply in_app_iff. now left.
        ++ now left.
        ++ intros ->. contradiction.
        ++ apply parse_syntax in R. congruence.
    + apply Tail; [now apply S1|]. intros d' v' Hin Hd'. exfalso. now apply (f_none _ _ _ F n L d' v').
Qed.
