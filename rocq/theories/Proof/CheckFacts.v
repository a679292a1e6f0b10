(** * Verifying installed files *)
From Coq Require Import String Ascii List ZArith.
From stdpp Require Import gmap strings relations.
From Verif Require Import Proof.GraphFacts.
From Verif Require Import Model.Py Model.ItemByRepo Model.Dependency Model.Package Model.ComponentDB Model.Databases
  Model.InstallDB Model.System Model.Graph Model.Plan Model.Path Model.Fs Model.Ops Model.Check
  Spec.VersionSpec Spec.ItemByRepoSpec Spec.DependencySpec Spec.DatabaseSpec Spec.SystemSpec Spec.GraphSpec Spec.PlanSpec Spec.PathSpec Spec.FsSpec Spec.OpsSpec Spec.CheckSpec
  Proof.PyFacts Proof.PathFacts Proof.DatabaseFacts Proof.RevDepFacts Proof.ComponentFacts Proof.ItemByRepoFacts Proof.InstallDBFacts Proof.SystemFacts Proof.PlanFacts
  Proof.FsFacts Proof.FsChecks Proof.OpsFacts Proof.OpsTop Proof.OpsSteps Proof.Reinstall Proof.RemoveFiles Proof.Consent Proof.KeepConfig.
Open Scope string_scope.

Lemma to_verify_iff fi : truthy (f_hash fi) && negb (String.eqb (f_type fi) "config") = true <-> to_verify fi.
Proof.
  unfold to_verify, is_config. rewrite andb_true_iff, negb_true_iff, String.eqb_neq. split; intros [H1 H2]; (split; [|exact H2]).
  - destruct (f_hash fi) as [[|a r]|]; try discriminate. exists (String a r). split; [reflexivity|discriminate].
  - destruct H1 as (x & -> & Hx). destruct x; [congruence|reflexivity].
Qed.
Lemma slash_not_root p : p <> "" -> "/" ++ p <> "/".
Proof. intros N [= E]. congruence. Qed.
Lemma islink_iff f p : p <> "/" -> islink f p = true <-> a_link f p.
Proof.
  intros N. unfold islink, a_link. rewrite node_at_map by exact N. destruct (f !! p) as [[]|]; split; try discriminate; try (intros (t & [=])); eauto.
Qed.
Lemma sha1_plain sha1 f p : p <> "/" -> ~ a_link f p -> sha1_file sha1 f p = match f !! p with Some (NFile c) => Some (sha1 c) | _ => None end.
Proof.
  intros N L. unfold sha1_file, stat. change (follow 40 f p) with (match node_at f p with Some (NLink t) => follow 39 f t | o => o end). rewrite node_at_map by exact N.
  destruct (f !! p) as [[]|] eqn:E; try reflexivity. exfalso. apply L. eexists; eauto.
Qed.

Section check.
  Context (h : host).
  (** the loop *)
  Lemma check_files_ok f files : (forall fi, In fi files -> relative_path (f_path fi)) ->
    match check_files h f files with
    | Ok bad => bad `sublist_of` files /\
        (forall fi, In fi bad <-> In fi files /\ to_verify fi /\ altered (h_sha1 h) f (located "/" (f_path fi)) fi) /\
        forall fi, In fi files -> to_verify fi -> ~ unreadable f (located "/" (f_path fi))
    | Err e => e = EError /\ exists fi, In fi files /\ to_verify fi /\ unreadable f (located "/" (f_path fi))
    end.
  Proof.
    induction files as [|fi files IH]; intros R; cbn [check_files].
    { split; [constructor|]. split; [intros fi; split; [intros []|intros ([] & _)]|intros fi []]. }
    specialize (IH (fun x Hx => R x (or_intror Hx))). assert (Rf := R fi (or_introl eq_refl)). clear R.
    assert (Nr : located "/" (f_path fi) <> "/") by (apply absolute_root, located_absolute; [now left|exact Rf]).
    change ("/" ++ f_path fi) with (located "/" (f_path fi)). set (p := located "/" (f_path fi)) in *.
    destruct (truthy (f_hash fi) && negb (String.eqb (f_type fi) "config")) eqn:V; cbn [andb].
    2: { assert (NV : ~ to_verify fi) by (rewrite <- to_verify_iff; congruence). destruct (check_files h f files) as [bad|e].
      - destruct IH as (I1 & I2 & I3). split; [now constructor|]. split; [|intros x [->|Hx] K; [contradiction|auto]].
        intros x. rewrite I2. split; [intros (K1 & K2); split; [now right|exact K2]|]. intros ([->|K1] & K2 & K3); [contradiction|auto].
      - destruct IH as (-> & x & Hx & K). split; [reflexivity|]. exists x. split; [now right|exact K]. }
    assert (V' := proj1 (to_verify_iff fi) V). destruct (islink f p) eqn:Lk; cbn [negb].
    { apply islink_iff in Lk; [|exact Nr]. destruct (check_files h f files) as [bad|e].
      - destruct IH as (I1 & I2 & I3). split; [now constructor|]. split; [|intros x [<-|Hx] K; [intros [K1 _]; contradiction|auto]].
        intros x. rewrite I2. split; [intros (K1 & K2); split; [now right|exact K2]|]. intros ([<-|K1] & K2 & K3); [|auto].
        destruct K3 as (c & K3 & _). destruct Lk as (t & Lk). fold p in K3. congruence.
      - destruct IH as (-> & x & Hx & K). split; [reflexivity|]. exists x. split; [now right|exact K]. }
    assert (Nl : ~ a_link f p). { intros K. apply (islink_iff f p Nr) in K. congruence. }
    rewrite (sha1_plain _ f p Nr Nl). destruct (f !! p) as [[c| |t|]|] eqn:Ep.
    2, 4, 5: split; [reflexivity|]; exists fi; (split; [now left|]); (split; [exact V'|]); (split; [exact Nl|]); fold p; congruence.
    2: exfalso; apply Nl; eexists; eauto.
    destruct (check_files h f files) as [bad|e]; cbn [bind].
    - destruct IH as (I1 & I2 & I3).
      assert (U : forall x, In x (fi :: files) -> to_verify x -> ~ unreadable f (located "/" (f_path x))).
      { intros x [<-|Hx] K; [intros [_ K2]; exact (K2 c Ep)|auto]. }
      destruct (bool_decide_reflect (f_hash fi = Some (h_sha1 h c))) as [Eh|Nh].
      + split; [now constructor|]. split; [|exact U]. intros x. rewrite I2. split; [intros (K1 & K2); split; [now right|exact K2]|]. intros ([<-|K1] & K2 & K3); [|auto].
        destruct K3 as (c' & K3 & K4). fold p in K3. congruence.
      + split; [now constructor|]. split; [|exact U]. intros x. cbn [In]. rewrite I2. split.
        * intros [<-|(K1 & K2)]; [split; [now left|]; split; [exact V'|]; exists c; auto|split; [now right|exact K2]].
        * intros ([<-|K1] & K2 & K3); [now left|right; auto].
    - destruct IH as (-> & x & Hx & K). split; [reflexivity|]. exists x. split; [now right|exact K].
  Qed.

  Lemma check_report s f file k bad : (forall fi, In fi (k_files k) -> relative_path (f_path fi)) -> py_endswith file ".pisi" = true -> h_open h file = Ok k ->
    check h s f file = Ok bad ->
    bad `sublist_of` k_files k /\
    forall fi, In fi bad <-> In fi (k_files k) /\ to_verify fi /\ altered (h_sha1 h) f (located "/" (f_path fi)) fi.
  Proof.
    intros R E O H. unfold check, info_files in H. rewrite E, O in H. cbn [bind] in H. pose proof (check_files_ok f (k_files k) R) as K. rewrite H in K. tauto.
  Qed.
  Lemma check_fails s f file k e : (forall fi, In fi (k_files k) -> relative_path (f_path fi)) -> py_endswith file ".pisi" = true -> h_open h file = Ok k ->
    (check h s f file = Err e <-> e = EError /\ exists fi, In fi (k_files k) /\ to_verify fi /\ unreadable f (located "/" (f_path fi))).
  Proof.
    intros R E O. unfold check, info_files. rewrite E, O. cbn [bind]. pose proof (check_files_ok f (k_files k) R) as K.
    destruct (check_files h f (k_files k)) as [bad|e'].
    - split; [discriminate|]. intros (_ & fi & K1 & K2 & K3). destruct K as (_ & _ & K). exfalso. exact (K fi K1 K2 K3).
    - destruct K as [-> K]. split; [intros [= <-]; auto|intros [-> _]; reflexivity].
  Qed.
  Lemma check_name s f n : py_endswith n ".pisi" = false -> check h s f n = Err EImport \/ (exists e, get_package (y_db s) n RInst = Err e /\ check h s f n = Err e).
  Proof.
    intros E. unfold check, info_files, info_name_files. rewrite E. destruct (get_package (y_db s) n RInst) as [p|e]; cbn [bind]; [now left|right; eauto].
  Qed.
  Lemma check_installed_name s f n : yinv s -> is_installed (y_inst s) n = true -> py_endswith n ".pisi" = false -> check h s f n = Err EImport.
  Proof.
    intros Y I E. destruct (proj1 (yi_agree _ Y n) I) as [pk P]. destruct (check_name s f n E) as [H|(e & H & _)]; [exact H|].
    rewrite (proj2 (get_package_place (y_db s) n RInst pk place_inst) P) in H. discriminate H.
  Qed.

  (** the command *)
  Lemma check_packages_ok chk s pkgs : let r := check_packages chk s pkgs in
    (r.2 = Ok tt -> (forall p, In (Corrupt p) r.1 <-> In p pkgs /\ is_installed (y_inst s) p = true /\ exists bad, chk p = Ok bad /\ bad <> []) /\
       (forall p, In (NotInstalled p) r.1 <-> In p pkgs /\ is_installed (y_inst s) p = false)) /\
    (forall e, r.2 = Err e <-> exists before p after, pkgs = (before ++ p :: after)%list /\ is_installed (y_inst s) p = true /\ chk p = Err e /\
       forall q, In q before -> is_installed (y_inst s) q = true -> exists bad, chk q = Ok bad).
  Proof.
    cbv zeta. induction pkgs as [|p pkgs [IH1 IH2]]; cbn [check_packages].
    { split; [intros _; split; intros p; split; [intros []|intros ([] & _)|intros []|intros ([] & _)]|]. intros e. split; [discriminate|]. intros ([|b l] & p & after & E & _); discriminate E. }
    destruct (is_installed (y_inst s) p) eqn:I.
    - destruct (chk p) as [bad|x] eqn:C; cbn [fst snd].
      + split.
        * intros E. destruct (IH1 E) as [K1 K2]. split; intros q.
          -- destruct bad as [|b bad].
             ++ rewrite K1. split; [intros (A & B); split; [now right|exact B]|]. intros ([<-|A] & B & bad & B1 & B2); [congruence|split; [exact A|split; [exact B|eauto]]].
             ++ cbn [In]. rewrite K1. split; [intros [[= <-]|(A & B)]; [split; [now left|]; split; [exact I|]; eexists; split; [exact C|discriminate]|split; [now right|exact B]]|].
                intros ([<-|A] & B); [now left|right; split; [exact A|exact B]].
          -- destruct bad as [|b bad]; cbn [In]; rewrite K2.
             ++ split; [intros (A & B); split; [now right|exact B]|]. intros ([<-|A] & B); [congruence|auto].
             ++ split; [intros [[=]|(A & B)]; split; [now right|exact B]|]. intros ([<-|A] & B); [congruence|auto].
        * intros e. rewrite IH2. split.
          -- intros (b & q & a & -> & A & B & D). exists (p :: b), q, a. split; [reflexivity|]. split; [exact A|]. split; [exact B|]. intros z [<-|Hz] Iz; [eauto|auto].
          -- intros ([|z b] & q & a & E & A & B & D); [injection E as <- <-; congruence|]. injection E as <- ->. exists b, q, a. split; [reflexivity|]. split; [exact A|]. split; [exact B|]. intros y Hy. apply D. now right.
      + split; [discriminate|]. intros e. split.
        * intros [= <-]. exists [], p, pkgs. split; [reflexivity|]. split; [exact I|]. split; [exact C|]. intros q [].
        * intros ([|z b] & q & a & E & A & B & D); [injection E as <- <-; congruence|]. injection E as <- ->. destruct (D p (or_introl eq_refl) I) as (bad & K). congruence.
    - cbn [fst snd]. split.
      + intros E. destruct (IH1 E) as [K1 K2]. split; intros q; cbn [In].
        * rewrite K1. split; [intros [[=]|(A & B)]; split; [now right|exact B]|]. intros ([<-|A] & B); [destruct B; congruence|right; split; [exact A|exact B]].
        * rewrite K2. split; [intros [[= <-]|(A & B)]; [split; [now left|exact I]|split; [now right|exact B]]|]. intros ([<-|A] & B); [now left|right; auto].
      + intros e. rewrite IH2. split.
        * intros (b & q & a & -> & A & B & D). exists (p :: b), q, a. split; [reflexivity|]. split; [exact A|]. split; [exact B|]. intros z [<-|Hz] Iz; [congruence|auto].
        * intros ([|z b] & q & a & E & A & B & D); [injection E as <- <-; congruence|]. injection E as <- ->. exists b, q, a. split; [reflexivity|]. split; [exact A|]. split; [exact B|]. intros y Hy. apply D. now right.
  Qed.

  Lemma command_fails s args : (exists n, In n args /\ is_installed (y_inst s) n = true) -> (check_command s args).2 = Err EAttribute.
  Proof.
    intros (n & Hn & I). unfold check_command. destruct args as [|a args]; [destruct Hn|]. revert Hn. generalize (a :: args). clear a args. intros args. induction args as [|a args IH]; intros Hn; [destruct Hn|].
    cbn [check_packages]. destruct (is_installed (y_inst s) a) eqn:E; [reflexivity|]. cbn [snd]. apply IH. destruct Hn as [->|Hn]; [congruence|exact Hn].
  Qed.

  (** ** After an installation *)
  Section fresh.
    Context (o : opts) (D : destination (o_dest o)) (k : pkgfile) (Ok_ : in_order k).
    Definition kind (e : Fs.entry) : option node := match e with AFile c => Some (NFile c) | ALink t => Some (NLink t) | ADir => None end.
    Definition done (l : list (string * Fs.entry)) (f : fs) : Prop :=
      forall p e n, In (p, e) l -> kind e = Some n -> (forall fi, In fi (k_files k) -> f_path fi = p -> ~ is_config fi) -> f !! located (o_dest o) p = Some n.
    Lemma unpack_link p t f f' : relative_path p -> unpack_one (k_format k) (o_dest o) (p, ALink t) f = Ok f' -> f' !! located (o_dest o) p = Some (NLink t).
    Proof.
      intros R H. destruct (k_format k); cbn [unpack_one] in H.
      2: { unfold unpack_tar in H. cbn [fst snd] in H. rewrite join_located in H by assumption. cbv zeta in H.
           apply Proof.DatabaseFacts.bind_ok in H as (f2 & _ & H). destruct (node_at f2 _) as [[]|]; try discriminate; injection H as <-; apply lookup_insert. }
      unfold unpack_zip in H. cbn [fst snd] in H. rewrite join_located in H by assumption.
      apply Proof.DatabaseFacts.bind_ok in H as (f1 & _ & H). apply Proof.DatabaseFacts.bind_ok in H as (f2 & _ & H). cbv zeta in H.
      destruct (node_at _ _); [discriminate H|]. injection H as <-. apply lookup_insert.
    Qed.
    Lemma unpack_done l : (forall pe, In pe l -> In pe (k_data k)) -> NoDup (map fst l) -> forall dn, (forall pe, In pe dn -> In pe (k_data k)) -> (forall p e e', In (p, e) dn -> In (p, e') l -> False) ->
      triple (fun _ => True) (done dn) (eachM (fun pe => touch (unpack_one (k_format k) (o_dest o) pe)) l) (fun _ => done (rev l ++ dn)).
    Proof.
      induction l as [|[p e] l IH]; intros Sub Nd dn Sd Dis; cbn [eachM rev app]; [apply t_ret; auto|].
      apply NoDup_cons in Nd as [Np Nd]. apply (t_bind _ _ _ (fun _ => done ((p, e) :: dn))).
      - apply t_touch; [auto|]. intros f f' Hd U. split; [exact Logic.I|]. intros q e' n Hq Ke Nc. pose proof Ok_ as (_ & _ & _ & K1 & K2).
        destruct (K1 p e (Sub _ (or_introl eq_refl))) as [Rp _]. destruct Hq as [[= <- <-]|Hq].
        + destruct e as [c| |t]; [injection Ke as <-; eapply unpack_file; eauto|discriminate|injection Ke as <-; eapply unpack_link; eauto].
        + assert (Hd' := Hd q e' n Hq Ke Nc). assert (Nq : q <> p) by (intros ->; eapply Dis; [exact Hq|left; reflexivity]).
          destruct (unpack_only _ _ _ _ _ _ (located (o_dest o) q) D Rp U) as [G|[[G _]|[[t Et] G]]]; [intros E; apply located_inj in E; congruence|congruence|congruence|].
          apply above_located in G. pose proof (K2 _ _ _ _ (Sub _ (or_introl eq_refl)) (Sd _ Hq) G). congruence.
      - intros _. rewrite <- app_assoc. apply IH; [intros pe Hp; apply Sub; now right|exact Nd|intros pe [<-|Hp]; [apply Sub; now left|auto]|].
        intros q e1 e2 [[= <- <-]|Hq] Hq'; [apply Np, elem_of_list_In, in_map_iff; exists (p, e2); auto|eapply Dis; [exact Hq|right; exact Hq']].
    Qed.
    Definition configs (ch : list string) : Prop := forall x, In x ch -> exists fi, In fi (k_files k) /\ is_config fi /\ x = located (o_dest o) (f_path fi).
    Lemma keep_config_ch ch fi hash : configs ch -> In fi (k_files k) -> is_config fi ->
      triple (fun _ => True) (fun _ => True) (keep_config h o ch (f_path fi) hash) (fun ch' _ => configs ch').
    Proof.
      intros Hc Hf Cf. pose proof Ok_ as (_ & _ & K & _). destruct (K fi Hf) as [R _]. unfold keep_config. rewrite join_located by assumption. cbv zeta.
      apply (t_bind _ _ _ (fun _ _ => True)); [apply t_look; auto|]. intros [x|]; [|apply t_ret; auto]. destruct (bool_decide _); [apply t_ret; auto|].
      apply (t_bind _ _ _ (fun _ _ => True)); [|intros _; apply t_ret; intros f _; split; [exact Logic.I|]; intros y Hy; apply in_app_iff in Hy as [Hy|[<-|[]]]; [auto|eauto]].
      unfold put_aside. apply (t_bind _ _ _ (fun _ _ => True)); [apply t_touch; auto|]. intros _. apply t_touch; auto.
    Qed.
    Lemma keep_configs_ch pairs : (forall a b, In (a, b) pairs -> In a (k_files k)) -> forall ch, configs ch ->
      triple (fun _ => True) (fun _ => True) (keep_configs h o pairs ch) (fun ch' _ => configs ch').
    Proof.
      induction pairs as [|[a b] pairs IH]; intros H ch Hc; cbn [keep_configs]; [apply t_ret; auto|]. destruct (String.eqb (f_path a) (f_path b)) eqn:E; [|now apply t_throw]. apply String.eqb_eq in E.
      apply (t_bind _ _ _ (fun ch' _ => configs ch')).
      - destruct (String.eqb (f_type a) "config") eqn:Ea; cbn [andb]; [|apply t_ret; auto]. destruct (String.eqb (f_type b) "config"); [|apply t_ret; auto].
        rewrite <- E. apply keep_config_ch; [exact Hc|eapply H; left; reflexivity|now apply String.eqb_eq].
      - intros ch' w Hw. apply (IH (fun a b K => H a b (or_intror K)) ch' Hw w Logic.I).
    Qed.
    Lemma keep_stray_ch files : (forall a, In a files -> In a (k_files k)) -> forall ch, configs ch ->
      triple (fun _ => True) (fun _ => True) (keep_stray h o files ch) (fun ch' _ => configs ch').
    Proof.
      induction files as [|a files IH]; intros H ch Hc; cbn [keep_stray]; [apply t_ret; auto|].
      apply (t_bind _ _ _ (fun ch' _ => configs ch')).
      - destruct (String.eqb (f_type a) "config") eqn:Ea; [|apply t_ret; auto]. apply keep_config_ch; [exact Hc|apply H; left; reflexivity|now apply String.eqb_eq].
      - intros ch' w Hw. apply (IH (fun a K => H a (or_intror K)) ch' Hw w Logic.I).
    Qed.
    Lemma restore_done x fi : In fi (k_files k) -> is_config fi -> x = located (o_dest o) (f_path fi) ->
      triple (fun _ => True) (done (rev (k_data k))) (restore_config x) (fun _ => done (rev (k_data k))).
    Proof.
      intros Hf Cf ->. pose proof Ok_ as (Nf & _ & Kf & Kd & _).
      assert (G : forall s, s = "" \/ s = ".old" \/ s = ".newconfig" -> forall (f : fs) y, (forall q, q <> located (o_dest o) (f_path fi) +:+ s -> y !! q = f !! q) -> done (rev (k_data k)) f -> done (rev (k_data k)) y).
      { intros s Hs f y Hy Hd p e n Hp Ke Nc. rewrite Hy; [eapply Hd; eauto|]. rewrite <- located_app. intros E. apply located_inj in E. apply in_rev in Hp. destruct (Kd _ _ Hp) as [_ Sp].
        destruct Hs as [->|[->| ->]]; [|apply Sp; exists (f_path fi); auto|apply Sp; exists (f_path fi); auto]. rewrite str_app_nil_r in E. exact (Nc fi Hf (eq_sym E) Cf). }
      assert (Gd : forall s, s = "" \/ s = ".old" \/ s = ".newconfig" -> forall f : fs, done (rev (k_data k)) f -> done (rev (k_data k)) (delete (located (o_dest o) (f_path fi) +:+ s) f)).
      { intros s Hs f. apply (G s Hs). intros q Hq. apply lookup_delete_ne. congruence. }
      assert (Gi : forall s, s = "" \/ s = ".old" \/ s = ".newconfig" -> forall (f : fs) n, done (rev (k_data k)) f -> done (rev (k_data k)) (<[located (o_dest o) (f_path fi) +:+ s := n]> f)).
      { intros s Hs f n. apply (G s Hs). intros q Hq. apply lookup_insert_ne. congruence. }
      assert (E0 : located (o_dest o) (f_path fi) = located (o_dest o) (f_path fi) +:+ "") by (now rewrite str_app_nil_r).
      unfold restore_config. apply (t_bind _ _ _ (fun _ => done (rev (k_data k)))).
      { apply t_touch; [auto|]. intros f f' Hd H. split; [exact Logic.I|]. destruct (exists_ f _); [apply unlink_ok in H as [_ ->]; apply Gd; auto|now injection H as <-]. }
      intros _. apply (t_bind _ _ _ (fun _ => done (rev (k_data k)))).
      - apply t_touch; [auto|]. intros f f' Hd H. split; [exact Logic.I|]. apply rename_ok in H as (n & _ & _ & ->). apply Gi; [auto|]. rewrite E0. apply Gd; auto.
      - intros _. apply t_touch; [auto|]. intros f f' Hd H. split; [exact Logic.I|]. apply rename_ok in H as (n & _ & _ & ->). rewrite E0 at 1. apply Gi; [auto|]. apply Gd; auto.
    Qed.
    Lemma extract_done old : triple (fun _ => True) (fun _ => True) (extract_install h o k old) (fun _ => done (rev (k_data k))).
    Proof.
      unfold extract_install. cbv zeta. apply (t_bind _ _ _ (fun ch _ => configs ch)).
      { destruct old as [old|]; [|apply keep_stray_ch; [auto|intros x []]]. apply keep_configs_ch; [|intros x []]. intros a b Hab. apply elem_of_list_In, elem_of_zip_l, elem_of_list_In, filter_In in Hab as [Hab _].
        now rewrite sort_perm in Hab. }
      intros ch w Hc.
      assert (T : triple (fun _ => True) (done []) (do! eachM (fun pe => touch (unpack_one (k_format k) (o_dest o) pe)) (k_data k) in do! eachM restore_config ch in
        match old with Some old => if existsb (fun x => negb (has_path (k_files k) x)) old then throw EType else ret tt | None => ret tt end) (fun _ => done (rev (k_data k)))).
      2: { apply (T w). intros p e n []. }
      apply (t_bind _ _ _ (fun _ => done (rev (k_data k)))).
      - pose proof (unpack_done (k_data k) (fun _ H => H) (proj1 (proj2 Ok_)) [] (fun _ (H : In _ []) => match H with end) (fun _ _ _ (H : In _ []) => match H with end)) as U.
        rewrite app_nil_r in U. exact U.
      - intros _. apply (t_bind _ _ _ (fun _ => done (rev (k_data k)))).
        + apply t_each; [auto|]. intros x Hx. destruct (Hc x Hx) as (fi & A & B & E). now apply (restore_done x fi).
        + intros _. destruct old as [old|]; [destruct (existsb _ _); [now apply t_throw|]|]; apply t_ret; auto.
    Qed.
    Lemma install_done i a w w' : install_package h o k i a w = (w', Ok tt) -> done (rev (k_data k)) (w_fs w').
    Proof.
      intros H. assert (T : triple (fun _ => True) (fun _ => True) (install_package h o k i a) (fun _ => done (rev (k_data k)))).
      { unfold install_package. cbv zeta. apply (t_bind _ _ _ (fun _ _ => True)); [apply still_t; [auto|apply s_relations]|]. intros _.
        apply (t_bind _ _ _ (fun _ _ => True)); [apply still_t; [auto|apply s_reinstall]|]. intros old.
        apply (t_bind _ _ _ (fun _ => done (rev (k_data k)))); [apply extract_done|]. intros _.
        apply (t_bind _ _ _ (fun _ => done (rev (k_data k)))); [apply still_t; [auto|apply s_store]|]. intros _.
        apply still_t; [auto|]. apply s_bind; [destruct (o_comar o); [apply s_hook|apply s_ret]|]. intros _. apply s_bind; [apply s_commit|]. intros _. apply s_note. }
      destruct (T w Logic.I) as [_ K]. rewrite H in K. exact (K tt eq_refl).
    Qed.
    Lemma fresh_passes i a w w' file s : o_dest o = "/" -> truthful (h_sha1 h) k -> py_endswith file ".pisi" = true -> h_open h file = Ok k ->
      install_package h o k i a w = (w', Ok tt) -> check h s (w_fs w') file = Ok [].
    Proof.
      intros Ed T En Eo H. pose proof (install_done i a w w' H) as Dn. pose proof Ok_ as (Nf & Nd & Kf & _).
      unfold check, info_files. rewrite En, Eo. cbn [bind].
      pose proof (check_files_ok (w_fs w') (k_files k) (fun fi Hf => proj1 (Kf fi Hf))) as C.
      assert (G : forall fi, In fi (k_files k) -> to_verify fi -> (exists c, w_fs w' !! located "/" (f_path fi) = Some (NFile c) /\ f_hash fi = Some (h_sha1 h c)) \/ a_link (w_fs w') (located "/" (f_path fi))).
      { intros fi Hf V. assert (Nc : forall fj, In fj (k_files k) -> f_path fj = f_path fi -> ~ is_config fj).
        { intros fj Hj E. rewrite (nodup_path_eq _ fj fi Nf Hj Hf E). apply V. }
        unfold done in Dn. rewrite Ed in Dn. destruct (T fi Hf V) as [(c & Hc & E)|(t & Ht)].
        - left. exists c. split; [|exact E]. apply (Dn _ _ _ (proj1 (in_rev _ _) Hc) eq_refl Nc).
        - right. exists t. apply (Dn _ _ _ (proj1 (in_rev _ _) Ht) eq_refl Nc). }
      destruct (check_files h (w_fs w') (k_files k)) as [bad|e].
      - destruct C as (_ & C & _). destruct bad as [|b bad]; [reflexivity|]. exfalso. destruct (proj1 (C b) (or_introl eq_refl)) as (C1 & C2 & c & C3 & C4).
        destruct (G b C1 C2) as [(c' & G1 & G2)|(t & G1)]; congruence.
      - exfalso. destruct C as (_ & fi & C1 & C2 & C3 & C4). destruct (G fi C1 C2) as [(c' & G1 & _)|G1]; [exact (C4 _ G1)|exact (C3 G1)].
    Qed.
  End fresh.
End check.
