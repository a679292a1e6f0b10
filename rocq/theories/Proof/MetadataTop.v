(** * The metadata of a built package says what the spec says *)
From Coq Require Import String Ascii ZArith NArith List Bool Lia.
From stdpp Require Import gmap strings.
From Verif Require Import Model.Py Model.Path Model.Xml Model.Schema Model.XmlFile Model.Metadata Spec.XmlSpec Spec.SpecFileSpec Spec.MetadataSpec
  Proof.PyFacts Proof.XmlText Proof.XmlTree Proof.XmlRound Proof.XmlMain Proof.XmlRead Proof.XmlFileFacts Proof.SpecFileFacts Proof.MetadataFacts.
Import ListNotations.
Open Scope string_scope.

Lemma Forall2_nth {A B} (P : A -> B -> Prop) l l' : Forall2 P l l' -> forall i y, nth_error l' i = Some y -> exists x, nth_error l i = Some x /\ P x y.
Proof. induction 1 as [|a b l l' Hab F IH]; intros [|i] y; cbn; try discriminate; [intros [= <-]; eauto|apply IH]. Qed.
Lemma Forall2_nth_l {A B} (P : A -> B -> Prop) l l' : Forall2 P l l' -> forall i x, nth_error l i = Some x -> exists y, nth_error l' i = Some y /\ P x y.
Proof. induction 1 as [|a b l l' Hab F IH]; intros [|i] y; cbn; try discriminate; [intros [= <-]; eauto|apply IH]. Qed.
Lemma string_value v : carried (Basic TString) v -> v <> VNone -> exists t, v = VStr t.
Proof. destruct v; cbn; intros H N; try contradiction; try (exfalso; congruence); eauto. Qed.

Section keys.
Context (keys : gmap utext (option utext) -> list utext) (lang : utext).
Hypothesis O : any_order keys.

(** Names, versions and releases are texts *)
Lemma update_texts e v : update_of e v -> exists o a b, v = VObj o /\ field o "version" = VStr a /\ field o "release" = VStr b.
Proof.
  intros (o & -> & D & _ & (t & _ & (b & B & _))). exists o.
  assert (K : exists a, field o "version" = VStr a).
  { destruct (member_good c_Update e o (string_tag "Version" true) eq_refl D) as (A & _ & C); [cbn; tauto|reflexivity|]. exact (string_value _ A (C eq_refl)). }
  destruct K as [a A]. eauto.
Qed.
Lemma source_version spec s1 s src u us k : decode c_Source src = Ok (s, []) -> Forall2 update_of (updates spec) (VObj u :: us) -> In k ["version"; "release"] ->
  field s1 k = (if truth (field s k) then field s k else field u k) -> exists t, field s1 k = VStr t.
Proof.
  intros D U K ->. destruct (truth (field s k)) eqn:T.
  - assert (G : carried (Basic TString) (field s k)).
    { destruct K as [<-|[<-|[]]].
      - destruct (member_good c_Source src s (string_tag "Version" false) eq_refl D) as (A & _); [cbn; tauto|reflexivity|]. exact A.
      - destruct (member_good c_Source src s (string_tag "Release" false) eq_refl D) as (A & _); [cbn; tauto|reflexivity|]. exact A. }
    apply (string_value _ G). intros E. rewrite E in T. discriminate T.
  - inversion U as [|x y xs ys Ux]; subst. destruct (update_texts _ _ Ux) as (o & a & b & [= <-] & A & B). destruct K as [<-|[<-|[]]]; eauto.
Qed.

Theorem built_iff c above spec i size build_no o src : usable c above build_no -> read_spec lang spec = Ok o -> hd_error (elements "Source" spec) = Some src ->
  (i < length (elements "Package" spec))%nat ->
  (exists r, built keys lang c above spec i size build_no = Ok r) <->
  (given "PartOf" src \/ above <> None) /\ s_distribution c <> "" /\ s_distribution_release c <> "" /\ size <> 0%Z.
Proof using O.
  intros Us R S L. unfold built. rewrite R. cbn [bind].
  assert (DS : exists s, decode c_Source src = Ok (s, [])).
  { destruct (read_spec_parts _ _ _ R) as (r & D & H & Er). destruct (spec_decoded spec r D) as (src' & s0 & pkgs & S1 & S2 & S3 & _). rewrite S in S1. injection S1 as <-. eauto. }
  destruct DS as [s DS]. pose proof (component_found lang spec o above src s R S DS) as CF.
  assert (PO : truth (field s "partOf") = true <-> given "PartOf" src).
  { assert (K : decode_tag (Basic TString) "PartOf" false None src = Ok (field s "partOf", [])) by (apply (member_decoded c_Source src s (string_tag "PartOf" false) eq_refl DS); cbn; tauto).
    exact (proj2 (string_says _ _ _ _ _ K)). }
  rewrite PO in CF. destruct (fetch_component above o) as [o1|] eqn:FC; cbn [bind].
  2: { split; [intros [r K]; discriminate K|]. intros [A _]. apply CF in A as [o1 K]. discriminate K. }
  assert (C : given "PartOf" src \/ above <> None) by (apply CF; eauto).
  destruct (spec_parts lang spec o above o1 R FC) as (src' & s' & s1 & vs & u & us & S1 & S3 & E2 & E4 & Fs & Fh & U & Dh & Fv & Fp & PP & SE).
  rewrite S in S1. injection S1 as <-. rewrite DS in S3. injection S3 as <-. rewrite E2, E4. cbn [as_object as_list bind].
  destruct (nth_error (elements "Package" spec) i) as [e|] eqn:Ne; [|apply nth_error_None in Ne; lia].
  destruct (Forall2_nth_l _ _ _ PP i e Ne) as (v & -> & alone & p & -> & De & Po & Pi & Ph & Pr & Pe). cbn [as_object bind].
  split.
  - intros [r K]. destruct (write keys lang c_MetaData (gen_metadata c size build_no s1 p)) as [m|] eqn:W; cbn [bind] in K; [|discriminate K].
    split; [exact C|]. exact (written_mandatory _ _ _ _ _ _ _ _ W).
  - intros (_ & Nd & Nr & Nz). assert (Np : truth (field s "partOf") = true \/ above <> None) by now rewrite PO.
    destruct (metadata_good c above build_no size src e s s1 alone p spec _ Us DS De Fs Fh Dh Fp Po Pi Ph Pr Nd Nr Nz Np) as [G1 G2].
    pose proof (metadata_valid c above build_no size lang src e s s1 alone p _ Us DS De Fs Fh Fp Po Ph Pe SE Np) as V.
    destruct (complete_object_encodes keys c_MetaData (gen_metadata c size build_no s1 p) (Elem "PISI" [] []) O eq_refl G1 G2) as [m W].
    assert (W' : write keys lang c_MetaData (gen_metadata c size build_no s1 p) = Ok m) by (apply write_ok; split; [exact V|exact W]).
    rewrite W'. cbn [bind].
    destruct (own_good e alone p De Pr "Name" (Basic TString) true None) as (N1 & _ & N2); [cbn; tauto|reflexivity|cbn; intuition discriminate|discriminate|discriminate|].
    change (mixed_case "Name") with "name" in *. destruct (string_value _ N1 (N2 eq_refl)) as [name ->]. cbn [as_text bind].
    destruct (source_version spec s1 s src u us "version" DS U) as [version ->]; [cbn; tauto|apply Fv; cbn; tauto|]. cbn [as_text bind].
    destruct (source_version spec s1 s src u us "release" DS U) as [release ->]; [cbn; tauto|apply Fv; cbn; tauto|]. cbn [as_text bind]. eauto.
Qed.

Theorem built_describes c above spec i size build_no f m : usable c above build_no -> built keys lang c above spec i size build_no = Ok (f, m) ->
  exists src e r p, hd_error (elements "Source" spec) = Some src /\ nth_error (elements "Package" spec) i = Some e /\
    read no_hook lang c_MetaData m = Ok r /\ source_of src (field r "source") /\ field r "package" = VObj p /\ package_of spec src e above p /\
    field p "distribution" = VStr (s_distribution c) /\ field p "distributionRelease" = VStr (s_distribution_release c) /\
    field p "packageFormat" = match s_format c with Some f => VStr f | None => VNone end /\
    field p "installedSize" = VInt size /\ field p "build" = match build_no with Some b => VInt b | None => VNone end /\
    exists name version release, says "Name" e (VStr name) /\ version_of spec src version /\ release_of spec src release /\
      f = file_name name version release build_no.
Proof using O.
  intros Us B. pose proof B as B0. unfold built in B. destruct (read_spec lang spec) as [o|] eqn:R; cbn [bind] in B; [|discriminate B].
  destruct (fetch_component above o) as [o1|] eqn:FC; cbn [bind] in B; [|discriminate B].
  destruct (spec_parts lang spec o above o1 R FC) as (src & s & s1 & vs & u & us & S1 & DS & E2 & E4 & Fs & Fh & U & Dh & Fv & Fp & PP & SE).
  rewrite E2, E4 in B. cbn [as_object as_list bind] in B. destruct (nth_error vs i) as [v|] eqn:Nv; [|discriminate B].
  destruct (Forall2_nth _ _ _ PP i v Nv) as (e & Ne & alone & p & -> & De & Po & Pi & Ph & Pr & Pe). cbn [as_object bind] in B.
  destruct (write keys lang c_MetaData (gen_metadata c size build_no s1 p)) as [m0|] eqn:W; cbn [bind] in B; [|discriminate B].
  destruct (written_mandatory _ _ _ _ _ _ _ _ W) as (Nd & Nr & Nz).
  assert (PO : truth (field s "partOf") = true <-> given "PartOf" src).
  { assert (K : decode_tag (Basic TString) "PartOf" false None src = Ok (field s "partOf", [])) by (apply (member_decoded c_Source src s (string_tag "PartOf" false) eq_refl DS); cbn; tauto).
    exact (proj2 (string_says _ _ _ _ _ K)). }
  assert (Np : truth (field s "partOf") = true \/ above <> None) by (destruct (truth (field s "partOf")); [now left|]; destruct Fp as (a & -> & _); right; discriminate).
  destruct (metadata_good c above build_no size src e s s1 alone p spec _ Us DS De Fs Fh Dh Fp Po Pi Ph Pr Nd Nr Nz Np) as [G1 G2].
  assert (MP : forall mm, In mm package_members -> decode_member e mm = Ok (field alone (member_name mm), [])) by (intros mm M; exact (member_decoded c_Package e alone mm eq_refl De M)).
  assert (MS : forall mm, In mm (members_of c_Source) -> decode_member src mm = Ok (field s (member_name mm), [])) by (intros mm M; exact (member_decoded c_Source src s mm eq_refl DS M)).
  assert (Tag2 : forall tag name, In (string_tag tag false) package_members -> In (string_tag tag false) (members_of c_Source) -> mixed_case tag = name ->
    (says tag e (field alone name) /\ (truth (field alone name) = true <-> given tag e)) /\ (says tag src (field s name) /\ (truth (field s name) = true <-> given tag src))).
  { intros tag name A1 A2 <-. split; [exact (string_says tag false None _ _ (MP _ A1))|exact (string_says tag false None _ _ (MS _ A2))]. }
  assert (SO : source_of src (VObj (from_source s1))).
  { exists (from_source s1). split; [reflexivity|]. cbn [from_source]. split; [|split].
    - change (field _ "name") with (field s1 "name"). rewrite Fs by (cbn; intuition discriminate). apply (string_says "Name" true None). apply (MS (string_tag "Name" true)). cbn. tauto.
    - change (field _ "homepage") with (field s1 "homepage"). rewrite Fs by (cbn; intuition discriminate). apply (string_says "Homepage" false None). apply (MS (string_tag "Homepage" false)). cbn. tauto.
    - change (field _ "packager") with (field s1 "packager"). rewrite Fs by (cbn; intuition discriminate).
      assert (K : decode_member src (Tag "Packager" c_Packager true None) = Ok (field s "packager", [])) by (apply (MS (Tag "Packager" c_Packager true None)); cbn; tauto).
      unfold decode_member, c_Packager in K. rewrite decode_object_eq, getNode_elements in K. destruct (hd_error (elements "Packager" src)) as [pe|]; [|discriminate K].
      destruct (decode_members pe _ []) as [[q er]|] eqn:Q; cbn [bind fst snd run_hook] in K; [|discriminate K]. injection K as K ->. exists pe, q. split; [reflexivity|]. split; [now symmetry|].
      unfold decode, c_Packager. cbn [members_of hook_of]. rewrite Q. reflexivity. }
  destruct (own_good e alone p De Pr "Name" (Basic TString) true None) as (N1 & _ & N2); [cbn; tauto|reflexivity|cbn; intuition discriminate|discriminate|discriminate|].
  change (mixed_case "Name") with "name" in *. destruct (string_value _ N1 (N2 eq_refl)) as [name Ename].
  assert (SayName : says "Name" e (field p "name")).
  { rewrite Pr by (cbn; intuition discriminate). apply (string_says "Name" true None). apply (MP (string_tag "Name" true)). cbn. tauto. }
  destruct (source_version spec s1 s src u us "version" DS U) as [version Ever]; [cbn; tauto|apply Fv; cbn; tauto|].
  destruct (source_version spec s1 s src u us "release" DS U) as [release Erel]; [cbn; tauto|apply Fv; cbn; tauto|].
  rewrite Ename, Ever, Erel in B. cbn [as_text bind] in B. injection B as <- <-.
  exists src, e, (gen_metadata c size build_no s1 p). eexists. split; [exact S1|]. split; [exact Ne|].
  split; [exact (write_read keys lang c_MetaData _ m0 O eq_refl G1 W)|]. split; [exact SO|]. split; [reflexivity|]. split.
  { unfold package_of. split; [exact SayName|]. split; [|split; [|split; [|split; [|split; [|split; [|split]]]]]].
    - change (part_of src e above (field p "partOf")). rewrite (Po "partOf") by (cbn; tauto). unfold picked.
      destruct (Tag2 "PartOf" "partOf") as [[A1 A2] [B1 B2]]; [cbn; tauto|cbn; tauto|reflexivity|]. unfold part_of.
      destruct (truth (field alone "partOf")) eqn:Ta.
      + split; [auto|]. assert (G : given "PartOf" e) by now apply A2. split; intros N; contradiction.
      + assert (G : ~ given "PartOf" e) by (intros G; apply A2 in G; discriminate G). split; [contradiction|].
        destruct (truth (field s "partOf")) eqn:Ts; [rewrite Fp; split; [auto|]; intros _ N; destruct N; now apply B2|].
        split; [intros _ N; apply B2 in N; discriminate N|]. intros _ _. exact Fp.
    - change ((given "Icon" e -> says "Icon" e (field p "icon")) /\ (~ given "Icon" e -> says "Icon" src (field p "icon"))). rewrite (Po "icon") by (cbn; tauto). unfold picked.
      rewrite Fs by (cbn; intuition discriminate). destruct (Tag2 "Icon" "icon") as [[A1 A2] [B1 B2]]; [cbn; tauto|cbn; tauto|reflexivity|].
      destruct (truth (field alone "icon")); [split; [auto|]; intros N; destruct N; now apply A2|split; [|auto]; intros N; apply A2 in N; discriminate N].
    - intros tag nm T.
      match goal with |- context [field ?l nm] => assert (V : field l nm = picked alone s1 nm /\ In nm overridden /\ ~ In nm ["history"; "version"; "release"; "partOf"]) end.
      { destruct T as [[= <- <-]|[[= <- <-]|[]]].
        - split; [exact (Po "summary" (or_introl eq_refl))|]. split; cbn; [tauto|intuition discriminate].
        - split; [apply (Po "description"); cbn; tauto|]. split; cbn; [tauto|intuition discriminate]. }
      destruct V as (V & V2 & V3). rewrite V. unfold picked. rewrite (Fs nm V3).
      assert (K : decode_tag LocalText tag false None e = Ok (field alone nm, []) /\ decode_tag LocalText tag true None src = Ok (field s nm, [])).
      { destruct T as [[= <- <-]|[[= <- <-]|[]]].
        - split; [apply (MP (local_tag "Summary" false)); cbn; tauto|apply (MS (local_tag "Summary" true)); cbn; tauto].
        - split; [apply (MP (local_tag "Description" false)); cbn; tauto|apply (MS (local_tag "Description" true)); cbn; tauto]. }
      destruct K as [K1 K2]. destruct (local_says _ _ _ _ _ K1) as [A A']. destruct (local_says _ _ _ _ _ K2) as [A2 _].
      destruct (truth (field alone nm)).
      + split; [auto|]. intros N. destruct (proj1 A' eq_refl N).
      + split; [|auto]. intros N. apply A' in N. discriminate N.
    - match goal with |- context [field ?l "license"] => change (field l "license") with (field p "license") end.
      assert (K1 : decode_tag (ListOf (Basic TString)) "License" false None e = Ok (field alone "license", [])) by (apply (MP (list_tag "License" (Basic TString) false None)); cbn; tauto).
      assert (K2 : decode_tag (ListOf (Basic TString)) "License" true None src = Ok (field s "license", [])) by (apply (MS (list_tag "License" (Basic TString) true None)); cbn; tauto).
      destruct (strings_say "License" false None _ _ eq_refl K1) as (l & L1 & L2 & L3). destruct (strings_say "License" true None _ _ eq_refl K2) as (l' & L1' & L2' & _).
      rewrite (Po "license") by (cbn; tauto). unfold picked. rewrite Fs by (cbn; intuition discriminate). destruct (truth (field alone "license")).
      + exists l. split; [exact L1|]. split; [auto|]. intros N. destruct (proj1 L3 eq_refl N).
      + exists l'. split; [exact L1'|]. split; [|auto]. intros N. apply L3 in N. discriminate N.
    - match goal with |- context [field ?l "isA"] => change (field l "isA") with (field p "isA") end.
      assert (K1 : decode_tag (ListOf (Basic TString)) "IsA" false None e = Ok (field alone "isA", [])) by (apply (MP (list_tag "IsA" (Basic TString) false None)); cbn; tauto).
      assert (K2 : decode_tag (ListOf (Basic TString)) "IsA" false None src = Ok (field s "isA", [])) by (apply (MS (list_tag "IsA" (Basic TString) false None)); cbn; tauto).
      destruct (strings_say "IsA" false None _ _ eq_refl K1) as (l & L1 & L2 & L3). destruct (strings_say "IsA" false None _ _ eq_refl K2) as (l' & L1' & L2' & _).
      destruct Pi as (v & w & I1 & I2 & I3). rewrite Fs in I2 by (cbn; intuition discriminate). rewrite L1 in I1. rewrite L1' in I2. injection I1 as <-. injection I2 as <-. exists l, l'. split; [|auto].
      rewrite I3. unfold strings. now rewrite map_app.
    - match goal with |- context [field ?l "history"] => change (field l "history") with (field s1 "history") end. rewrite Fh. exists (VObj u :: us). split; [reflexivity|]. split; [discriminate|exact U].
    - exact SO.
    - exists alone. split; [exact De|]. intros nm T. cbn [In] in T.
      repeat (destruct T as [<-|T]; [match goal with |- field ?l ?k = _ => change (field l k) with (field p k) end; apply Pr; [cbn; intuition discriminate|discriminate|discriminate]|]). destruct T. }
  split; [reflexivity|]. split; [reflexivity|]. split; [reflexivity|]. split; [reflexivity|]. split; [reflexivity|].
  exists name, version, release. split; [rewrite <- Ename; exact SayName|].
  assert (Upd : exists e0 rest, updates spec = e0 :: rest /\ update_of e0 (VObj u)) by (inversion U; subst; eauto). destruct Upd as (e0 & rest & Eu & w & [= <-] & Du & SayV & SayR).
  split; [|split].
  - unfold version_of.
    assert (K : decode_tag (Basic TString) "Version" false None src = Ok (field s "version", [])) by (apply (MS (string_tag "Version" false)); cbn; tauto).
    destruct (string_says _ _ _ _ _ K) as [A A']. rewrite (Fv "version") in Ever by (cbn; tauto). destruct (truth (field s "version")).
    + rewrite <- Ever. split; [auto|]. intros N. destruct N. now apply A'.
    + rewrite <- Ever. split; [intros N; apply A' in N; discriminate N|]. intros _. eauto.
  - unfold release_of. 
    assert (K : decode_tag (Basic TString) "Release" false None src = Ok (field s "release", [])) by (apply (MS (string_tag "Release" false)); cbn; tauto).
    destruct (string_says _ _ _ _ _ K) as [A A']. rewrite (Fv "release") in Erel by (cbn; tauto). destruct (truth (field s "release")).
    + rewrite <- Erel. split; [auto|]. intros N. destruct N. now apply A'.
    + rewrite <- Erel. split; [intros N; apply A' in N; discriminate N|]. intros _. eauto.
  - unfold package_name, file_name, build_part, package_suffix. destruct Us as (_ & _ & _ & _ & Ub).
    destruct build_no as [z|]; [destruct (Z.eqb_spec z 0) as [->|_]; [congruence|]|]; rewrite !PyFacts.str_app_assoc; reflexivity.
Qed.
End keys.

Lemma codes_inj a b : codes a = codes b -> a = b.
Proof.
  unfold codes. revert b. induction a as [|x a IH]; destruct b as [|y b]; cbn; try discriminate; [reflexivity|].
  intros [= E F]. rewrite (IH b F). f_equal. rewrite <- (ascii_N_embedding x), <- (ascii_N_embedding y). now rewrite E.
Qed.
Lemma string_of_fun v w t : string_of v t -> string_of w t -> v = w.
Proof. intros (a & -> & A) (b & -> & B). f_equal. apply codes_inj. congruence. Qed.
Lemma says_fun tag e v w : says tag e v -> says tag e w -> v = w.
Proof. unfold says. destruct (elements tag e) as [|c l]; [congruence|]. destruct (text_at c); [apply string_of_fun|congruence]. Qed.
Lemma attribute_fun k e v w : attribute_says k e v -> attribute_says k e w -> v = w.
Proof. intros (t & A & B) (t' & A' & B'). rewrite A in A'. injection A' as <-. exact (string_of_fun _ _ _ B B'). Qed.

Theorem file_agrees keys lang c above spec i size build_no f m src r p : any_order keys -> usable c above build_no ->
  built keys lang c above spec i size build_no = Ok (f, m) -> hd_error (elements "Source" spec) = Some src -> ~ given "Version" src -> ~ given "Release" src ->
  read no_hook lang c_MetaData m = Ok r -> field r "package" = VObj p ->
  exists name version release, field p "name" = VStr name /\ version_read p = Ok (VStr version, VStr release) /\ f = file_name name version release build_no.
Proof.
  intros O Us B S Nv Nr R P. destruct (built_describes keys lang O c above spec i size build_no f m Us B)
    as (src' & e & r' & p' & S' & Ne & R' & _ & P' & D & _ & _ & _ & _ & _ & name & version & release & Sn & V & Rl & F).
  rewrite S in S'. injection S' as <-. rewrite R in R'. injection R' as <-. rewrite P in P'. injection P' as <-.
  destruct D as (Dn & _ & _ & _ & _ & _ & (us & Hu & Nn & U) & _). destruct (proj2 V Nv) as (e0 & rest & Eu & Vs). destruct (proj2 Rl Nr) as (e1 & rest1 & Eu1 & Rs).
  rewrite Eu in Eu1. injection Eu1 as <- <-. rewrite Eu in U. inversion U as [|x y xs ys (o & -> & _ & Uv & Ur)]; subst.
  exists name, version, release. split; [exact (says_fun _ _ _ _ Dn Sn)|]. split; [|reflexivity].
  unfold version_read. rewrite Hu. cbn [as_list bind as_object]. rewrite (says_fun _ _ _ _ Uv Vs), (attribute_fun _ _ _ _ Ur Rs). reflexivity.
Qed.
