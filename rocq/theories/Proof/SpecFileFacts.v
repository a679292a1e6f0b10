(** * Reading a spec *)
From Coq Require Import String Ascii ZArith NArith List Bool Lia.
From stdpp Require Import gmap strings.
From Verif Require Import Model.Py Model.Xml Model.Schema Model.XmlFile Spec.XmlSpec Spec.SpecFileSpec Proof.PyFacts Proof.XmlText Proof.XmlTree Proof.XmlRound Proof.XmlMain Proof.XmlRead.
Import ListNotations.
Open Scope string_scope.

Lemma field_assign k v l k' : field (assign k v l) k' = if String.eqb k k' then v else field l k'.
Proof. unfold field. rewrite assoc_assign. now destruct (String.eqb k k'). Qed.

(** ** What the document says and what is decoded *)
Lemma getNode_elements n tag : getNode n [tag] = hd_error (elements tag n).
Proof. cbn [getNode]. unfold getTagByName, elements. now destruct (List.filter (named tag) (children n)). Qed.
Lemma getAllNodes_elements n tag : getAllNodes n [tag] = elements tag n.
Proof. unfold getAllNodes. cbn [fold_left flat_map]. apply app_nil_r. Qed.
Lemma string_decoded c t v : getNodeText c = Ok t -> forall token mandatory, decode_basic token TString mandatory t = (v, []) ->
  match text_at c with Some t => string_of v t /\ truth v = true | None => v = VNone /\ mandatory = false end.
Proof.
  unfold getNodeText, text_at. destruct (children c) as [|[? ? ?|x] l]; [intros [= <-]|discriminate|intros [= <-]]; intros token mandatory; unfold decode_basic.
  - intros [= <- M]. split; [reflexivity|]. destruct mandatory; [discriminate M|reflexivity].
  - destruct (ustrip x) as [|a u].
    + intros [= <- M]. split; [reflexivity|]. destruct mandatory; [discriminate M|reflexivity].
    + cbn [from_text]. destruct (ascii_encode (a :: u)) as [s|] eqn:E; [|discriminate]. intros [= <-]. apply ascii_encode_some in E as [_ E].
      split; [now exists s|]. cbn [truth]. destruct s; [discriminate E|reflexivity].
Qed.
Lemma string_says token mandatory path e v : decode_tag (Basic TString) token mandatory path e = Ok (v, []) ->
  says token e v /\ (truth v = true <-> given token e).
Proof.
  cbn [decode_tag]. rewrite getNode_elements. unfold says, given. destruct (elements token e) as [|c l]; cbn [hd_error text_of bind].
  - intros [= <- _]. split; [reflexivity|]. split; [discriminate|]. intros (c & rest & t & E & _). discriminate E.
  - destruct (getNodeText c) as [t|] eqn:G; cbn [bind]; [|discriminate]. intros [= E].
    destruct (decode_basic token TString mandatory t) as [w err] eqn:D. injection E as -> ->. pose proof (string_decoded c t v G token mandatory D) as K.
    destruct (text_at c) as [u|] eqn:U.
    + destruct K as [K T]. split; [exact K|]. split; [|auto]. intros _. exists c, l, u. auto.
    + destruct K as [-> _]. split; [reflexivity|]. split; [discriminate|]. intros (c' & rest & t' & [= <- <-] & U'). congruence.
Qed.
Lemma strings_say token mandatory path e v : list_path token (Basic TString) path = [token] ->
  decode_tag (ListOf (Basic TString)) token mandatory path e = Ok (v, []) ->
  exists l, v = strings l /\ says_all token e l /\ (truth v = true <-> elements token e <> []).
Proof.
  intros P. rewrite decode_list_eq, P. cbn zeta. change (List.last [token] "") with token. rewrite getAllNodes_elements. unfold says_all.
  destruct (decode_items (Basic TString) token (elements token e)) as [[l err]|] eqn:D; cbn [bind fst snd]; [|discriminate]. intros [= <- E].
  apply app_eq_nil in E as [_ ->].
  assert (N : Forall (fun c => named token c = true) (elements token e)) by (apply List.Forall_forall; intros c C; now apply filter_In in C).
  revert l D N. generalize (elements token e). intros cs. induction cs as [|c cs IH]; intros l; cbn [decode_items].
  - intros [= <-] _. exists []. split; [reflexivity|]. split; [reflexivity|]. split; [discriminate|congruence].
  - destruct (decode_tag (Basic TString) token true None (insertNode (Elem "Dummy" [] []) c)) as [[w err]|] eqn:W; cbn [bind fst snd]; [|discriminate].
    destruct (decode_items (Basic TString) token cs) as [[l0 e0]|] eqn:D; cbn [bind fst snd]; [|discriminate]. intros [= <- E] N. apply app_eq_nil in E as [-> ->].
    inversion N as [|? ? Nc Ncs]; subst. destruct (IH l0 eq_refl Ncs) as (ss & [= ->] & S & _).
    cbn [decode_tag] in W. rewrite getNode_elements in W. cbn [insertNode app] in W. unfold elements in W. cbn [children List.filter] in W. rewrite Nc in W. cbn [hd_error text_of] in W.
    destruct (getNodeText c) as [t|] eqn:G; cbn [bind] in W; [|discriminate W]. injection W as W.
    destruct (decode_basic token TString true t) as [w' err] eqn:B. injection W as -> ->. pose proof (string_decoded c t w G token true B) as K.
    cbn [map]. destruct (text_at c) as [u|]; [|destruct K as [_ K]; discriminate K]. destruct K as [(s & -> & <-) _]. exists (s :: ss).
    split; [reflexivity|]. split; [cbn [map]; now rewrite S|]. split; [discriminate|reflexivity].
Qed.
Lemma decode_local_says tag nodes d r : decode_local tag nodes d = Ok (r, []) ->
  forall lang, r !! lang = match rev (List.filter (fun c => bool_decide (language c = lang)) nodes) with c :: _ => Some (text_at c) | [] => d !! lang end.
Proof.
  revert d. induction nodes as [|n nodes IH]; intros d; cbn [decode_local List.filter].
  - intros [= <-] lang. reflexivity.
  - destruct (getNodeText n) as [c|] eqn:G; cbn [bind]; [|discriminate]. fold (language n). change (match getNodeAttribute n "xml:lang" with Some ((_ :: _) as t) => t | _ => [101%N; 110%N] end) with (language n).
    destruct (decode_local tag nodes (<[language n:=c]> d)) as [[r0 e]|] eqn:D; cbn [bind fst snd]; [|discriminate]. intros [= -> E] lang.
    apply app_eq_nil in E as [E ->]. rewrite (IH _ D lang).
    assert (T : text_at n = c).
    { revert G E. unfold getNodeText, text_at. destruct (children n) as [|[? ? ?|x] l]; [intros [= <-]; discriminate|discriminate|intros [= <-]]. now destruct (ustrip x). }
    destruct (bool_decide (language n = lang)) eqn:B.
    + apply bool_decide_eq_true in B. subst lang. cbn [rev]. destruct (rev (List.filter _ nodes)) as [|x l]; cbn [app].
      * rewrite lookup_insert. now rewrite T.
      * reflexivity.
    + apply bool_decide_eq_false in B. destruct (rev (List.filter _ nodes)) as [|x l]; [|reflexivity]. now rewrite lookup_insert_ne by exact B.
Qed.
Lemma local_says token mandatory path e v : decode_tag LocalText token mandatory path e = Ok (v, []) ->
  says_local token e v /\ (truth v = true <-> elements token e <> []).
Proof.
  cbn [decode_tag]. rewrite getAllNodes_elements. unfold says_local. destruct (elements token e) as [|c l].
  - intros [= <- _]. split; [exists ∅; split; [reflexivity|]; intros lang; apply lookup_empty|]. split; [discriminate|congruence].
  - destruct (decode_local token (c :: l) ∅) as [[r err]|] eqn:D; cbn [bind fst snd]; [|discriminate]. intros [= <- ->].
    split; [exists r; split; [reflexivity|]; intros lang; rewrite (decode_local_says _ _ _ _ D lang); now rewrite lookup_empty|].
    split; [intros _; discriminate|]. intros _. cbn [truth]. apply negb_true_iff, bool_decide_eq_false.
    destruct (decode_local_text token (c :: l) ∅ r) as [_ B]; [intros k x; rewrite lookup_empty; discriminate|exact D|]. apply B. right. discriminate.
Qed.

(** ** Merging and overriding *)
Lemma override_field s l p name : field (fold_left (override s) l p) name =
  if existsb (String.eqb name) l && negb (truth (field p name)) then field s name else field p name.
Proof.
  revert p. induction l as [|x l IH]; intros p; [reflexivity|]. cbn [fold_left existsb]. rewrite IH. unfold override.
  destruct (String.eqb_spec name x) as [->|N]; cbn [orb].
  - destruct (truth (field p x)) eqn:T; [rewrite T; now rewrite andb_false_r|]. rewrite field_assign, String.eqb_refl. cbn [negb andb].
    destruct (existsb (String.eqb x) l && negb (truth (field s x))); reflexivity.
  - destruct (truth (field p x)) eqn:T; [reflexivity|]. rewrite field_assign. destruct (String.eqb_spec x name); [congruence|reflexivity].
Qed.
Lemma for_each_ok {A B} (f : A -> res B) l r : for_each f l = Ok r -> Forall2 (fun x y => f x = Ok y) l r.
Proof.
  revert r. induction l as [|x l IH]; intros r; cbn [for_each]; [intros [= <-]; constructor|].
  destruct (f x) as [y|] eqn:F; cbn [bind]; [|discriminate]. destruct (for_each f l) as [ys|] eqn:R; cbn [bind]; [|discriminate]. intros [= <-]. constructor; auto.
Qed.
Lemma from_history_fields history name s s' : from_history history name s = Ok s' -> 
  (forall k, k <> name -> field s' k = field s k) /\
  (truth (field s name) = true -> field s' name = field s name) /\
  (truth (field s name) = false -> exists u l, history = VList (VObj u :: l) /\ field s' name = field u name).
Proof.
  unfold from_history. destruct (truth (field s name)); [intros [= <-]; split; [auto|split; [auto|discriminate]]|].
  unfold first_update. destruct history as [| | | | |l|]; try discriminate. cbn [as_list bind]. destruct l as [|x l]; [discriminate|].
  destruct x as [| | | | | |u]; try discriminate. cbn [as_object bind]. intros [= <-]. split; [|split; [discriminate|]].
  - intros k K. rewrite field_assign. destruct (String.eqb_spec name k); [congruence|reflexivity].
  - intros _. exists u, l. split; [reflexivity|]. now rewrite field_assign, String.eqb_refl.
Qed.
Lemma package_fields s history p q : merge_package s history (VObj p) = Ok (VObj q) ->
  (forall k, k <> "isA" -> k <> "history" -> field q k = field p k) /\ field q "history" = history /\
  exists l l', field p "isA" = VList l /\ field s "isA" = VList l' /\ field q "isA" = VList (l ++ l').
Proof.
  unfold merge_package. cbn [as_object bind]. destruct (field p "isA") as [| | | | |l|] eqn:P; try discriminate. cbn [as_list bind].
  destruct (field s "isA") as [| | | | |l'|] eqn:S; try discriminate. cbn [as_list bind]. intros [= <-]. split; [|split].
  - intros k A B. rewrite !field_assign. destruct (String.eqb_spec "history" k); [congruence|]. destruct (String.eqb_spec "isA" k); [congruence|reflexivity].
  - now rewrite field_assign.
  - exists l, l'. split; [reflexivity|]. split; [reflexivity|]. now rewrite !field_assign.
Qed.

(** What [spec_read_hook] does to each field *)
Lemma hook_fields o o' : spec_read_hook o = Ok o' -> exists s s' pkgs pkgs',
  field o "source" = VObj s /\ field o' "source" = VObj s' /\ field o "packages" = VList pkgs /\ field o' "packages" = VList pkgs' /\
  (forall k, k <> "source" -> k <> "packages" -> field o' k = field o k) /\
  (forall k, k <> "history" -> k <> "version" -> k <> "release" -> field s' k = field s k) /\
  field s' "history" = field o "history" /\
  (forall k, In k ["version"; "release"] ->
     (truth (field s k) = true -> field s' k = field s k) /\
     (truth (field s k) = false -> exists u l, field o "history" = VList (VObj u :: l) /\ field s' k = field u k)) /\
  Forall2 (fun v v' => exists p p', v = VObj p /\ v' = VObj p' /\
     (forall k, In k overridden -> field p' k = if truth (field p k) then field p k else field s k) /\
     (exists l l', field p "isA" = VList l /\ field s "isA" = VList l' /\ field p' "isA" = VList (l ++ l')) /\
     field p' "history" = field o "history" /\
     (forall k, ~ In k overridden -> k <> "isA" -> k <> "history" -> field p' k = field p k)) pkgs pkgs'.
Proof.
  unfold spec_read_hook, merge_tags. cbn zeta.
  destruct (field o "source") as [| | | | | |s] eqn:S; try discriminate. cbn [as_object bind].
  destruct (from_history (field o "history") "version" (assign "history" (field o "history") s)) as [s1|] eqn:H1; cbn [bind]; [|discriminate].
  destruct (from_history (field o "history") "release" s1) as [s2|] eqn:H2; cbn [bind]; [|discriminate].
  destruct (field o "packages") as [| | | | |pkgs|] eqn:P; try discriminate. cbn [as_list bind].
  destruct (for_each (merge_package s2 (field o "history")) pkgs) as [ps|] eqn:M; cbn [bind]; [|discriminate].
  unfold override_tags. rewrite !field_assign. cbn [String.eqb Ascii.eqb Bool.eqb]. cbn [as_object as_list bind].
  destruct (for_each _ ps) as [qs|] eqn:Q; cbn [bind]; [|discriminate]. intros [= <-].
  destruct (from_history_fields _ _ _ _ H1) as (A1 & B1 & C1). destruct (from_history_fields _ _ _ _ H2) as (A2 & B2 & C2).
  assert (Fs : forall k, k <> "history" -> k <> "version" -> k <> "release" -> field s2 k = field s k).
  { intros k K1 K2 K3. rewrite (A2 k K3), (A1 k K2), field_assign. destruct (String.eqb_spec "history" k); [congruence|reflexivity]. }
  exists s, s2, pkgs, qs. split; [reflexivity|]. split; [rewrite !field_assign; reflexivity|]. split; [reflexivity|].
  split; [rewrite !field_assign; reflexivity|]. split.
  { intros k K1 K2. rewrite !field_assign. destruct (String.eqb_spec "packages" k); [congruence|]. destruct (String.eqb_spec "source" k); [congruence|reflexivity]. }
  split; [exact Fs|]. split; [rewrite A2, A1 by discriminate; now rewrite field_assign|]. split.
  { intros k [<-|[<-|[]]].
    - rewrite field_assign in B1, C1. change (String.eqb "history" "version") with false in B1, C1. cbv iota in B1, C1. rewrite (A2 "version") by discriminate. split; assumption.
    - assert (E : field s1 "release" = field s "release") by (rewrite A1 by discriminate; now rewrite field_assign).
      rewrite E in B2, C2. split; assumption. }
  apply for_each_ok in M. apply for_each_ok in Q. clear P. revert qs Q. induction M as [|v w pkgs ps M F IH]; intros qs Q; [inversion Q; constructor|].
  inversion Q as [|? v' ? qs' Qv Qs]; subst. constructor; [|now apply IH].
  destruct v as [| | | | | |p]; try discriminate M. destruct w as [| | | | | |q]; try discriminate Qv. cbn [as_object bind] in Qv. injection Qv as <-.
  destruct (package_fields _ _ _ _ M) as (A & B & l & l' & C1' & C2' & C3). exists p, (fold_left (override s2) overridden q). split; [reflexivity|]. split; [reflexivity|].
  assert (O : forall k, In k overridden -> k <> "isA" /\ k <> "history" /\ k <> "version" /\ k <> "release" /\ existsb (String.eqb k) overridden = true).
  { intros k K. unfold overridden in K. cbn [In] in K. repeat (destruct K as [<-|K]; [repeat split; try discriminate; reflexivity|]). destruct K. }
  split.
  { intros k K. destruct (O k K) as (O1 & O2 & O3 & O4 & O5). rewrite override_field, O5, (A k O1 O2). cbn [andb]. rewrite (Fs k O2 O3 O4). now destruct (truth (field p k)). }
  split; [exists l, l'; split; [exact C1'|]; split; [rewrite <- C2'; symmetry; apply Fs; discriminate|rewrite override_field; exact C3]|].
  split; [rewrite override_field; exact B|]. intros k K1 K2 K3. rewrite override_field.
  destruct (existsb (String.eqb k) overridden) eqn:E; [apply existsb_eqb in E; contradiction|]. cbn [andb]. now apply A.
Qed.

(** ** A spec *)
Lemma spec_decoded n o : decode c_SpecFile n = Ok (o, []) -> exists src s pkgs,
  hd_error (elements "Source" n) = Some src /\ field o "source" = VObj s /\ decode c_Source src = Ok (s, []) /\
  field o "packages" = VList (map VObj pkgs) /\ Forall2 (fun e p => decode c_Package e = Ok (p, [])) (elements "Package" n) pkgs /\
  decode_tag (ListOf c_Update) "History" true None n = Ok (field o "history", []).
Proof.
  intros D. unfold decode in D. cbn [c_SpecFile members_of hook_of] in D.
  match type of D with context [decode_members n ?ms []] => set (members := ms) in D end.
  destruct (decode_members n members []) as [[r e]|] eqn:M; cbn [bind fst snd run_hook] in D; [|discriminate D]. injection D as -> ->.
  assert (P : pairs_ok members = true) by reflexivity. destruct (decode_members_each _ _ _ _ M) as [E _].
  assert (F : forall m, In m members -> decode_member n m = Ok (field o (member_name m), [])).
  { intros m Hm. rewrite (field_value n members o m P M Hm). exact (E m Hm). }
  pose proof (F (Tag "Source" c_Source true None) (or_introl eq_refl)) as FS.
  pose proof (F (list_tag "Packages" c_Package true (Some "Package")) (or_intror (or_introl eq_refl))) as FP.
  pose proof (F (list_tag "History" c_Update true None) (or_intror (or_intror (or_introl eq_refl)))) as FH.
  change (member_name (Tag "Source" c_Source true None)) with "source" in FS. change (member_name (list_tag "Packages" c_Package true (Some "Package"))) with "packages" in FP.
  change (member_name (list_tag "History" c_Update true None)) with "history" in FH.
  unfold decode_member in FS. unfold c_Source in FS at 1. rewrite decode_object_eq, getNode_elements in FS. destruct (hd_error (elements "Source" n)) as [src|]; [|discriminate FS].
  match type of FS with context [decode_members src ?l []] => change l with (members_of c_Source) in FS end.
  destruct (decode_members src (members_of c_Source) []) as [[s e]|] eqn:S; cbn [bind fst snd run_hook] in FS; [|discriminate FS]. injection FS as FS ->.
  unfold list_tag in FP. unfold decode_member in FP. rewrite decode_list_eq in FP. cbn zeta in FP. change (list_path "Packages" c_Package (Some "Package")) with ["Package"] in FP.
  change (List.last ["Package"] "") with "Package" in FP. rewrite getAllNodes_elements in FP.
  destruct (decode_items c_Package "Package" (elements "Package" n)) as [[vs e]|] eqn:Q; cbn [bind fst snd] in FP; [|discriminate FP]. injection FP as FP E2. apply app_eq_nil in E2 as [_ ->].
  assert (K : exists pkgs, vs = map VObj pkgs /\ Forall2 (fun e p => decode c_Package e = Ok (p, [])) (elements "Package" n) pkgs).
  { assert (N : Forall (fun c => named "Package" c = true) (elements "Package" n)) by (apply List.Forall_forall; intros c C; now apply filter_In in C).
    clear FP. revert vs Q N. generalize (elements "Package" n). intros cs. induction cs as [|c cs IH]; intros vs; cbn [decode_items].
    - intros [= <-] _. exists []. split; [reflexivity|constructor].
    - destruct (decode_tag c_Package "Package" true None (insertNode (Elem "Dummy" [] []) c)) as [[w e1]|] eqn:W; cbn [bind fst snd]; [|discriminate].
      destruct (decode_items c_Package "Package" cs) as [[l0 e0]|] eqn:D; cbn [bind fst snd]; [|discriminate]. intros [= <- E3] N. apply app_eq_nil in E3 as [-> ->].
      inversion N as [|? ? Nc Ncs]; subst. destruct (IH l0 eq_refl Ncs) as (pkgs & -> & G).
      unfold c_Package in W. rewrite decode_object_eq, getNode_elements in W. cbn [insertNode app] in W. unfold elements in W. cbn [children List.filter] in W. rewrite Nc in W. cbn [hd_error] in W.
      destruct (decode_members c package_members []) as [[p e1]|] eqn:X; cbn [bind fst snd run_hook] in W; [|discriminate W]. injection W as <- ->.
      exists (p :: pkgs). split; [reflexivity|]. constructor; [|exact G]. unfold decode, c_Package. cbn [members_of hook_of]. rewrite X. reflexivity. }
  destruct K as (pkgs & -> & G). exists src, s, pkgs. split; [reflexivity|]. split; [now symmetry|]. split; [unfold decode; rewrite S; reflexivity|].
  split; [now symmetry|]. split; [exact G|]. exact FH.
Qed.
Lemma read_spec_parts lang n o' : read_spec lang n = Ok o' -> exists o, decode c_SpecFile n = Ok (o, []) /\ spec_read_hook o = Ok o' /\ errors lang c_SpecFile o' = Ok [].
Proof.
  unfold read_spec, read. destruct (decode c_SpecFile n) as [[o e]|]; cbn [bind fst snd]; [|discriminate]. destruct e; [|discriminate].
  destruct (spec_read_hook o) as [o1|] eqn:H; cbn [bind]; [|discriminate]. unfold no_errors. destruct (errors lang c_SpecFile o1) as [[|]|] eqn:E; cbn [bind]; try discriminate.
  intros [= <-]. exists o. auto.
Qed.
Lemma member_decoded t n o m : pairs_ok (members_of t) = true -> decode t n = Ok (o, []) -> In m (members_of t) -> decode_member n m = Ok (field o (member_name m), []).
Proof.
  intros P D M. unfold decode in D. destruct (decode_members n (members_of t) []) as [[r e]|] eqn:Q; cbn [bind fst snd] in D; [|discriminate D].
  destruct (run_hook (hook_of t) r); cbn [bind] in D; [|discriminate D]. injection D as -> ->. rewrite (field_value n _ o m P Q M). now apply (decode_members_each _ _ _ _ Q).
Qed.

Theorem spec_inherits lang n o : read_spec lang n = Ok o ->
  exists src pkgs, hd_error (elements "Source" n) = Some src /\ field o "packages" = VList pkgs /\
    Forall2 (inherits src (field o "history")) (elements "Package" n) pkgs.
Proof.
  intros R. destruct (read_spec_parts _ _ _ R) as (r & D & H & _).
  destruct (spec_decoded n r D) as (src & s & pkgs & S1 & S2 & S3 & P1 & P2 & _).
  destruct (hook_fields r o H) as (s0 & s' & vs & vs' & E1 & E2 & E3 & E4 & Eo & _ & _ & _ & F).
  rewrite S2 in E1. injection E1 as <-. rewrite P1 in E3. injection E3 as <-. exists src, vs'. split; [exact S1|]. split; [exact E4|].
  assert (EH : field o "history" = field r "history") by (apply Eo; discriminate).
  clear P1 E4 R H D. revert vs' F. induction P2 as [|e p es pkgs De P2 IH]; intros vs' F; [inversion F; constructor|].
  inversion F as [|? v' ? vs'' HV F']; subst. destruct HV as (p0 & p' & Ep & -> & O & I & Hi & Rest). injection Ep as <-. constructor; [|now apply IH].
  assert (MP : forall m, In m package_members -> decode_member e m = Ok (field p (member_name m), [])) by (intros m M; exact (member_decoded c_Package e p m eq_refl De M)).
  assert (MS : forall m, In m (members_of c_Source) -> decode_member src m = Ok (field s (member_name m), [])) by (intros m M; exact (member_decoded c_Source src s m eq_refl S3 M)).
  exists p', p. split; [reflexivity|]. split; [|split; [|split; [|split; [|split; [|split]]]]].
  - intros tag name T.
    assert (K : decode_tag (Basic TString) tag false None e = Ok (field p name, []) /\ decode_tag (Basic TString) tag false None src = Ok (field s name, []) /\ In name overridden).
    { destruct T as [[= <- <-]|[[= <- <-]|[]]].
      - split; [apply (MP (string_tag "PartOf" false)); cbn; tauto|]. split; [apply (MS (string_tag "PartOf" false)); cbn; tauto|cbn; tauto].
      - split; [apply (MP (string_tag "Icon" false)); cbn; tauto|]. split; [apply (MS (string_tag "Icon" false)); cbn; tauto|cbn; tauto]. }
    destruct K as (K1 & K2 & K3). rewrite (O name K3). destruct (string_says _ _ _ _ _ K1) as [A B]. destruct (string_says _ _ _ _ _ K2) as [A' _].
    destruct (truth (field p name)); [split; [auto|]|split; [|auto]].
    + intros N. destruct N. now apply B.
    + intros G. apply B in G. discriminate G.
  - intros tag name T.
    assert (K : exists x, decode_tag LocalText tag false None e = Ok (field p name, []) /\ decode_tag LocalText tag x None src = Ok (field s name, []) /\ In name overridden).
    { exists true. destruct T as [[= <- <-]|[[= <- <-]|[]]].
      - split; [apply (MP (local_tag "Summary" false)); cbn; tauto|]. split; [apply (MS (local_tag "Summary" true)); cbn; tauto|cbn; tauto].
      - split; [apply (MP (local_tag "Description" false)); cbn; tauto|]. split; [apply (MS (local_tag "Description" true)); cbn; tauto|cbn; tauto]. }
    destruct K as (x & K1 & K2 & K3). rewrite (O name K3). destruct (local_says _ _ _ _ _ K1) as [A B]. destruct (local_says _ _ _ _ _ K2) as [A' _].
    destruct (truth (field p name)); [split; [auto|]|split; [|auto]].
    + intros N. destruct (proj1 B eq_refl N).
    + intros G. apply B in G. discriminate G.
  - assert (K1 : decode_tag (ListOf (Basic TString)) "License" false None e = Ok (field p "license", [])) by (apply (MP (list_tag "License" (Basic TString) false None)); cbn; tauto).
    assert (K2 : decode_tag (ListOf (Basic TString)) "License" true None src = Ok (field s "license", [])) by (apply (MS (list_tag "License" (Basic TString) true None)); cbn; tauto).
    destruct (strings_say "License" false None _ _ eq_refl K1) as (l & L1 & L2 & L3). destruct (strings_say "License" true None _ _ eq_refl K2) as (l' & L1' & L2' & _).
    rewrite (O "license") by (cbn; tauto). destruct (truth (field p "license")).
    + exists l. split; [exact L1|]. split; [auto|]. intros N. destruct (proj1 L3 eq_refl N).
    + exists l'. split; [exact L1'|]. split; [|auto]. intros N. apply L3 in N. discriminate N.
  - assert (K1 : decode_tag (ListOf (Basic TString)) "IsA" false None e = Ok (field p "isA", [])) by (apply (MP (list_tag "IsA" (Basic TString) false None)); cbn; tauto).
    assert (K2 : decode_tag (ListOf (Basic TString)) "IsA" false None src = Ok (field s "isA", [])) by (apply (MS (list_tag "IsA" (Basic TString) false None)); cbn; tauto).
    destruct (strings_say "IsA" false None _ _ eq_refl K1) as (l & L1 & L2 & L3). destruct (strings_say "IsA" false None _ _ eq_refl K2) as (l' & L1' & L2' & _).
    destruct I as (v & w & I1 & I2 & I3). rewrite L1 in I1. rewrite L1' in I2. injection I1 as <-. injection I2 as <-. exists l, l'. split; [|auto].
    rewrite I3. unfold strings. now rewrite map_app.
  - now rewrite EH.
  - exact De.
  - intros name N. apply Rest; intros K; apply N; [unfold overridden in K; cbn [In] in K |- *; tauto|subst; cbn; tauto|subst; cbn; tauto].
Qed.

(** The version and the release of the source: its own, or those of the newest entry of the history *)
Theorem spec_version lang n o : read_spec lang n = Ok o ->
  exists src s u l, hd_error (elements "Source" n) = Some src /\ field o "source" = VObj s /\
    field o "history" = VList (VObj u :: l) /\ field s "history" = field o "history" /\
    forall tag name, In (tag, name) [("Version", "version"); ("Release", "release")] ->
      (given tag src -> says tag src (field s name)) /\ (~ given tag src -> field s name = field u name).
Proof.
  intros R. destruct (read_spec_parts _ _ _ R) as (r & D & H & _).
  destruct (spec_decoded n r D) as (src & s & pkgs & S1 & S2 & S3 & P1 & P2 & FH).
  destruct (hook_fields r o H) as (s0 & s' & vs & vs' & E1 & E2 & E3 & E4 & Eo & _ & Eh & Ev & _).
  rewrite S2 in E1. injection E1 as <-. assert (EH : field o "history" = field r "history") by (apply Eo; discriminate).
  assert (K : exists u l, field r "history" = VList (VObj u :: l)).
  { rewrite decode_list_eq in FH. cbn zeta in FH. destruct (getAllNodes n (list_path "History" c_Update None)) as [|c cs]; [discriminate FH|].
    cbn [decode_items] in FH. unfold c_Update in FH at 1. rewrite decode_object_eq in FH.
    destruct (getNode _ _) as [x|]; [|destruct (decode_items _ _ cs) as [[? ?]|]; discriminate FH].
    destruct (decode_members x _ []) as [[u e]|]; cbn [bind fst snd run_hook] in FH; [|discriminate FH].
    destruct (decode_items c_Update _ cs) as [[l e']|]; cbn [bind fst snd] in FH; [|discriminate FH]. injection FH as FH _. exists u, l. now symmetry. }
  destruct K as (u & l & K). exists src, s', u, l. split; [exact S1|]. split; [exact E2|]. split; [congruence|]. split; [congruence|].
  intros tag name T.
  assert (M : decode_tag (Basic TString) tag false None src = Ok (field s name, []) /\ In name ["version"; "release"]).
  { destruct T as [[= <- <-]|[[= <- <-]|[]]].
    - split; [apply (member_decoded c_Source src s (string_tag "Version" false) eq_refl S3); cbn; tauto|cbn; tauto].
    - split; [apply (member_decoded c_Source src s (string_tag "Release" false) eq_refl S3); cbn; tauto|cbn; tauto]. }
  destruct M as [M1 M2]. destruct (string_says _ _ _ _ _ M1) as [A B]. destruct (Ev name M2) as [V1 V2]. destruct (truth (field s name)).
  - rewrite (V1 eq_refl). split; [auto|]. intros N. destruct N. now apply B.
  - destruct (V2 eq_refl) as (u' & l' & U1 & U2). split; [intros G; apply B in G; discriminate G|]. intros _. congruence.
Qed.
