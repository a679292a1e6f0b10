(** * From a spec to the metadata of a package *)
From Coq Require Import String Ascii ZArith NArith List Bool Lia.
From stdpp Require Import gmap strings.
From Verif Require Import Model.Py Model.Path Model.Xml Model.Schema Model.XmlFile Model.Metadata Spec.XmlSpec Spec.SpecFileSpec Spec.MetadataSpec
  Proof.PyFacts Proof.XmlText Proof.XmlTree Proof.XmlRound Proof.XmlMain Proof.XmlRead Proof.XmlFileFacts Proof.SpecFileFacts.
Import ListNotations.
Open Scope string_scope.

(** ** Values without numbers have no zero in them *)
Fixpoint no_int (t : typ) : bool :=
  match t with
  | Basic TInteger | Basic TLong => false
  | Basic _ | LocalText => true
  | Object _ ms _ => forallb (fun m => match m with
                                       | Attr _ b _ | Str _ b _ => match b with TInteger | TLong => false | _ => true end
                                       | Tag _ t _ _ => no_int t
                                       end) ms
  | ListOf t => no_int t
  end.
Lemma basic_no_zero token b mandatory text v e : (match b with TInteger | TLong => false | _ => true end) = true ->
  decode_basic token b mandatory text = (v, e) -> ~ zero_inside v.
Proof.
  intros B. unfold decode_basic. destruct text as [[|a t]|]; [intros [= <- _] H; inversion H| |intros [= <- _] H; inversion H].
  destruct (from_text b (a :: t)) as [w|] eqn:F; [|intros [= <- _] H; inversion H]. intros [= <- _]. destruct b; try discriminate B; cbn [from_text] in F.
  - destruct (ascii_encode (a :: t)); [|discriminate F]. injection F as <-. intros H; inversion H.
  - injection F as <-. intros H; inversion H.
Qed.
Lemma in_assign {A} k (v : A) l k' x : In (k', x) (assign k v l) -> x = v \/ In (k', x) l.
Proof.
  induction l as [|[a b] l IH]; cbn [assign]; [intros [[= _ <-]|[]]; now left|]. destruct (String.eqb a k).
  - intros [[= _ <-]|H]; [now left|]. right. now right.
  - intros [E|H]; [right; now left|]. destruct (IH H) as [->|G]; [now left|]. right. now right.
Qed.
Lemma members_no_zero n ms acc fields e :
  (forall m, In m ms -> forall x e, decode_member n m = Ok (x, e) -> ~ zero_inside x) ->
  (forall k x, In (k, x) acc -> ~ zero_inside x) ->
  decode_members n ms acc = Ok (fields, e) -> forall k x, In (k, x) fields -> ~ zero_inside x.
Proof.
  revert acc e. induction ms as [|m ms IH]; intros acc e M A; cbn [decode_members]; [intros [= <- _]; exact A|].
  destruct (decode_member n m) as [[x ex]|] eqn:D; cbn [bind fst snd]; [|discriminate].
  destruct (decode_members n ms (assign (member_name m) x acc)) as [[f ef]|] eqn:R; cbn [bind fst snd]; [|discriminate]. intros [= <- _].
  eapply (IH _ _ (fun m' H => M m' (or_intror H))); [|exact R]. intros k y H. apply in_assign in H as [->|H]; [exact (M m (or_introl eq_refl) x ex D)|eauto].
Qed.
Theorem decoded_no_zero : forall t, no_int t = true -> forall token mandatory path n v e,
  decode_tag t token mandatory path n = Ok (v, e) -> ~ zero_inside v.
Proof.
  refine (typ_induct _ _ _ _ _).
  - intros b B token mandatory path n v e. cbn [decode_tag]. destruct (text_of (getNode n [token])) as [text|]; cbn [bind]; [|discriminate]. intros [= E].
    exact (basic_no_zero token b mandatory text v e B E).
  - intros _ token mandatory path n v e. cbn [decode_tag]. destruct (getAllNodes n [token]) as [|c l]; [intros [= <- _] H; inversion H|].
    destruct (decode_local token (c :: l) ∅) as [[r x]|]; cbn [bind fst snd]; [|discriminate]. intros [= <- _] H; inversion H.
  - intros tag ms h IH B token mandatory path n v e. rewrite decode_object_eq. destruct (getNode n [token]) as [c|]; [|intros [= <- _] H; inversion H].
    destruct (decode_members c ms []) as [[fields x]|] eqn:D; cbn [bind fst snd]; [|discriminate]. destruct (run_hook h fields); cbn [bind]; [|discriminate].
    intros [= <- _] Z. inversion Z as [| |k y ? I Zy]; subst. revert Zy. eapply members_no_zero; [| |exact D|exact I]; [|intros ? ? []].
    intros m M y' ey Dm. cbn [no_int] in B. rewrite forallb_forall in B. specialize (B m M). destruct m as [k' b q|k' b q|k' t q p]; unfold decode_member in Dm.
    + injection Dm as Dm. exact (basic_no_zero _ _ _ _ _ _ B Dm).
    + destruct (getNodeText c); cbn [bind] in Dm; [|discriminate Dm]. injection Dm as Dm. exact (basic_no_zero _ _ _ _ _ _ B Dm).
    + rewrite List.Forall_forall in IH. exact (IH _ M B _ _ _ _ _ _ Dm).
  - intros t IH B token mandatory path n v e. rewrite decode_list_eq. cbn zeta. generalize (getAllNodes n (list_path token t path)). generalize (List.last (list_path token t path) ""). intros tok nodes.
    destruct (decode_items t tok nodes) as [[l x]|] eqn:D; cbn [bind fst snd]; [|discriminate]. intros [= <- _] Z. inversion Z as [|y ? I Zy|]; subst. clear Z. revert l x D I.
    induction nodes as [|c nodes IHn]; intros l x; cbn [decode_items]; [intros [= <- _] []|].
    destruct (decode_tag t tok true None (insertNode (Elem "Dummy" [] []) c)) as [[w ew]|] eqn:W; cbn [bind fst snd]; [|discriminate].
    destruct (decode_items t tok nodes) as [[l0 e0]|]; cbn [bind fst snd]; [|discriminate]. intros [= <- _] [<-|I]; [exact (IH B _ _ _ _ _ _ W Zy)|exact (IHn l0 e0 eq_refl I)].
Qed.
(** Members of a decoded object are carried and complete *)
Lemma member_good t n o m : pairs_ok (members_of t) = true -> decode t n = Ok (o, []) -> In m (members_of t) ->
  (match m with Tag _ t _ _ => well_formed t && no_int t | _ => false end) = true ->
  match m with
  | Tag _ t x _ => carried t (field o (member_name m)) /\ complete t (field o (member_name m)) /\ (x = true -> present t (field o (member_name m)))
  | _ => True
  end.
Proof.
  intros P D M W. pose proof (member_decoded t n o m P D M) as E. destruct m as [| |k q x p]; [exact Logic.I..|]. apply andb_true_iff in W as [W Z].
  unfold decode_member in E. exact (read_carried q W _ _ _ _ _ E (decoded_no_zero q Z _ _ _ _ _ _ E)).
Qed.

(** ** Validation, member by member *)
Definition member_errors (lang : utext) (fields : list (string * value)) (m : member typ) : res (list complaint) :=
  let v := field fields (member_name m) in
  match v with
  | VNone => Ok (if (match m with Attr _ _ x | Str _ _ x | Tag _ _ x _ => x end) then [NoVariable (member_name m)] else [])
  | _ => match m with
         | Attr k b _ | Str k b _ => Ok (basic_errors k b v)
         | Tag k t _ _ => errors_value lang k t v
         end
  end.
Lemma and_then_nil a b : and_then a b = Ok [] <-> a = Ok [] /\ b = Ok [].
Proof.
  unfold and_then. destruct a as [x|]; cbn [bind]; [|split; [discriminate|intros [E _]; discriminate E]].
  destruct b as [y|]; cbn [bind]; [|split; [discriminate|intros [_ E]; discriminate E]]. split.
  - intros [= E]. now apply app_eq_nil in E as [-> ->].
  - now intros [[= ->] [= ->]].
Qed.
Lemma errors_object lang token tag ms h fields : errors_value lang token (Object tag ms h) (VObj fields) = Ok [] <->
  forall m, In m ms -> member_errors lang fields m = Ok [].
Proof.
  cbn [errors_value]. induction ms as [|m ms IH]; [split; [intros _ m []|reflexivity]|]. rewrite and_then_nil, IH. split.
  - intros [A B] x [<-|X]; [exact A|auto].
  - intros H. split; [exact (H m (or_introl eq_refl))|]. intros x X. apply H. now right.
Qed.
Lemma errors_list lang token t l : errors_value lang token (ListOf t) (VList l) = Ok [] <-> forall v, In v l -> errors_value lang token t v = Ok [].
Proof.
  cbn [errors_value]. induction l as [|x l IH]; [split; [intros _ v []|reflexivity]|]. rewrite and_then_nil, IH. split.
  - intros [A B] v [<-|V]; auto.
  - intros H. split; [apply H; now left|]. intros v V. apply H. now right.
Qed.
Lemma member_errors_same lang a b m : field a (member_name m) = field b (member_name m) -> member_errors lang a m = member_errors lang b m.
Proof. intros E. unfold member_errors. cbn zeta. now rewrite E. Qed.

(** ** Lists of objects *)
Lemma items_decoded tag ms h token cs vs : List.Forall (fun c => named token c = true) cs -> decode_items (Object tag ms h) token cs = Ok (vs, []) ->
  Forall2 (fun c v => exists o, v = VObj o /\ decode (Object tag ms h) c = Ok (o, [])) cs vs.
Proof.
  intros N. revert vs. induction N as [|c cs Nc Ncs IH]; intros vs; cbn [decode_items]; [intros [= <-]; constructor|].
  destruct (decode_tag (Object tag ms h) token true None (insertNode (Elem "Dummy" [] []) c)) as [[w e1]|] eqn:W; cbn [bind fst snd]; [|discriminate].
  destruct (decode_items (Object tag ms h) token cs) as [[l0 e0]|] eqn:D; cbn [bind fst snd]; [|discriminate]. intros [= <- E3]. apply app_eq_nil in E3 as [-> ->].
  constructor; [|exact (IH l0 eq_refl)].
  rewrite decode_object_eq, getNode_elements in W. cbn [insertNode app] in W. unfold elements in W. cbn [children List.filter] in W. rewrite Nc in W. cbn [hd_error] in W.
  destruct (decode_members c ms []) as [[p e1]|] eqn:X; cbn [bind fst snd] in W; [|discriminate W]. destruct (run_hook h p) eqn:H; cbn [bind] in W; [|discriminate W]. injection W as <- ->.
  exists p. split; [reflexivity|]. unfold decode. cbn [members_of hook_of]. rewrite X. cbn [bind fst]. rewrite H. reflexivity.
Qed.
Lemma named_elements tag n : List.Forall (fun c => named tag c = true) (elements tag n).
Proof. apply List.Forall_forall. intros c C. now apply filter_In in C. Qed.
Lemma history_decoded n v : decode_tag (ListOf c_Update) "History" true None n = Ok (v, []) ->
  exists us, v = VList us /\ us <> [] /\ Forall2 update_of (updates n) us.
Proof.
  rewrite decode_list_eq. cbn zeta. change (list_path "History" c_Update None) with ["History"; "Update"]. change (List.last ["History"; "Update"] "") with "Update".
  assert (G : getAllNodes n ["History"; "Update"] = updates n).
  { unfold getAllNodes, updates. cbn [fold_left flat_map]. unfold elements at 1. now rewrite app_nil_r. }
  rewrite G. destruct (decode_items c_Update "Update" (updates n)) as [[us e]|] eqn:D; cbn [bind fst snd]; [|discriminate]. intros [= <- E]. apply app_eq_nil in E as [Ne ->].
  exists us. split; [reflexivity|].
  assert (N : List.Forall (fun c => named "Update" c = true) (updates n)).
  { unfold updates. apply List.Forall_forall. intros c C. apply in_flat_map in C as (x & _ & C). now apply filter_In in C. }
  pose proof (items_decoded _ _ _ _ _ _ N D) as F. split.
  - intros ->. inversion F as [E|]. rewrite <- E in Ne. discriminate Ne.
  - eapply Forall2_impl; [exact F|]. cbn beta. intros c v (o & -> & Do). exists o. split; [reflexivity|]. split; [exact Do|].
    pose proof (fun m => member_decoded c_Update c o m eq_refl Do) as MD. split.
    + specialize (MD (string_tag "Version" true)). cbn [In c_Update members_of] in MD.
      assert (K : decode_member c (string_tag "Version" true) = Ok (field o "version", [])) by (apply MD; tauto). exact (proj1 (string_says "Version" true None c _ K)).
    + assert (K : decode_member c (Attr "release" TString true) = Ok (field o "release", [])) by (apply (MD (Attr "release" TString true)); cbn; tauto).
      unfold decode_member in K. injection K as K. unfold getNodeAttribute in K. unfold attribute_says.
      destruct (assoc "release" (attrs c)) as [[|a t]|]; cbn [decode_basic] in K; try discriminate K. exists (a :: t). split; [reflexivity|].
      cbn [from_text] in K. destruct (ascii_encode (a :: t)) as [s|] eqn:A; [|discriminate K]. injection K as K. apply ascii_encode_some in A as [_ A].
      exists s. split; [now symmetry|exact A].
Qed.

(** ** The spec after looking for its component *)
Definition picked (alone s : list (string * value)) (k : string) : value := if truth (field alone k) then field alone k else field s k.
(** The package [v], read from [e], where the source is [s] *)
Definition package_parts (lang : utext) (history : value) (s : list (string * value)) (e : node) (v : value) : Prop :=
  exists alone p, v = VObj p /\ decode c_Package e = Ok (alone, []) /\
    (forall k, In k overridden -> field p k = picked alone s k) /\
    (exists l l', field alone "isA" = VList l /\ field s "isA" = VList l' /\ field p "isA" = VList (l ++ l')) /\
    field p "history" = history /\
    (forall k, ~ In k overridden -> k <> "isA" -> k <> "history" -> field p k = field alone k) /\
    (forall m, In m package_members -> member_name m <> "partOf" -> member_errors lang p m = Ok []).
Lemma for_each_all {A B} (f : A -> res B) l : (forall x, In x l -> exists y, f x = Ok y) -> exists r, for_each f l = Ok r.
Proof.
  induction l as [|x l IH]; intros H; cbn [for_each]; [eauto|]. destruct (H x (or_introl eq_refl)) as [y ->]. cbn [bind].
  destruct IH as [r ->]; [intros z Z; apply H; now right|]. cbn. eauto.
Qed.
Lemma package_errors lang o : errors lang c_SpecFile o = Ok [] -> forall l v, field o "packages" = VList l -> In v l ->
  forall p, v = VObj p -> forall m, In m package_members -> member_errors lang p m = Ok [].
Proof.
  intros E l v L V p -> m M. unfold errors, c_SpecFile in E. pose proof (proj1 (errors_object _ _ _ _ _ _) E (list_tag "Packages" c_Package true (Some "Package")) (or_intror (or_introl eq_refl))) as K.
  unfold member_errors, list_tag in K. cbn zeta in K. change (member_name (Tag "Packages" (ListOf c_Package) true (Some "Package"))) with "packages" in K. rewrite L in K. cbv iota in K.
  pose proof (proj1 (errors_list _ _ _ _) K _ V) as Kp. unfold c_Package in Kp. exact (proj1 (errors_object _ _ _ _ _ _) Kp m M).
Qed.
Lemma source_errors lang o s : errors lang c_SpecFile o = Ok [] -> field o "source" = VObj s -> forall m, In m (members_of c_Source) -> member_errors lang s m = Ok [].
Proof.
  intros E S m M. unfold errors, c_SpecFile in E. pose proof (proj1 (errors_object _ _ _ _ _ _) E (Tag "Source" c_Source true None) (or_introl eq_refl)) as K.
  unfold member_errors in K. cbn zeta in K. change (member_name (Tag "Source" c_Source true None)) with "source" in K. rewrite S in K. cbv iota in K.
  unfold c_Source in K. exact (proj1 (errors_object _ _ _ _ _ _) K m M).
Qed.

Theorem spec_parts lang n o above o1 : read_spec lang n = Ok o -> fetch_component above o = Ok o1 ->
  exists src s s1 vs u us,
    hd_error (elements "Source" n) = Some src /\ decode c_Source src = Ok (s, []) /\
    field o1 "source" = VObj s1 /\ field o1 "packages" = VList vs /\
    (forall k, ~ In k ["history"; "version"; "release"; "partOf"] -> field s1 k = field s k) /\
    field s1 "history" = VList (VObj u :: us) /\ Forall2 update_of (updates n) (VObj u :: us) /\
    decode_tag (ListOf c_Update) "History" true None n = Ok (VList (VObj u :: us), []) /\
    (forall k, In k ["version"; "release"] -> field s1 k = if truth (field s k) then field s k else field u k) /\
    (if truth (field s "partOf") then field s1 "partOf" = field s "partOf" else exists c, above = Some c /\ field s1 "partOf" = VStr c) /\
    Forall2 (package_parts lang (VList (VObj u :: us)) s1) (elements "Package" n) vs /\
    (forall m, In m (members_of c_Source) -> member_name m <> "partOf" -> member_errors lang s1 m = Ok []).
Proof.
  intros R FC. destruct (read_spec_parts _ _ _ R) as (r & D & H & Er).
  destruct (spec_decoded n r D) as (src & s & pkgs & S1 & S2 & S3 & P1 & P2 & FH).
  destruct (hook_fields r o H) as (s0 & s' & vs0 & vs & E1 & E2 & E3 & E4 & Eo & Es & Eh & Ev & F).
  rewrite S2 in E1. injection E1 as <-. rewrite P1 in E3. injection E3 as <-.
  destruct (history_decoded _ _ FH) as (us & HU & Ne & U). destruct us as [|u0 us]; [congruence|].
  assert (U0 : exists u, u0 = VObj u) by (inversion U as [|x y xs ys Hx Hxs]; subst; destruct Hx as (w & -> & _); eauto).
  destruct U0 as [u ->]. rewrite HU in *.
  assert (PP : Forall2 (package_parts lang (VList (VObj u :: us)) s') (elements "Package" n) vs).
  { pose proof (package_errors lang o Er vs) as PE. assert (PE' : forall v, In v vs -> forall p, v = VObj p -> forall m, In m package_members -> member_errors lang p m = Ok []) by (intros v V; exact (PE v E4 V)).
    clear PE E4 P1 FC R H D. revert vs PE' F. induction P2 as [|e p es pkgs De P2 IH]; intros vs PE F; [inversion F; constructor|].
    inversion F as [|? v' ? vs'' HV F']; subst. destruct HV as (p0 & p' & Ep & -> & O & I & Hi & Rest). injection Ep as <-.
    constructor; [|apply IH; [intros v V; apply PE; now right|exact F']].
    exists p, p'. split; [reflexivity|]. split; [exact De|]. split; [|split; [|split; [|split]]].
    - intros k K. unfold picked. rewrite (O k K). destruct (truth (field p k)); [reflexivity|]. symmetry. apply Es; unfold overridden in K; cbn [In] in K; intros ->; intuition discriminate.
    - destruct I as (l & l' & I1 & I2 & I3). exists l, l'. split; [exact I1|]. split; [rewrite Es by discriminate; exact I2|exact I3].
    - exact Hi.
    - exact Rest.
    - intros m M _. exact (PE _ (or_introl eq_refl) p' eq_refl m M). }
  assert (SE : forall m, In m (members_of c_Source) -> member_errors lang s' m = Ok []) by exact (source_errors lang o s' Er E2).
  assert (VR : forall k, In k ["version"; "release"] -> field s' k = if truth (field s k) then field s k else field u k).
  { intros k K. destruct (Ev k K) as [V1 V2]. destruct (truth (field s k)); [now apply V1|]. destruct (V2 eq_refl) as (u' & l' & [= <- <-] & V). exact V. }
  unfold fetch_component in FC. rewrite E2 in FC. cbn [as_object bind] in FC. rewrite (Es "partOf") in FC by discriminate. destruct (truth (field s "partOf")) eqn:T.
  - injection FC as <-. exists src, s, s', vs, u, us. split; [exact S1|]. split; [exact S3|]. split; [exact E2|]. split; [exact E4|].
    split; [intros k K; cbn [In] in K; apply Es; intuition|]. split; [exact Eh|]. split; [exact U|]. split; [exact FH|]. split; [exact VR|].
    split; [rewrite T; apply Es; discriminate|]. split; [exact PP|]. auto.
  - destruct above as [c|]; [|discriminate FC]. unfold override_tags in FC. rewrite !field_assign in FC. cbn [String.eqb Ascii.eqb Bool.eqb] in FC. rewrite E4 in FC. cbn [as_object as_list bind] in FC.
    set (s1 := assign "partOf" (VStr c) s') in *.
    destruct (for_each (fun v => p <- as_object v ;; Ok (VObj (fold_left (override s1) overridden p))) vs) as [vs1|] eqn:FE; cbn [bind] in FC; [|discriminate FC]. injection FC as <-.
    assert (Fs1 : forall k, k <> "partOf" -> field s1 k = field s' k).
    { intros k K. unfold s1. rewrite field_assign. destruct (String.eqb_spec "partOf" k); [congruence|reflexivity]. }
    exists src, s, s1, vs1, u, us. split; [exact S1|]. split; [exact S3|]. split; [rewrite !field_assign; reflexivity|]. split; [rewrite !field_assign; reflexivity|].
    split. { intros k K. cbn [In] in K. rewrite Fs1 by intuition. apply Es; intuition. }
    split; [rewrite Fs1 by discriminate; exact Eh|]. split; [exact U|]. split; [exact FH|].
    split. { intros k K. rewrite Fs1; [exact (VR k K)|]. intros ->. cbn [In] in K. intuition discriminate. }
    split; [rewrite T; exists c; split; [reflexivity|]; unfold s1; now rewrite field_assign|].
    split.
    + clear - PP FE Fs1 Es T. revert vs1 FE. induction PP as [|e v es vs Pe PP IH]; intros vs1; cbn [for_each]; [intros [= <-]; constructor|].
      destruct Pe as (alone & p & -> & De & O & I & Hi & Rest & PE). cbn [as_object bind].
      destruct (for_each _ vs) as [ws|] eqn:W; cbn [bind]; [|discriminate]. intros [= <-]. constructor; [|exact (IH ws eq_refl)].
      exists alone, (fold_left (override s1) overridden p). split; [reflexivity|]. split; [exact De|].
      assert (Same : forall k, k <> "partOf" -> field (fold_left (override s1) overridden p) k = field p k).
      { intros k K. rewrite override_field. destruct (existsb (String.eqb k) overridden) eqn:X; [|reflexivity]. apply existsb_eqb in X. cbn [andb].
        rewrite (O k X). unfold picked. rewrite (Fs1 k K). destruct (truth (field alone k)) eqn:Tk; [rewrite Tk; reflexivity|]. destruct (truth (field s' k)); reflexivity. }
      split; [|split; [|split; [|split]]].
      * intros k K. destruct (String.eqb_spec k "partOf") as [->|N].
        -- rewrite override_field. change (existsb (String.eqb "partOf") overridden) with true. cbn [andb]. rewrite (O "partOf" K). unfold picked.
           destruct (truth (field alone "partOf")) eqn:Ta; [rewrite Ta; reflexivity|]. rewrite (Es "partOf") by discriminate. rewrite T. reflexivity.
        -- rewrite (Same k N), (O k K). unfold picked. now rewrite (Fs1 k N).
      * destruct I as (l & l' & I1 & I2 & I3). exists l, l'. split; [exact I1|]. split; [rewrite Fs1 by discriminate; exact I2|rewrite Same by discriminate; exact I3].
      * rewrite Same by discriminate. exact Hi.
      * intros k K1 K2 K3. rewrite Same; [exact (Rest k K1 K2 K3)|]. intros ->. apply K1. cbn. tauto.
      * intros m M N. rewrite (member_errors_same lang _ p m); [exact (PE m M N)|now apply Same].
    + intros m M N. rewrite (member_errors_same lang _ s' m); [exact (SE m M)|now apply Fs1].
Qed.

Lemma Forall2_in_r {A B} (P : A -> B -> Prop) l l' y : Forall2 P l l' -> In y l' -> exists x, In x l /\ P x y.
Proof. induction 1 as [|a b l l' Hab F IH]; [intros []|]. intros [<-|Y]; [exists a; split; [now left|exact Hab]|]. destruct (IH Y) as (x & X & Q). exists x. split; [now right|exact Q]. Qed.

(** When the component is found *)
Lemma component_found lang n o above src s : read_spec lang n = Ok o -> hd_error (elements "Source" n) = Some src -> decode c_Source src = Ok (s, []) ->
  (exists o1, fetch_component above o = Ok o1) <-> truth (field s "partOf") = true \/ above <> None.
Proof.
  intros R S D0. destruct (read_spec_parts _ _ _ R) as (r & D & H & Er).
  destruct (spec_decoded n r D) as (src' & s0 & pkgs & S1 & S2 & S3 & P1 & P2 & FH). rewrite S in S1. injection S1 as <-. rewrite D0 in S3. injection S3 as <-.
  destruct (hook_fields r o H) as (s1 & s' & vs0 & vs & E1 & E2 & E3 & E4 & Eo & Es & Eh & Ev & F). rewrite S2 in E1. injection E1 as <-.
  unfold fetch_component. rewrite E2. cbn [as_object bind]. rewrite (Es "partOf") by discriminate. destruct (truth (field s "partOf")); [split; [now left|eauto]|].
  destruct above as [c|]; [|split; [intros [o1 K]; discriminate K|intros [K|K]; [discriminate K|congruence]]]. split; [right; discriminate|]. intros _.
  unfold override_tags. rewrite !field_assign. cbn [String.eqb Ascii.eqb Bool.eqb]. rewrite E4. cbn [as_object as_list bind].
  destruct (for_each_all (fun v => p <- as_object v ;; Ok (VObj (fold_left (override (assign "partOf" (VStr c) s')) overridden p))) vs) as [l ->]; [|cbn; eauto].
  intros v V. destruct (Forall2_in_r _ _ _ _ F V) as (x & _ & p & p' & _ & -> & _). cbn. eauto.
Qed.

(** ** The metadata can be carried *)
Section one_package.
  Context (c : setting) (above : option string) (build_no : option Z) (size : Z) (lang : utext).
  Context (src e : node) (s s1 alone p : list (string * value)) (spec : node) (history : value).
  Hypothesis Us : usable c above build_no.
  Hypothesis Ds : decode c_Source src = Ok (s, []).
  Hypothesis De : decode c_Package e = Ok (alone, []).
  Hypothesis Fs : forall k, ~ In k ["history"; "version"; "release"; "partOf"] -> field s1 k = field s k.
  Hypothesis Fh : field s1 "history" = history.
  Hypothesis Dh : decode_tag (ListOf c_Update) "History" true None spec = Ok (history, []).
  Hypothesis Fp : if truth (field s "partOf") then field s1 "partOf" = field s "partOf" else exists c, above = Some c /\ field s1 "partOf" = VStr c.
  Hypothesis Po : forall k, In k overridden -> field p k = picked alone s1 k.
  Hypothesis Pi : exists l l', field alone "isA" = VList l /\ field s1 "isA" = VList l' /\ field p "isA" = VList (l ++ l').
  Hypothesis Ph : field p "history" = history.
  Hypothesis Pr : forall k, ~ In k overridden -> k <> "isA" -> k <> "history" -> field p k = field alone k.
  Hypothesis Pe : forall m, In m package_members -> member_name m <> "partOf" -> member_errors lang p m = Ok [].
  Hypothesis Se : forall m, In m (members_of c_Source) -> member_name m <> "partOf" -> member_errors lang s1 m = Ok [].

  Definition good (t : typ) (mandatory : bool) (v : value) : Prop := carried t v /\ complete t v /\ (mandatory = true -> present t v).
  Lemma alone_good k t x path : In (Tag k t x path) package_members -> well_formed t && no_int t = true -> good t x (field alone (mixed_case k)).
  Proof using De. intros M W. exact (member_good c_Package e alone (Tag k t x path) eq_refl De M W). Qed.
  Lemma source_good k t x path : In (Tag k t x path) (members_of c_Source) -> well_formed t && no_int t = true -> good t x (field s (mixed_case k)).
  Proof using Ds. intros M W. exact (member_good c_Source src s (Tag k t x path) eq_refl Ds M W). Qed.
  Lemma good_weaken t v : good t true v -> forall x, good t x v.
  Proof. intros (A & B & C) x. split; [exact A|]. split; [exact B|auto]. Qed.
  Lemma good_optional t x v : good t x v -> good t false v.
  Proof. intros (A & B & C). split; [exact A|]. split; [exact B|discriminate]. Qed.
  Lemma string_good s0 x : ascii_only s0 -> trimmed (codes s0) -> good (Basic TString) x (VStr s0).
  Proof. intros A T. split; [now split|]. split; [exact Logic.I|discriminate]. Qed.
  Lemma plain_nonempty s0 : plain_text s0 -> s0 <> "" -> ascii_only s0 /\ trimmed (codes s0).
  Proof. intros [A [->|T]] N; [congruence|now split]. Qed.
  Lemma truth_present t v : carried t v -> truth v = true -> present t v.
  Proof.
    destruct t; cbn [carried present].
    - intros _ T ->. discriminate T.
    - intros (d & -> & _) T. exists d. split; [reflexivity|]. intros ->. discriminate T.
    - intros _ T ->. discriminate T.
    - intros (l & -> & _) T. exists l. split; [reflexivity|]. intros ->. discriminate T.
  Qed.

  (** Values that the package or else the source gives *)
  Lemma picked_good k t x path path' : In (Tag k t false path) package_members -> In (Tag k t x path') (members_of c_Source) -> well_formed t && no_int t = true ->
    In (mixed_case k) overridden -> mixed_case k <> "partOf" -> good t false (field p (mixed_case k)).
  Proof using Ds De Fs Po.
    intros M M' W K N. rewrite (Po _ K). unfold picked. destruct (truth (field alone (mixed_case k))); [exact (alone_good k t false path M W)|].
    rewrite Fs; [exact (good_optional _ _ _ (source_good k t x path' M' W))|]. unfold overridden in K. cbn [In] in K |- *. intuition congruence.
  Qed.
  Lemma own_good k t x path : In (Tag k t x path) package_members -> well_formed t && no_int t = true -> ~ In (mixed_case k) overridden -> mixed_case k <> "isA" -> mixed_case k <> "history" ->
    good t x (field p (mixed_case k)).
  Proof using De Pr. intros M W A B C. rewrite (Pr _ A B C). exact (alone_good k t x path M W). Qed.
  Lemma isA_good : good (ListOf (Basic TString)) false (field p "isA").
  Proof using Ds De Fs Pi.
    destruct Pi as (l & l' & A & B & ->).
    destruct (alone_good "IsA" (ListOf (Basic TString)) false None) as (A1 & A2 & _); [cbn; tauto|reflexivity|].
    destruct (source_good "IsA" (ListOf (Basic TString)) false None) as (B1 & B2 & _); [cbn; tauto|reflexivity|].
    change (mixed_case "IsA") with "isA" in *. rewrite A in A1, A2. rewrite <- Fs, B in B1, B2 by (cbn; intuition discriminate).
    cbn [carried] in A1, B1. destruct A1 as (? & [= <-] & A1). destruct B1 as (? & [= <-] & B1). cbn [complete] in A2, B2. split; [|split; [|discriminate]].
    - exists (l ++ l')%list. split; [reflexivity|]. apply List.Forall_app. auto.
    - cbn [complete]. apply List.Forall_app. auto.
  Qed.
  Lemma history_good : good (ListOf c_Update) false history.
  Proof using Dh.
    apply (good_optional _ true). exact (read_carried (ListOf c_Update) eq_refl _ _ _ _ _ Dh (decoded_no_zero (ListOf c_Update) eq_refl _ _ _ _ _ _ Dh)).
  Qed.
  Lemma partOf_good : (truth (field s "partOf") = true \/ above <> None) -> good (Basic TString) true (field p "partOf").
  Proof using Us Ds De Fp Po.
    intros H. rewrite (Po "partOf") by (cbn; tauto). unfold picked.
    destruct (alone_good "PartOf" (Basic TString) false None) as (A1 & A2 & _); [cbn; tauto|reflexivity|]. change (mixed_case "PartOf") with "partOf" in *.
    destruct (truth (field alone "partOf")) eqn:T.
    - split; [exact A1|]. split; [exact A2|]. intros _. exact (truth_present _ _ A1 T).
    - destruct (truth (field s "partOf")) eqn:Ts.
      + rewrite Fp. destruct (source_good "PartOf" (Basic TString) false None) as (B1 & B2 & _); [cbn; tauto|reflexivity|]. change (mixed_case "PartOf") with "partOf" in *.
        split; [exact B1|]. split; [exact B2|]. intros _. exact (truth_present _ _ B1 Ts).
      + destruct Fp as (a & Ea & ->). destruct Us as (_ & _ & _ & Ua & _). destruct (Ua a Ea) as [Pa Na]. destruct (plain_nonempty a Pa Na). now apply string_good.
  Qed.
  Lemma from_source_good : good c_MetaSource true (VObj (from_source s1)).
  Proof using Ds Fs.
    assert (N : good (Basic TString) true (field s1 "name")) by (rewrite Fs by (cbn; intuition discriminate); apply (source_good "Name" (Basic TString) true None); [cbn; tauto|reflexivity]).
    assert (H : good (Basic TString) false (field s1 "homepage")) by (rewrite Fs by (cbn; intuition discriminate); apply (source_good "Homepage" (Basic TString) false None); [cbn; tauto|reflexivity]).
    assert (P : good c_Packager true (field s1 "packager")) by (rewrite Fs by (cbn; intuition discriminate); apply (source_good "Packager" c_Packager true None); [cbn; tauto|reflexivity]).
    destruct N as (N1 & N2 & N3), H as (H1 & H2 & _), P as (P1 & P2 & P3). split; [|split; [|discriminate]].
    - right. exists (from_source s1). split; [reflexivity|]. split; [reflexivity|]. split; [exact Logic.I|]. apply (proj2 (carried_each (from_source s1) (members_of c_MetaSource))). 
      intros m [<-|[<-|[<-|[]]]]; assumption.
    - apply (proj2 (complete_each (from_source s1) (members_of c_MetaSource))). intros m [<-|[<-|[<-|[]]]]; (split; [assumption||discriminate|assumption]).
  Qed.

  Let meta := gen_metadata c size build_no s1 p.
  Hypothesis Nd : s_distribution c <> "".
  Hypothesis Nr : s_distribution_release c <> "".
  Hypothesis Nz : size <> 0%Z.
  Hypothesis Np : truth (field s "partOf") = true \/ above <> None.
  Lemma metadata_good : carried_object c_MetaData meta /\ complete_object c_MetaData meta.
  Proof using Us Ds De Fs Fh Dh Fp Po Pi Ph Pr Nd Nr Nz Np.
    destruct Us as (Ud & Ur & Uf & _ & Ub). destruct (plain_nonempty _ Ud Nd) as [D1 D2]. destruct (plain_nonempty _ Ur Nr) as [R1 R2].
    match eval unfold meta, gen_metadata in meta with [_; ("package", VObj ?q)] => set (package := q) end.
    assert (G : forall m, In m (members_of c_MetaPackage) -> match m with Tag k t x _ => good t x (field package (mixed_case k)) | _ => True end).
    { intros m M. cbn [members_of c_MetaPackage package_members app In] in M.
      repeat (destruct M as [<-|M]; [unfold string_tag, local_tag, list_tag|]).
      - apply (own_good "Name" (Basic TString) true None); [cbn; tauto|reflexivity|cbn; intuition discriminate|discriminate|discriminate].
      - apply (picked_good "Summary" LocalText true None None); [cbn; tauto|cbn; tauto|reflexivity|cbn; tauto|discriminate].
      - apply (picked_good "Description" LocalText true None None); [cbn; tauto|cbn; tauto|reflexivity|cbn; tauto|discriminate].
      - exact isA_good.
      - exact (good_optional _ _ _ (partOf_good Np)).
      - apply (picked_good "License" (ListOf (Basic TString)) true None None); [cbn; tauto|cbn; tauto|reflexivity|cbn; tauto|discriminate].
      - apply (picked_good "Icon" (Basic TString) false None None); [cbn; tauto|cbn; tauto|reflexivity|cbn; tauto|discriminate].
      - apply (own_good "PackageDependencies" (ListOf c_Dependency) false (Some "RuntimeDependencies/Dependency")); [cbn; tauto|reflexivity|cbn; intuition discriminate|discriminate|discriminate].
      - apply (own_good "ComponentDependencies" (ListOf (Basic TString)) false (Some "RuntimeDependencies/Component")); [cbn; tauto|reflexivity|cbn; intuition discriminate|discriminate|discriminate].
      - apply (own_good "Files" (ListOf c_Path) false None); [cbn; tauto|reflexivity|cbn; intuition discriminate|discriminate|discriminate].
      - apply (own_good "Conflicts" (ListOf (Basic TString)) false (Some "Conflicts/Package")); [cbn; tauto|reflexivity|cbn; intuition discriminate|discriminate|discriminate].
      - apply (own_good "ProvidesComar" (ListOf c_ComarProvide) false (Some "Provides/COMAR")); [cbn; tauto|reflexivity|cbn; intuition discriminate|discriminate|discriminate].
      - apply (own_good "AdditionalFiles" (ListOf c_AdditionalFile) false None); [cbn; tauto|reflexivity|cbn; intuition discriminate|discriminate|discriminate].
      - change (field package (mixed_case "History")) with (field s1 "history"). rewrite Fh. exact history_good.
      - exact (partOf_good Np).
      - change (field package (mixed_case "Build")) with (number build_no). destruct build_no as [z|]; (split; [cbn; congruence || exact Logic.I|split; [exact Logic.I|discriminate]]).
      - apply string_good; assumption.
      - apply string_good; assumption.
      - apply string_good; [repeat constructor|]. split; [discriminate|]. split.
        + intros a r [= <- _]. cbn. intuition discriminate.
        + intros r a E. change (codes "Any") with ([65%N; 110%N] ++ [121%N])%list in E. apply app_inj_tail in E as [_ <-]. cbn. intuition discriminate.
      - split; [exact Nz|split; [exact Logic.I|discriminate]].
      - split; [exact Logic.I|split; [exact Logic.I|discriminate]].
      - split; [exact Logic.I|split; [exact Logic.I|discriminate]].
      - change (field package (mixed_case "PackageFormat")) with (text_or_none (s_format c)). destruct (s_format c) as [f|]; cbn [text_or_none].
        + destruct (Uf f eq_refl) as [U1 U2]. destruct (plain_nonempty f U1 U2). now apply string_good.
        + split; [exact Logic.I|split; [exact Logic.I|discriminate]].
      - exact (good_weaken _ _ from_source_good false).
      - destruct M. }
    destruct (history_decoded _ _ Dh) as (us & HU & Nu & _).
    assert (Rd : ready FirstOfHistory package).
    { change (assoc "history" package) with (Some (field s1 "history")). cbn [ready]. change (assoc "history" package) with (Some (field s1 "history")). rewrite Fh, HU. destruct us as [|x l]; [congruence|]. eauto. }
    assert (GP : good c_MetaPackage true (VObj package)).
    { split; [|split; [|discriminate]].
      - right. exists package. split; [reflexivity|]. split; [reflexivity|]. split; [exact Rd|]. apply (proj2 (carried_each package (members_of c_MetaPackage))). intros m M. specialize (G m M).
        cbn [members_of c_MetaPackage package_members app In] in M. repeat (destruct M as [<-|M]; [exact (proj1 G)|]). destruct M.
      - apply (proj2 (complete_each package (members_of c_MetaPackage))). intros m M. specialize (G m M).
        cbn [members_of c_MetaPackage package_members app In] in M. repeat (destruct M as [<-|M]; [exact (conj (proj2 (proj2 G)) (proj1 (proj2 G)))|]). destruct M. }
    destruct GP as (G1 & G2 & G3). destruct from_source_good as (S1 & S2 & S3). split.
    - right. exists meta. split; [reflexivity|]. split; [reflexivity|]. split; [exact Logic.I|]. apply (proj2 (carried_each meta (members_of c_MetaData))). intros m [<-|[<-|[]]]; assumption.
    - apply (proj2 (complete_each meta (members_of c_MetaData))). intros m [<-|[<-|[]]]; (split; assumption).
  Qed.
  Lemma metadata_valid : errors lang c_MetaData meta = Ok [].
  Proof using Us Ds De Fs Fh Fp Po Ph Pe Se Np.
    assert (ES : errors_value lang "Source" c_MetaSource (VObj (from_source s1)) = Ok []).
    { apply errors_object. intros m M. rewrite (member_errors_same lang _ s1 m); [|destruct M as [<-|[<-|[<-|[]]]]; reflexivity].
      apply Se; destruct M as [<-|[<-|[<-|[]]]]; cbn; try tauto; discriminate. }
    match eval unfold meta, gen_metadata in meta with [_; ("package", VObj ?q)] => set (package := q) end.
    assert (PO : forall x, member_errors lang package (string_tag "PartOf" x) = Ok []).
    { destruct (partOf_good Np) as (A & _ & B). intros x. unfold member_errors. cbn zeta. change (field package (member_name (string_tag "PartOf" x))) with (field p "partOf").
      specialize (B eq_refl). cbn [present] in B. cbn [carried] in A. destruct (field p "partOf"); cbn [simple] in A; try contradiction.
      cbn [errors_value]. unfold basic_errors. cbn [of_basic negb]. cbn [string_tag errors_value]; unfold basic_errors; cbn [of_basic negb]; now rewrite andb_false_r. }
    assert (EP : errors_value lang "Package" c_MetaPackage (VObj package) = Ok []).
    { apply errors_object. intros m M. apply in_app_or in M as [M|M].
      - destruct (string_dec (member_name m) "partOf") as [E|N].
        + assert (m = string_tag "PartOf" false) as ->; [|apply PO].
          cbn [package_members In] in M. repeat (destruct M as [<-|M]; [try reflexivity; discriminate E|]). destruct M.
        + rewrite (member_errors_same lang _ p m); [exact (Pe m M N)|]. cbn [package_members In] in M.
          repeat (destruct M as [<-|M]; [first [reflexivity|change (field s1 "history" = field p "history"); congruence]|]). destruct M.
      - cbn [In] in M. repeat (destruct M as [<-|M]); [apply PO| | | | | | | | | |destruct M]; unfold member_errors; cbn zeta.
        + change (field package (member_name (Tag "Build" (Basic TInteger) false None))) with (number build_no). destruct build_no as [z|]; [|reflexivity]. cbn [number errors_value]. unfold basic_errors. cbn [of_basic negb]. now rewrite andb_false_r.
        + cbn. unfold basic_errors. cbn [of_basic negb]. now rewrite andb_false_r.
        + cbn. unfold basic_errors. cbn [of_basic negb]. now rewrite andb_false_r.
        + reflexivity.
        + cbn. unfold basic_errors. cbn [of_basic negb]. now rewrite andb_false_r.
        + reflexivity.
        + reflexivity.
        + change (field package (member_name (string_tag "PackageFormat" false))) with (text_or_none (s_format c)). destruct (s_format c) as [f|]; [|reflexivity]. cbn [text_or_none errors_value string_tag]. unfold basic_errors. cbn [of_basic negb]. now rewrite andb_false_r.
        + exact ES. }
    unfold errors. unfold c_MetaData. apply errors_object. intros m [<-|[<-|[]]]; [exact ES|exact EP].
  Qed.
End one_package.

(** ** Writing needs the mandatory members *)
Lemma encode_members_each keys fields ms n n' : encode_members keys fields ms n = Ok (n', []) -> forall m, In m ms -> exists a b, encode_member keys fields m a = Ok (b, []).
Proof.
  revert n. induction ms as [|x ms IH]; intros n; cbn [encode_members]; [intros _ m []|]. intros E. apply then_ok in E as (n1 & A & B). intros m [<-|M]; [eauto|eauto].
Qed.
Lemma mandatory_truth keys t token path v n n' : encode_tag keys t token true path v n = Ok (n', []) -> truth v = true.
Proof.
  destruct t; cbn [encode_tag].
  - unfold encode_basic. destruct (truth v); [reflexivity|discriminate].
  - destruct v; try discriminate. destruct (truth (VLocal d)); [reflexivity|discriminate].
  - destruct v; try discriminate. reflexivity.
  - destruct v; try discriminate. destruct l; [discriminate|reflexivity].
Qed.
Lemma written_mandatory keys lang c size build_no s1 p m : write keys lang c_MetaData (gen_metadata c size build_no s1 p) = Ok m ->
  s_distribution c <> "" /\ s_distribution_release c <> "" /\ size <> 0%Z.
Proof.
  intros W. apply write_ok in W as [_ W]. unfold encode in W. destruct (encode_members_each _ _ _ _ _ W (Tag "Package" c_MetaPackage true None)) as (a & b & E); [cbn; tauto|].
  unfold encode_member in E. change (field (gen_metadata c size build_no s1 p) (member_name (Tag "Package" c_MetaPackage true None))) with (field (gen_metadata c size build_no s1 p) "package") in E.
  unfold c_MetaPackage in E. unfold field at 1 in E. cbn [gen_metadata assoc String.eqb Ascii.eqb Bool.eqb] in E. rewrite encode_object_eq in E.
  match type of E with context [encode_members keys ?f _ _] => set (package := f) in E end.
  destruct (encode_members keys package _ (Elem "Package" [] [])) as [[b' e]|] eqn:M; cbn [bind fst snd] in E; [|discriminate E]. injection E as _ ->.
  pose proof (encode_members_each _ _ _ _ _ M) as Q.
  assert (K : forall k b, In (Tag k (Basic b) true None) (members_of c_MetaPackage) -> truth (field package (mixed_case k)) = true).
  { intros k b0 I. destruct (Q _ I) as (x & y & T). unfold encode_member in T. exact (mandatory_truth _ _ _ _ _ _ _ T). }
  split; [|split].
  - pose proof (K "Distribution" TString) as T. change (field package (mixed_case "Distribution")) with (VStr (s_distribution c)) in T. intros E. rewrite E in T. discriminate T. cbn. tauto.
  - pose proof (K "DistributionRelease" TString) as T. change (field package (mixed_case "DistributionRelease")) with (VStr (s_distribution_release c)) in T. intros E. rewrite E in T. discriminate T. cbn. tauto.
  - pose proof (K "InstalledSize" TLong) as T. change (field package (mixed_case "InstalledSize")) with (VInt size) in T. intros E. rewrite E in T. discriminate T. cbn. tauto.
Qed.
