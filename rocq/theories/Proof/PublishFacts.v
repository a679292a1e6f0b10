(** * Facts about publishing and downloading *)
From Coq Require Import String Ascii ZArith List Bool Lia.
From stdpp Require Import gmap strings.
From Verif Require Proof.ActionsFacts Proof.RebuildTop.
From Verif Require Import Model.Py Model.Path Model.Rebuild Model.Trace Model.Fetch Model.Publish Spec.RebuildSpec Spec.FetchSpec Spec.PublishSpec Proof.PyFacts Proof.TraceFacts Proof.FetchFacts Proof.ObtainFacts.
Import ListNotations.
Open Scope string_scope.
Open Scope prog_scope.

(** ** The site *)
Section site.
  Context (bzip2 sha1 : string -> string) (disk : files -> string -> list nat * bool) (gpg : files -> string -> option string).
  Notation put := (put disk).
  Notation put_sum := (put_sum sha1 disk).
  Notation publish := (publish bzip2 sha1 disk gpg).

  Definition known (K : list (string * string)) (s : files) : Prop := forall n c, In (n, c) K -> s !! n = Some c.
  Lemma keeps_put (J : files -> Prop) K name text : (forall s b, J s -> beginning b text -> J (<[ name := b ]> s)) -> (forall c, ~ In (name, c) K) ->
    keeps J (known K) (put name text) (fun _ => known ((name, text) :: K)).
  Proof.
    intros HJ N. unfold Publish.put. apply keeps_read. intros f Jf Kf.
    assert (forall b s, known K s -> known K (<[ name := b ]> s)) as C.
    { intros b s H n c I. rewrite lookup_insert_ne; [now apply H|]. intros ->. exact (N c I). }
    apply (keeps_then _ _ _ (fun _ => known K)).
    { apply keeps_change. intros s Js ->. split; [apply HJ; [exact Js|apply beginning_nil]|now apply C]. }
    intros []. apply (keeps_then _ _ _ (fun _ => known K)).
    { apply keeps_each. intros n. apply keeps_change. intros s Js Ks. split; [apply HJ; [exact Js|apply beginning_take]|now apply C]. }
    intros []. destruct (snd (disk f name)); [|apply keeps_raise]. apply keeps_change. intros s Js Ks. split; [apply HJ; [exact Js|exists ""; now rewrite str_app_nil_r]|].
    intros n c [E|I]; [injection E as <- <-; apply lookup_insert|]. now apply C.
  Qed.
  Lemma keeps_sum (J : files -> Prop) K name text : In (name, text) K -> (forall s b, J s -> beginning b (sha1 text) -> J (<[ name ++ ".sha1sum" := b ]> s)) -> (forall c, ~ In (name ++ ".sha1sum", c) K) ->
    keeps J (known K) (put_sum name) (fun _ => known ((name ++ ".sha1sum", sha1 text) :: K)).
  Proof.
    intros I HJ N. unfold Publish.put_sum. apply keeps_read. intros f Jf Kf. unfold contents. rewrite (Kf _ _ I). eapply keeps_weaken; [apply (keeps_put J K _ _ HJ N)|intros s _ ->; exact Kf|]. intros [] s _ H. exact H.
  Qed.
  Lemma keeps_sig (J : files -> Prop) K name : (forall s b, J s -> J (<[ name ++ ".sig" := b ]> s)) -> (forall c, ~ In (name ++ ".sig", c) K) ->
    keeps J (known K) (sign_file disk gpg name) (fun _ => known K).
  Proof.
    intros HJ N. unfold sign_file. apply keeps_read. intros f Jf Kf. destruct (gpg f name); [|apply keeps_raise]. eapply keeps_weaken; [apply (keeps_put J K _ _ (fun s b H _ => HJ s b H) N)|intros s' _ ->; exact Kf|].
    intros [] s' _ H n c I. apply H. now right.
  Qed.

  Definition parts (u : uri) (text : string) (sha1sum : bool) (compress : option method) : list (string * string) :=
    let z := match compress with Some Bz2 => true | _ => false end in
    (u_uri u, text) :: (if z then cons (u_uri u ++ ".bz2", bzip2 text) else fun l => l)
      (if sha1sum then (u_uri u ++ ".sha1sum", sha1 text) :: (if z then [((u_uri u ++ ".bz2") ++ ".sha1sum", sha1 (bzip2 text))] else []) else []).
  Lemma names_apart L a b : a <> b -> L ++ a <> L ++ b.
  Proof. intros N E. apply N. exact (ActionsFacts.str_app_inv_l _ _ _ E). Qed.
  Lemma keeps_publish (J : files -> Prop) u text sha1sum compress sign :
    (forall s n b c, J s -> In (n, c) (parts u text true (Some Bz2)) -> beginning b c -> J (<[ n := b ]> s)) ->
    (forall s b, J s -> J (<[ u_uri u ++ ".sig" := b ]> s) /\ J (<[ (u_uri u ++ ".bz2") ++ ".sig" := b ]> s)) ->
    keeps J (fun _ => True) (publish u text sha1sum compress sign) (fun _ => known (parts u text sha1sum compress)).
  Proof.
    intros HJ HS. unfold Publish.publish. destruct (is_remote_file u); [apply keeps_raise|]. set (L := u_uri u) in *.
    assert (forall a b, (String.eqb a b = false) -> L ++ a <> L ++ b) as apart by (intros a b E; apply names_apart; now apply String.eqb_neq).
    assert (forall a, (String.eqb a "" = false) -> L <> L ++ a) as apart0 by (intros a E K; apply (apart a "" E); now rewrite str_app_nil_r).
    assert (forall a, (L ++ ".bz2") ++ a = L ++ ".bz2" ++ a) as assoc by (intros a; apply str_app_assoc).
    apply (keeps_then _ _ _ (fun _ => known [(L, text)])).
    { eapply keeps_weaken; [apply (keeps_put J [] L text)|intros s _ _ n c []|intros [] s _ H; exact H].
      - intros s b Js B. eapply HJ; [exact Js|now left|exact B].
      - intros c []. }
    intros []. set (z := match compress with Some Bz2 => true | _ => false end).
    set (K1 := (L, text) :: (if z then [(L ++ ".bz2", bzip2 text)] else [])).
    apply (keeps_then _ _ _ (fun cf s => cf = (if z then Some (L ++ ".bz2") else None) /\ known K1 s)).
    { destruct compress as [[]|]; unfold K1, z.
      - apply keeps_read. intros f Jf Kf. unfold contents. rewrite (Kf L text (or_introl eq_refl)). change (default "" (Some text)) with text.
        apply (keeps_then _ _ _ (fun _ => known [(L ++ ".bz2", bzip2 text); (L, text)])).
        + eapply keeps_weaken; [apply (keeps_put J [(L, text)])|intros s _ ->; exact Kf|intros [] s _ H; exact H].
          * intros s b Js B. eapply HJ; [exact Js|right; now left|exact B].
          * intros c [E|[]]. injection E as E _. exact (apart0 ".bz2" eq_refl E).
        + intros []. apply keeps_done. intros s _ H. split; [reflexivity|]. intros n c [I|[I|[]]]; apply H; [right; now left|now left].
      - apply keeps_raise.
      - apply keeps_done. intros s _ H. split; [reflexivity|exact H].
      - apply keeps_done. intros s _ H. split; [reflexivity|exact H]. }
    intros cf. apply (keeps_then _ _ _ (fun _ s => cf = (if z then Some (L ++ ".bz2") else None) /\ known (parts u text sha1sum compress) s)).
    { intros s Js [-> Ks]. revert s Js Ks. change (keeps J (known K1) (if sha1sum then _ <~ put_sum L ;; match (if z then Some (L ++ ".bz2") else None) with Some c => put_sum c | None => ret tt end else ret tt)
        (fun _ s => (if z then Some (L ++ ".bz2") else None) = (if z then Some (L ++ ".bz2") else None) /\ known (parts u text sha1sum compress) s)).
      destruct sha1sum.
      2: { apply keeps_done. intros s _ H. split; [reflexivity|]. unfold parts. fold z L. unfold K1 in H. now destruct z. }
      apply (keeps_then _ _ _ (fun _ => known ((L ++ ".sha1sum", sha1 text) :: K1))).
      { apply keeps_sum; [now left| |].
        - intros s b Js B. eapply HJ; [exact Js|do 2 right; now left|exact B].
        - intros c I. unfold K1 in I. destruct z; cbn in I; [destruct I as [E|[E|[]]]|destruct I as [E|[]]]; injection E as E _; (apply (apart ".bz2" ".sha1sum" eq_refl E) || apply (apart0 ".sha1sum" eq_refl E)). }
      intros []. unfold K1, parts. fold L z. destruct z.
      - eapply keeps_weaken; [apply (keeps_sum J ([(L ++ ".sha1sum", sha1 text); (L, text); (L ++ ".bz2", bzip2 text)]) (L ++ ".bz2") (bzip2 text))|intros s _ H; exact H|].
        + right; right; now left.
        + intros s b Js B. eapply HJ; [exact Js|do 3 right; now left|exact B].
        + intros c I. rewrite assoc in I. destruct I as [E|[E|[E|[]]]]; injection E as E _; [apply (apart ".sha1sum" ".bz2.sha1sum" eq_refl E)|apply (apart0 ".bz2.sha1sum" eq_refl E)|apply (apart ".bz2" ".bz2.sha1sum" eq_refl E)].
        + intros [] s _ H. split; [reflexivity|]. intros n c I. apply H. cbn in I |- *. tauto.
      - apply keeps_done. intros s _ H. split; [reflexivity|]. intros n c I. apply H. cbn in I |- *. tauto. }
    intros []. intros s Js [-> Ks]. revert s Js Ks.
    change (keeps J (known (parts u text sha1sum compress)) (if sign then _ <~ sign_file disk gpg L ;; match (if z then Some (L ++ ".bz2") else None) with Some c => sign_file disk gpg c | None => ret tt end else ret tt) (fun _ => known (parts u text sha1sum compress))).
    assert (forall n c, In (n, c) (parts u text sha1sum compress) -> n <> L ++ ".sig" /\ n <> L ++ ".bz2.sig") as sigs.
    { intros n c I. assert (In n [L; L ++ ".bz2"; L ++ ".sha1sum"; L ++ ".bz2.sha1sum"]) as M.
      { unfold parts in I. fold L z in I. rewrite assoc in I. cbn [In]. destruct z, sha1sum; cbn in I; repeat (destruct I as [E|I]; [injection E as <- _; tauto|]); destruct I. }
      destruct M as [<-|[<-|[<-|[<-|[]]]]]; split; (apply apart0; reflexivity) || (apply apart; reflexivity). }
    destruct sign; [|now apply keeps_done]. apply (keeps_then _ _ _ (fun _ => known (parts u text sha1sum compress))).
    { apply keeps_sig; [intros s b Js; apply HS, Js|]. intros c I. now apply sigs in I as [I _]. }
    intros []. destruct z; [|now apply keeps_done]. apply keeps_sig; [intros s b Js; apply HS, Js|]. intros c I. apply sigs in I as [_ I]. now rewrite assoc in I.
  Qed.
End site.

(** At any moment the site shows a beginning of something published *)
Section history.
  Context (bzip2 sha1 : string -> string) (u : uri) (packed : bool).
  Notation X := (shelf u packed).
  Definition shows (ts : list string) (g : files) : Prop :=
    (forall x, g !! X = Some x -> exists t, In t ts /\ beginning x (stored bzip2 packed t)) /\
    (forall x, g !! (X ++ ".sha1sum") = Some x -> exists t, In t ts /\ beginning x (sha1 (stored bzip2 packed t))).
  Lemma shows_insert ts g n b : shows ts g -> (n = X -> exists t, In t ts /\ beginning b (stored bzip2 packed t)) -> (n = X ++ ".sha1sum" -> exists t, In t ts /\ beginning b (sha1 (stored bzip2 packed t))) -> shows ts (<[ n := b ]> g).
  Proof.
    intros [A B] C D. split; intros x E.
    - destruct (decide (n = X)) as [->|N]; [rewrite lookup_insert in E; injection E as <-; now apply C|]. rewrite lookup_insert_ne in E by exact N. now apply A.
    - destruct (decide (n = X ++ ".sha1sum")) as [->|N]; [rewrite lookup_insert in E; injection E as <-; now apply D|]. rewrite lookup_insert_ne in E by exact N. now apply B.
  Qed.
  Lemma X_is : X = u_uri u ++ (if packed then ".bz2" else "").
  Proof. reflexivity. Qed.
  Lemma XS_is : X ++ ".sha1sum" = u_uri u ++ (if packed then ".bz2.sha1sum" else ".sha1sum").
  Proof. unfold shelf. rewrite str_app_assoc. now destruct packed. Qed.
  Lemma shows_part ts text g n b c : In text ts -> shows ts g -> In (n, c) (parts bzip2 sha1 u text true (Some Bz2)) -> beginning b c -> shows ts (<[ n := b ]> g).
  Proof.
    intros I S H B. apply shows_insert; [exact S| |].
    - rewrite X_is. intros E. exists text. split; [exact I|]. unfold parts in H. rewrite str_app_assoc in H. cbn in H.
      destruct H as [H|[H|[H|[H|[]]]]]; injection H as <- <-; [replace (u_uri u) with (u_uri u ++ "") in E at 1 by apply str_app_nil_r|..]; apply ActionsFacts.str_app_inv_l in E; destruct packed; (discriminate E || exact B).
    - rewrite XS_is. intros E. exists text. split; [exact I|]. unfold parts in H. rewrite str_app_assoc in H. cbn in H.
      destruct H as [H|[H|[H|[H|[]]]]]; injection H as <- <-; [replace (u_uri u) with (u_uri u ++ "") in E at 1 by apply str_app_nil_r|..]; apply ActionsFacts.str_app_inv_l in E; destruct packed; (discriminate E || exact B).
  Qed.
  Lemma shows_sig ts g b : shows ts g -> shows ts (<[ u_uri u ++ ".sig" := b ]> g) /\ shows ts (<[ (u_uri u ++ ".bz2") ++ ".sig" := b ]> g).
  Proof.
    intros S. rewrite str_app_assoc. split; apply shows_insert; try exact S; rewrite ?XS_is, ?X_is; intros E; apply ActionsFacts.str_app_inv_l in E; destruct packed; discriminate E.
  Qed.
  Lemma shows_more ts t g : shows ts g -> shows (t :: ts) g.
  Proof. intros [A B]. split; intros x E; [destruct (A x E) as (y & I & K)|destruct (B x E) as (y & I & K)]; exists y; (split; [now right|exact K]). Qed.
  Lemma publishings_show g0 ts g : g0 !! X = None -> g0 !! (X ++ ".sha1sum") = None -> publishings bzip2 sha1 u g0 ts g -> shows ts g.
  Proof.
    intros A B. induction 1 as [|ts g g' disk gpg text sha1sum compress sign H IH K]; [split; intros x E; congruence|].
    destruct (keeps_publish bzip2 sha1 disk gpg (shows (text :: ts)) u text sha1sum compress sign) with (s := g) as [All _].
    - intros s n b c S I. apply (shows_part _ text); [now left|exact S|exact I].
    - intros s b. apply shows_sig.
    - now apply shows_more.
    - exact Logic.I.
    - now apply All.
  Qed.
  Lemma published_whole disk gpg text compress sign g : (packed = true -> compress = Some Bz2) -> result (publish bzip2 sha1 disk gpg u text true compress sign) g = Ok tt ->
    let g' := final (publish bzip2 sha1 disk gpg u text true compress sign) g in g' !! X = Some (stored bzip2 packed text) /\ g' !! (X ++ ".sha1sum") = Some (sha1 (stored bzip2 packed text)).
  Proof.
    intros Z R. destruct (keeps_publish bzip2 sha1 disk gpg (fun _ => True) u text true compress sign) with (s := g) as [_ F]; [auto..|]. specialize (F tt R). cbv zeta.
    unfold known in F. rewrite XS_is, X_is. unfold parts in F. rewrite str_app_assoc in F. destruct packed.
    - rewrite (Z eq_refl) in *. split; apply F; cbn; tauto.
    - rewrite str_app_nil_r. split; apply F; [now left|]. destruct compress as [[]|]; cbn; tauto.
  Qed.
End history.

(** ** The visitor *)
Section visitor.
  Context (server : string -> option string) (net : string -> files -> transfer) (parse : string -> uri) (mirrors : string -> list string) (authinfo : bool)
    (dir_writable writable : string -> bool) (sha1 : string -> string) (bunzip2 : string -> option string) (fuel : nat) (dir : string).
  Notation get_with := (download_with server net parse mirrors authinfo dir_writable writable sha1 bunzip2 fuel).
  Notation get := (download server net parse mirrors authinfo dir_writable writable sha1 bunzip2 fuel).
  Notation obtain_ := (obtain server net parse mirrors authinfo dir_writable writable sha1 fuel).

  Lemma with_remote u f c h m path : is_remote_file u = true -> offers server parse mirrors dir f c u -> (forall b, f !! partial u dir = Some b -> beginning b c) ->
    result (get_with u dir h m false) f = Ok path ->
    let g := final (obtain_ u dir h false) f in
    g !! destination u dir = Some c /\ (forall line, h = Some line -> sha1 c = line) /\ result (decompress bunzip2 (destination u dir) m) g = Ok path /\
    final (get_with u dir h m false) f = final (decompress bunzip2 (destination u dir) m) g /\ (forall p, p <> destination u dir -> p <> partial u dir -> g !! p = f !! p).
  Proof.
    intros R O P H. unfold download_with in *. apply andthen_result in H as (l & H1 & H2 & ->). cbv zeta. set (g := final (obtain_ u dir h false) f) in *.
    assert (l = destination u dir /\ g !! destination u dir = Some c /\ forall p, p <> destination u dir -> p <> partial u dir -> g !! p = f !! p) as (-> & D & Rest).
    { unfold obtain in H1. unfold g, obtain. rewrite R in *. cbn [orb] in *. unfold result in H1. rewrite ask_eq in H1. unfold final. rewrite ask_eq. destruct (match h with Some _ => _ | None => _ end); [discriminate H1|].
      set (q := _ <~ fetch _ _ _ _ _ _ _ _ _ _ ;; _) in *. change (snd (q f)) with (result q f) in H1. change (List.last (fst (q f)) f) with (final q f). unfold q in *. apply andthen_result in H1 as ([] & H1 & E & ->). injection E as <-.
      split; [reflexivity|]. destruct (keeps_fetch server parse mirrors net authinfo dir_writable writable f c dir fuel u O f (safe_start f c _ P) Logic.I) as [A B].
      split; [apply (B tt H1)|]. exact (safe_rest _ _ _ _ (A _ (final_state _ _))). }
    split; [exact D|]. unfold result in H2. rewrite ask_eq, D in H2. unfold final at 1. rewrite ask_eq, D.
    destruct h as [line|].
    - destruct (String.eqb_spec (sha1 c) line) as [E|E]; cbn [negb] in *; [|discriminate H2]. split; [intros l E'; congruence|]. split; [exact H2|]. split; [reflexivity|exact Rest].
    - split; [discriminate|]. split; [exact H2|]. split; [reflexivity|exact Rest].
  Qed.
  Lemma join_suffix d n c suf : c <> "/"%char -> join_path2 d (n ++ String c suf) = join_path2 d n ++ String c suf.
  Proof.
    intros N. unfold join_path2. assert (py_lstrip "/" (n ++ String c suf) = py_lstrip "/" n ++ String c suf) as ->.
    { induction n as [|a n IH].
      - assert (char_in c "/" = false) as K by (destruct (char_in c "/") eqn:K; [apply char_in_iff in K as [K|[]]; congruence|reflexivity]).
        change (py_lstrip "/" ("" ++ String c suf)) with (if char_in c "/" then py_lstrip "/" suf else String c suf). now rewrite K.
      - change (py_lstrip "/" (String a n ++ String c suf)) with (if char_in a "/" then py_lstrip "/" (n ++ String c suf) else String a (n ++ String c suf)).
        change (py_lstrip "/" (String a n)) with (if char_in a "/" then py_lstrip "/" n else String a n). destruct (char_in a "/"); [exact IH|reflexivity]. }
    destruct (_ || _); now rewrite ?str_app_assoc.
  Qed.

  Context (bzip2 : string -> string) (g : files) (u v : uri) (packed : bool) (f : files).
  Context (V : visits server parse g u v packed dir f) (Z : forall t, bunzip2 (bzip2 t) = Some t).
  Notation X := (shelf u packed).
  Notation sum := (parse (u_uri v ++ ".sha1sum")).
  Lemma sum_state sumfile : result (get_with sum dir None None false) f = Ok sumfile ->
    exists s, let f1 := final (get_with sum dir None None false) f in g !! (X ++ ".sha1sum") = Some s /\ f1 !! sumfile = Some s /\ f1 !! partial v dir = None /\ f1 !! destination v dir = f !! destination v dir.
  Proof.
    intros R. destruct V as [[L M] Sh [L' M'] Sh' Nm [F1 F2]]. assert (is_remote_file sum = true) as Rs by (unfold is_remote_file; now rewrite L').
    set (f1 := final (get_with sum dir None None false) f) in *.
    assert (forall c, (forall c', server (u_uri sum) = Some c' -> c' = c) -> f1 !! sumfile = Some c /\ f1 !! partial v dir = None /\ f1 !! destination v dir = f !! destination v dir) as S1.
    { intros c Hc. destruct (with_remote sum f c None None sumfile Rs) as (A & _ & B & C & D); [now apply offers_server|intros b E; congruence|exact R|]. cbv zeta in *. cbn in B. injection B as <-.
      unfold f1. rewrite C. set (g1 := final (obtain_ sum dir None false) f) in *. change (final (decompress bunzip2 (destination sum dir) None) g1) with g1. split; [exact A|]. rewrite <- F1. split; apply D.
      - unfold partial, destination. rewrite Nm, join_suffix by discriminate. apply names_apart. discriminate.
      - unfold partial, destination. rewrite Nm, join_suffix, str_app_assoc by discriminate. apply names_apart. discriminate.
      - unfold destination. rewrite Nm, join_suffix by discriminate. intros E. rewrite <- (str_app_nil_r (join_path2 dir (u_filename v))) in E at 1. now apply ActionsFacts.str_app_inv_l in E.
      - unfold partial, destination. rewrite Nm, join_suffix, str_app_assoc by discriminate. intros E. rewrite <- (str_app_nil_r (join_path2 dir (u_filename v))) in E at 1. now apply ActionsFacts.str_app_inv_l in E. }
    destruct (server (u_uri sum)) as [s|] eqn:Es.
    2: { exfalso. destruct (S1 "a") as [A _]; [discriminate|]. destruct (S1 "b") as [B _]; [discriminate|]. congruence. }
    destruct (S1 s) as (A & P1 & P2); [intros c' E; congruence|]. exists s. cbv zeta. repeat split; congruence || auto.
  Qed.
  Lemma take_text f1 h m path : unpacks m packed (destination v dir) -> f1 !! partial v dir = None -> result (get_with v dir h m false) f1 = Ok path ->
    exists c x, g !! X = Some c /\ (forall line, h = Some line -> sha1 c = line) /\ unpacked bunzip2 packed c x /\ final (get_with v dir h m false) f1 !! path = Some x.
  Proof.
    intros U P1 Eq. destruct V as [[L M] Sh _ _ _ _]. assert (is_remote_file v = true) as Rv by (unfold is_remote_file; now rewrite L).
    assert (forall c, (forall c', server (u_uri v) = Some c' -> c' = c) -> let g1 := final (obtain_ v dir h false) f1 in g1 !! destination v dir = Some c /\ (forall line, h = Some line -> sha1 c = line) /\ exists x, unpacked bunzip2 packed c x /\ final (get_with v dir h m false) f1 !! path = Some x) as S2.
    { intros c Hc. destruct (with_remote v f1 c h m path Rv) as (A2 & B2 & C2 & D2 & _); [now apply offers_server|intros b E; congruence|exact Eq|]. cbv zeta in *. split; [exact A2|]. split; [exact B2|].
      rewrite D2. unfold unpacked. destruct (decompress_ok bunzip2 _ _ _ _ _ A2 C2) as [(W & -> & ->)|(W & _ & d & Ed & ->)]; unfold unpacks in U; destruct packed.
      - exfalso. destruct W as [->|(-> & W & _)], U as [U|(U & W')]; try discriminate U. now apply W.
      - exists c. split; [reflexivity|exact A2].
      - exists d. split; [exact Ed|]. now rewrite lookup_insert.
      - exfalso. destruct U as [->|(-> & U & _)], W as [W|(W & W')]; try discriminate W. now apply U. }
    destruct (server (u_uri v)) as [c|] eqn:Ev.
    2: { exfalso. destruct (S2 "a") as [B _]; [discriminate|]. destruct (S2 "b") as [C _]; [discriminate|]. congruence. }
    destruct (S2 c) as (_ & B & x & C & D); [intros c' E; congruence|]. exists c, x. repeat split; congruence || auto.
  Qed.
  Lemma visit_text m path : unpacks m packed (destination v dir) -> result (get v dir true m false) f = Ok path ->
    exists c s line x, g !! X = Some c /\ g !! (X ++ ".sha1sum") = Some s /\ says s line /\ sha1 c = line /\ unpacked bunzip2 packed c x /\ final (get v dir true m false) f !! path = Some x.
  Proof.
    intros U H.
    destruct (get_inv server net parse mirrors authinfo dir_writable writable sha1 bunzip2 fuel v dir m false f) as [(e & E & _)|(sumfile & text & line & R & T & Ls & Eq & Fi & _)]; [congruence|].
    rewrite H in Eq. symmetry in Eq. rewrite Fi. clear Fi. change (get sum dir false None false) with (get_with sum dir None None false) in *.
    destruct (sum_state sumfile R) as (s & Es & A & P1 & _). cbv zeta in *. set (f1 := final (get_with sum dir None None false) f) in *. rewrite A in T. injection T as <-.
    destruct (take_text f1 (Some line) m path U P1 Eq) as (c & x & Ec & B & C & D). exists c, s, line, x. repeat split; auto.
  Qed.
  Lemma visit_already m : result (get v dir true m false) f = Err EAlreadyHave ->
    exists c s line, f !! destination v dir = Some c /\ final (get v dir true m false) f !! destination v dir = Some c /\ final (get v dir true m false) f !! partial v dir = None /\ g !! (X ++ ".sha1sum") = Some s /\ says s line /\ sha1 c = line.
  Proof.
    intros H.
    destruct (get_inv server net parse mirrors authinfo dir_writable writable sha1 bunzip2 fuel v dir m false f) as [(e & E & N)|(sumfile & text & line & R & T & Ls & Eq & Fi & _)]; [congruence|].
    rewrite H in Eq. symmetry in Eq. rewrite Fi. clear Fi. change (get sum dir false None false) with (get_with sum dir None None false) in *.
    destruct (sum_state sumfile R) as (s & Es & A & P1 & P2). cbv zeta in *. set (f1 := final (get_with sum dir None None false) f) in *. rewrite A in T. injection T as <-.
    apply with_already in Eq as [-> (line' & c & K & D & Sc)]. injection K as <-. exists c, s, line. repeat split; congruence || auto.
  Qed.
  Lemma visit_inv m path : unpacks m packed (destination v dir) -> result (get v dir true m false) f = Ok path ->
    exists c s line, g !! X = Some c /\ g !! (X ++ ".sha1sum") = Some s /\ says s line /\ sha1 c = line /\ (forall t, c = stored bzip2 packed t -> final (get v dir true m false) f !! path = Some t).
  Proof.
    intros U H. destruct (visit_text m path U H) as (c & s & line & x & A & B & C & D & E & F). exists c, s, line. repeat split; auto.
    intros t ->. rewrite F. f_equal. unfold unpacked, stored in E. destruct packed; [|now symmetry]. rewrite Z in E. congruence.
  Qed.
  Lemma says_beginning s line : says s line -> beginning line s.
  Proof. destruct 1 as [a rest _|a _ _]; [exists rest; now rewrite str_app_assoc|exists ""; now rewrite str_app_nil_r]. Qed.

  Lemma any_moment g0 ts m path : g0 !! X = None -> g0 !! (X ++ ".sha1sum") = None -> publishings bzip2 sha1 u g0 ts g -> telling bzip2 sha1 packed ts ->
    unpacks m packed (destination v dir) -> result (get v dir true m false) f = Ok path -> exists t, In t ts /\ final (get v dir true m false) f !! path = Some t.
  Proof.
    intros N1 N2 Hist [Len Tell] U H. destruct (publishings_show bzip2 sha1 u packed g0 ts g N1 N2 Hist) as [S1 S2].
    destruct (visit_inv m path U H) as (c & s & line & Ec & Es & Ls & Eq & F). destruct (S1 c Ec) as (t' & I' & B'). destruct (S2 s Es) as (t & I & [r B]).
    destruct (says_beginning s line Ls) as [r' E']. exists t. split; [exact I|]. apply F. apply (Tell t c t'); [exact I|exact I'|exact B'|].
    specialize (Len c (stored bzip2 packed t)). rewrite B, E', Eq, !str_app_length in Len. assert (r = "" /\ r' = "") as [-> ->].
    { destruct r, r'; cbn in Len; try lia. auto. }
    rewrite B, E', Eq, !str_app_nil_r. reflexivity.
  Qed.
  Lemma round_trip g0 disk gpg text compress sign m path : (packed = true -> compress = Some Bz2) -> result (publish bzip2 sha1 disk gpg u text true compress sign) g0 = Ok tt ->
    g = final (publish bzip2 sha1 disk gpg u text true compress sign) g0 ->
    unpacks m packed (destination v dir) -> result (get v dir true m false) f = Ok path -> final (get v dir true m false) f !! path = Some text.
  Proof.
    intros Zp R E U H. destruct (published_whole bzip2 sha1 u packed disk gpg text compress sign g0 Zp R) as [A _]. cbv zeta in A. rewrite <- E in A.
    destruct (visit_inv m path U H) as (c & s & line & Ec & _ & _ & _ & F). apply F. congruence.
  Qed.
End visitor.

(** ** What is published can be had *)
Section available.
  Context (server : string -> option string) (net : string -> files -> transfer) (parse : string -> uri) (mirrors : string -> list string)
    (dir_writable writable : string -> bool) (sha1 : string -> string) (bunzip2 : string -> option string) (fuel : nat) (dir : string).
  Notation get_with := (download_with server net parse mirrors false dir_writable writable sha1 bunzip2 (S fuel)).
  Notation get := (download server net parse mirrors false dir_writable writable sha1 bunzip2 (S fuel)).
  Notation obtain_ := (obtain server net parse mirrors false dir_writable writable sha1 (S fuel)).
  Notation fetch_ := (fetch server net parse mirrors false dir_writable writable (S fuel)).
  Context (Wd : dir_writable dir = true) (Wf : forall p, writable p = true) (Net : forall a f, t_complete (net a f) = true).

  Lemma fetch_good u (f : files) c : is_mirror u = false -> is_local_file u = false -> u_filename u <> "" -> f !! partial u dir = None -> server (u_uri u) = Some c -> c <> "" ->
    result (fetch_ u dir) f = Ok tt.
  Proof.
    intros M L N P Sv C. cbn [fetch]. destruct (String.eqb_spec (u_filename u) "") as [E|_]; [now elim N|]. rewrite Wd. cbn [negb].
    unfold result. rewrite ask_eq. rewrite Wf. cbn [negb]. rewrite andb_false_r, M, L. unfold partial, destination in *. set (d := join_path2 dir (u_filename u)) in *.
    set (g := fetchRemoteFile server net false u (d ++ ".part")).
    assert (result g f = Ok tt /\ final g f !! (d ++ ".part") = Some c) as [G1 G2].
    { unfold g, fetchRemoteFile. cbn [andb]. unfold final, result.
      assert (test_range_support net u (d ++ ".part") f = ([], Ok false)) as T.
      { unfold test_range_support. rewrite ask_eq. unfold exists_. now rewrite P. }
      rewrite (andthen_ok _ _ f false) by (unfold result; now rewrite T). replace (final (test_range_support net u (d ++ ".part")) f) with f by (unfold final; now rewrite T). rewrite T. cbn [app fst snd]. rewrite ask_eq, Sv.
      rewrite (andthen_ok _ _ f tt); [|reflexivity]. rewrite (andthen_ok _ _ _ tt); [|apply grow_ok]. rewrite Net. cbn [fst snd]. split; [reflexivity|].
      rewrite !last_app. cbn. apply lookup_insert. }
    fold g. rewrite (andthen_ok _ _ f tt G1). cbn [fst snd]. rewrite ask_eq. unfold contents. rewrite G2. change (default "" (Some c)) with c. destruct (String.eqb_spec c "") as [E|_]; [contradiction|]. reflexivity.
  Qed.
  Lemma with_good u (f : files) c h m : is_mirror u = false -> is_local_file u = false -> u_filename u <> "" -> f !! partial u dir = None -> server (u_uri u) = Some c -> c <> "" ->
    (forall line, h = Some line -> sha1 c = line) -> (plain_wanted m (destination u dir) \/ bzip2_wanted m (destination u dir) /\ exists d, bunzip2 c = Some d) ->
    (exists path, result (get_with u dir h m false) f = Ok path) \/ result (get_with u dir h m false) f = Err EAlreadyHave.
  Proof.
    intros M L N P Sv C H W. assert (is_remote_file u = true) as R by (unfold is_remote_file; now rewrite L).
    unfold download_with. destruct (result (obtain_ u dir h false) f) as [l|e] eqn:O.
    - left. assert (l = destination u dir /\ final (obtain_ u dir h false) f !! destination u dir = Some c) as [-> D].
      { unfold obtain in O. unfold obtain. rewrite R in *. cbn [orb] in *. unfold result in O. rewrite ask_eq in O. unfold final. rewrite ask_eq. destruct (match h with Some _ => _ | None => _ end); [discriminate O|].
        set (q := _ <~ fetch _ _ _ _ _ _ _ _ _ _ ;; _) in *. change (snd (q f)) with (result q f) in O. change (List.last (fst (q f)) f) with (final q f). unfold q in *. apply andthen_result in O as ([] & O & E & ->). injection E as <-. split; [reflexivity|].
        destruct (keeps_fetch server parse mirrors net false dir_writable writable f c dir (S fuel) u) with (s := f) as [_ B]; [apply offers_server; [exact M|exact L|intros c' E; congruence]|apply safe_start; intros b E; unfold partial, destination in *; congruence|exact Logic.I|].
        apply (B tt O). }
      unfold result. rewrite (andthen_ok _ _ f _ O). cbn [snd]. rewrite ask_eq, D. set (g := final _ f) in *.
      assert (exists path, result (decompress bunzip2 (destination u dir) m) g = Ok path) as [path Dc].
      { unfold decompress. assert ((choose_method (destination u dir) m = None) \/ choose_method (destination u dir) m = Some Bz2 /\ exists d, bunzip2 c = Some d) as [E|[E [x Ex]]].
        { destruct W as [[->|(-> & W1 & W2)]|[[->|(-> & W)] X]]; [now left| |now right|right; split; [|exact X]]; cbn [choose_method].
          - left. destruct (py_endswith (destination u dir) ".bz2") eqn:E1; [apply endswith_iff in E1; contradiction|]. destruct (py_endswith (destination u dir) ".gz") eqn:E2; [apply endswith_iff in E2; contradiction|reflexivity].
          - destruct (py_endswith (destination u dir) ".bz2") eqn:E1; [reflexivity|]. assert (py_endswith (destination u dir) ".bz2" = true) by (apply endswith_iff; exact W). congruence. }
        - rewrite E. now exists (destination u dir).
        - rewrite E. unfold result. rewrite ask_eq. unfold contents. rewrite D. change (default "" (Some c)) with c. rewrite Ex. now eexists. }
      exists path. destruct h as [line|]; [|exact Dc]. rewrite (H line eq_refl), String.eqb_refl. exact Dc.
    - right. unfold result. rewrite (andthen_err _ _ f e O). cbn [snd]. f_equal.
      unfold obtain in O. rewrite R in O. cbn [orb] in O. unfold result in O. rewrite ask_eq in O. destruct (match h with Some _ => _ | None => _ end); [now injection O as <-|].
      set (q := _ <~ fetch _ _ _ _ _ _ _ _ _ _ ;; _) in *. unfold q in O. rewrite (andthen_ok _ _ f tt) in O by (eapply fetch_good; eassumption). discriminate O.
  Qed.

  Lemma available (bzip2 : string -> string) g0 disk gpg u v packed text compress sign m (f : files) :
    (packed = true -> compress = Some Bz2) -> (forall t, bunzip2 (bzip2 t) = Some t) ->
    result (publish bzip2 sha1 disk gpg u text true compress sign) g0 = Ok tt ->
    visits server parse (final (publish bzip2 sha1 disk gpg u text true compress sign) g0) u v packed dir f -> u_filename v <> "" ->
    stored bzip2 packed text <> "" -> (forall x, sha1 x <> "" /\ ~ In newline (list_ascii_of_string (sha1 x))) ->
    unpacks m packed (destination v dir) ->
    (exists path, result (get v dir true m false) f = Ok path) \/ result (get v dir true m false) f = Err EAlreadyHave.
  Proof.
    intros Zp Z R V Nv Ne Sh U. destruct (published_whole bzip2 sha1 u packed disk gpg text compress sign g0 Zp R) as [A B]. cbv zeta in *. set (g := final _ g0) in *.
    destruct V as [[L M] Sv [L' M'] Sv' Nm [F1 F2]]. set (sum := parse (u_uri v ++ ".sha1sum")) in *. rewrite A in Sv. rewrite B in Sv'. set (c := stored bzip2 packed text) in *.
    assert (result (get_with sum dir None None false) f = Ok (destination sum dir) /\ final (get_with sum dir None None false) f !! destination sum dir = Some (sha1 c) /\ final (get_with sum dir None None false) f !! partial v dir = None) as (S1 & S2 & S3).
    { destruct (with_good sum f (sha1 c) None None M' L') as [[path H]|H]; [rewrite Nm; destruct (u_filename v); discriminate|exact F2|exact Sv'|apply Sh|discriminate|left; now left| |].
      - destruct (with_remote server net parse mirrors false dir_writable writable sha1 bunzip2 (S fuel) dir sum f (sha1 c) None None path) as (A1 & _ & B1 & C1 & D1); [unfold is_remote_file; now rewrite L'|apply offers_server; [exact M'|exact L'|intros c' E; congruence]|intros b E; congruence|exact H|].
        cbv zeta in *. injection B1 as <-. split; [exact H|]. rewrite C1. set (g1 := final (obtain_ sum dir None false) f) in *. change (final (decompress bunzip2 (destination sum dir) None) g1) with g1. split; [exact A1|]. rewrite <- F1. apply D1.
        + unfold partial, destination. rewrite Nm, join_suffix by discriminate. apply names_apart. discriminate.
        + unfold partial, destination. rewrite Nm, join_suffix, str_app_assoc by discriminate. apply names_apart. discriminate.
      - exfalso. apply with_already in H as [_ (line & x & K & _)]. discriminate K. }
    assert (first_line (sha1 c) = Some (sha1 c)) as Fl by (apply RebuildTop.first_line_says, says_all; apply Sh).
    unfold download. fold sum. unfold result. rewrite (andthen_ok _ _ f _ S1). cbn [snd]. rewrite ask_eq, S2, Fl.
    apply (with_good v _ c (Some (sha1 c)) m M L Nv S3 Sv Ne).
    - intros line E. now injection E.
    - unfold unpacks in U. unfold c, stored. destruct packed; [right; split; [exact U|]; rewrite Z; eauto|now left].
  Qed.
End available.

Lemma publish_remote bzip2 sha1 disk gpg u text sha1sum compress sign g : is_remote_file u = true -> publish bzip2 sha1 disk gpg u text sha1sum compress sign g = ([], Err EError).
Proof. intros R. unfold publish. now rewrite R. Qed.
