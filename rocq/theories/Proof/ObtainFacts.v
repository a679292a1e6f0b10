(** * Facts about getting hold of a package *)
From Coq Require Import String Ascii ZArith List Bool Lia.
From stdpp Require Import gmap strings.
From Verif Require Proof.KeepConfig.
From Verif Require Import Model.Py Model.Path Model.Rebuild Model.Trace Model.Fetch Model.Obtain Spec.FetchSpec Spec.ObtainSpec Proof.PyFacts Proof.TraceFacts Proof.FetchFacts.
Import ListNotations.
Open Scope string_scope.
Open Scope prog_scope.

(** ** Endings of names *)
Lemma snoc_inj a : forall b x y, a ++ String x "" = b ++ String y "" -> x = y.
Proof.
  induction a as [|c a IH]; intros [|d b] x y E; cbn in E.
  - now injection E.
  - injection E as _ E. destruct b; discriminate E.
  - injection E as _ E. destruct a; discriminate E.
  - injection E as _ E. exact (IH _ _ _ E).
Qed.
Lemma ends_last s a x : ends s (a ++ String x "") -> exists r, s = r ++ String x "".
Proof. intros [r ->]. exists (r ++ a). now rewrite str_app_assoc. Qed.
Lemma ends_differ s t a b x y : ends s (a ++ String x "") -> ends t (b ++ String y "") -> x <> y -> s <> t.
Proof. intros A B N E. apply ends_last in A as [r ->]. apply ends_last in B as [q ->]. apply snoc_inj in E. contradiction. Qed.
Lemma lstrip_keeps r suf c : c <> "/"%char -> exists q, py_lstrip "/" (r ++ String c suf) = q ++ String c suf.
Proof.
  intros N. induction r as [|a r [q IH]].
  - exists "". assert (char_in c "/" = false) as K by (destruct (char_in c "/") eqn:K; [apply char_in_iff in K as [K|[]]; congruence|reflexivity]). change (py_lstrip "/" ("" ++ String c suf)) with (if char_in c "/" then py_lstrip "/" suf else String c suf). now rewrite K.
  - change (py_lstrip "/" (String a r ++ String c suf)) with (if char_in a "/" then py_lstrip "/" (r ++ String c suf) else String a (r ++ String c suf)). destruct (char_in a "/"); [exists q; exact IH|exists (String a r); reflexivity].
Qed.
Lemma join_ends d n c suf : c <> "/"%char -> ends n (String c suf) -> ends (join_path2 d n) (String c suf).
Proof.
  intros N [r ->]. unfold join_path2. destruct (lstrip_keeps r suf c N) as [q ->]. destruct (_ || _).
  - exists (d ++ q). now rewrite str_app_assoc.
  - exists (d ++ "/" ++ q). now rewrite !str_app_assoc.
Qed.

Lemma keeps_done {S A} (I P : S -> Prop) (a : A) (Q : A -> S -> Prop) : (forall s, I s -> P s -> Q a s) -> keeps I P (ret a) Q.
Proof. intros H s Hi Hp. split; [intros x [<-|[]]; exact Hi|]. intros b E. injection E as <-. cbn. now apply H. Qed.

Section obtain.
  Context (server : string -> option string) (parse : string -> uri) (mirrors : string -> list string).
  Context (net : string -> files -> transfer) (authinfo : bool) (dir_writable writable : string -> bool).
  Context (patch : string -> string -> option string) (progress : files -> list nat * bool).
  Context (installed : string -> option (string * string * option Z)) (xdelta : bool) (dest : string) (fetcher : bool) (fuel : nat).
  Notation get := (fetch server net parse mirrors authinfo dir_writable writable fuel).
  Notation fetch_to := (Obtain.fetch_to server net parse mirrors authinfo dir_writable writable dest fuel).
  Notation generate := (generate_pisi_file patch progress).
  Notation use_delta := (Obtain.use_delta server net parse mirrors authinfo dir_writable writable patch progress dest fuel).
  Notation find x := (find_package server net parse mirrors authinfo dir_writable writable patch progress installed x dest fetcher fuel).
  Notation open x := (open_package server net parse mirrors authinfo dir_writable writable patch progress installed x dest fetcher fuel).

  Lemma lift_ok {A} (r : res A) (f : files) a : result (lift_res r) f = Ok a -> r = Ok a /\ final (lift_res r) f = f.
  Proof. destruct r; cbn; intros E; [now injection E as <-|discriminate E]. Qed.

  (** ** Without deltas *)
  Section plain.
    Context (f0 : files) (c : string) (u : uri).
    Context (O : offers server parse mirrors dest f0 c u) (R : is_remote_file u = true).
    Let d := destination u dest.
    Lemma keeps_open : keeps (safe f0 c d) (fun _ => True) (open false u) (fun x f => x = c \/ f0 !! d = Some x).
    Proof.
      unfold open_package. apply (keeps_then _ _ _ (fun p s => p = d)).
      - unfold find_package. rewrite R. destruct fetcher; cbn [negb]; [|apply keeps_raise].
        eapply (keeps_then _ _ _ (fun _ _ => True)).
        { unfold lift_res. destruct (pure_package_name (u_filename u)); [|apply keeps_raise]. now apply keeps_done. }
        intros name. eapply (keeps_then _ _ _ (fun _ _ => True)).
        { assert (match installed name with Some v => ret tt | None => ret tt end = @ret files unit tt) as E by (now destruct (installed name)). 
          cbv beta iota. rewrite E. now apply keeps_done. }
        intros []. apply keeps_read. intros s Hs _. destruct (exists_ s _).
        + now apply keeps_done.
        + eapply (keeps_then _ _ _ (fun _ _ => True)).
          * eapply keeps_weaken; [apply (keeps_fetch server parse mirrors net authinfo dir_writable writable f0 c dest fuel u O)|intros; exact Logic.I|intros; exact Logic.I].
          * intros []. now apply keeps_done.
      - intros p. apply keeps_read. intros s Hs ->. destruct (s !! d) as [x|] eqn:E; [|apply keeps_raise].
        apply keeps_done. intros s' _ _. destruct (safe_dest _ _ _ _ Hs) as [K|K]; rewrite K in E; [now right|left; congruence].
    Qed.
  End plain.

  (** ** Local files *)
  Lemma open_local x u f : is_remote_file u = false ->
    open x u f = ([], match f !! u_uri u with Some c => Ok c | None => Err EOS end).
  Proof. intros R. unfold open_package, find_package. rewrite R. unfold andthen, ret, ask, raise. cbn. destruct (f !! u_uri u); reflexivity. Qed.

  (** ** With deltas *)
  Lemma fetch_here u f c : offers server parse mirrors dest f c u -> (forall b, f !! partial u dest = Some b -> beginning b c) ->
    (forall x, In x (states (fetch_to u) f) -> safe f c (destination u dest) x) /\ (result (fetch_to u) f = Ok tt -> final (fetch_to u) f !! destination u dest = Some c).
  Proof.
    intros O P. destruct (keeps_fetch server parse mirrors net authinfo dir_writable writable f c dest fuel u O f (safe_start f c _ P) Logic.I) as [A B]. split; [exact A|]. intros E. apply (B tt E).
  Qed.
  Lemma try_fetch u f : (exists g, g = final (fetch_to u) f /\
      let p := try_except (_ <~ fetch_to u ;; ret true) is_fetch_error (ret false) in
      final p f = g /\ (result p f = Ok true -> result (fetch_to u) f = Ok tt)).
  Proof.
    eexists. split; [reflexivity|]. cbv zeta. unfold try_except, final, result, andthen, ret. destruct (fetch_to u f) as [t [[]|e]]; cbn [fst snd].
    - rewrite app_nil_r. auto.
    - destruct (is_fetch_error e); cbn [fst snd]; rewrite ?app_nil_r; (split; [reflexivity|discriminate]).
  Qed.
  Lemma generate_ok pf ff tf f : result (generate pf ff tf) f = Ok tt ->
    exists x, patch (contents f pf) (contents f ff) = Some x /\ final (generate pf ff tf) f !! tf = Some x /\ (forall p, p <> tf -> final (generate pf ff tf) f !! p = f !! p).
  Proof.
    unfold generate_pisi_file. unfold result, final. rewrite ask_eq. destruct (patch _ _) as [x|] eqn:E; [|discriminate].
    intros H. set (q := _ <~ write tf "" ;; _) in *. change (snd (q f)) with (result q f) in H. change (List.last (fst (q f)) f) with (final q f). unfold q in *.
    apply andthen_result in H as ([] & _ & H & ->). apply andthen_result in H as ([] & _ & H & ->).
    destruct (snd (progress f)); [|discriminate H]. exists x. split; [reflexivity|]. cbn. split; [apply lookup_insert|]. intros p N. rewrite lookup_insert_ne by congruence.
    change (final (grow tf "" x (progress f).1) (<[tf:="" ]> f) !! p = f !! p). rewrite grow_other by exact N. now rewrite lookup_insert_ne by congruence.
  Qed.

  Lemma use_delta_ok u f c cur :
    ends (u_filename u) ".pisi" ->
    let du := delta_uri parse u cur in
    is_mirror du = false -> is_local_file du = false -> ends (u_filename du) ".xdelta" ->
    (forall p, server (u_uri du) = Some p \/ f !! delta_fn parse dest u cur = Some p -> forall o x, f !! current_fn dest cur = Some o -> patch p o = Some x -> x = c) ->
    f !! partial du dest = None ->
    result (use_delta u (destination u dest) cur) f = Ok tt ->
    let g := final (use_delta u (destination u dest) cur) f in
    (g !! destination u dest = f !! destination u dest \/ g !! destination u dest = Some c) /\ g !! partial u dest = f !! partial u dest.
  Proof.
    intros Eu du M L Ed Right P H g. subst g. unfold Obtain.use_delta in *. fold du in H |- *.
    unfold result in H. rewrite ask_eq in H. unfold final. rewrite ask_eq. unfold exists_ in *. destruct (f !! current_fn dest cur) as [o|] eqn:Eo.
    2: { change (bool_decide (is_Some None)) with false in *. cbn in *. auto. }
    change (bool_decide (is_Some (Some o))) with true in *. cbv iota in *.
    pose proof (join_ends dest _ "." "pisi" ltac:(discriminate) Eu) as Fu. pose proof (join_ends dest _ "." "xdelta" ltac:(discriminate) Ed) as Fd.
    fold (destination u dest) in Fu. fold (destination du dest) in Fd. assert (delta_fn parse dest u cur = destination du dest) as Edl by reflexivity. rewrite Edl in *.
    assert (forall s, ends (s ++ ".part") ".part") as Fp by (intros s; now exists s).
    assert (destination u dest <> destination du dest) as N1 by (eapply (ends_differ _ _ ".pis" ".xdelt" "i" "a"); [exact Fu|exact Fd|discriminate]).
    assert (destination u dest <> partial du dest) as N2 by (eapply (ends_differ _ _ ".pis" ".par" "i" "t"); [exact Fu|apply Fp|discriminate]).
    assert (partial u dest <> destination du dest) as N3 by (eapply (ends_differ _ _ ".par" ".xdelt" "t" "a"); [apply Fp|exact Fd|discriminate]).
    assert (current_fn dest cur <> destination du dest) as N4 by (eapply (ends_differ _ _ ".pis" ".xdelt" "i" "a"); [now exists (join_path2 dest cur)|exact Fd|discriminate]).
    assert (current_fn dest cur <> partial du dest) as N5 by (eapply (ends_differ _ _ ".pis" ".par" "i" "t"); [now exists (join_path2 dest cur)|apply Fp|discriminate]).
    assert (partial u dest <> destination u dest) as N7 by apply part_neq.
    assert (partial u dest <> partial du dest) as N6.
    { unfold partial. intros E. apply N1. exact (KeepConfig.str_app_inj_r _ _ _ E). }
    destruct (f !! destination du dest) as [p|] eqn:Edn.
    - change (bool_decide (is_Some (Some p))) with true in *. cbv iota in *.
      destruct (generate_ok _ _ _ _ H) as (x & Px & K & Rest). unfold contents in Px. rewrite Edn, Eo in Px. cbn in Px. unfold final in K, Rest.
      split; [right; rewrite K; f_equal; eapply (Right p); [now right|reflexivity|exact Px]|]. apply Rest. exact N7.
    - change (bool_decide (is_Some None)) with false in *. cbv iota in *.
      set (q := _ <~ try_except _ _ _ ;; _) in *. change (snd (q f)) with (result q f) in H. change (List.last (fst (q f)) f) with (final q f). unfold q in *.
      apply andthen_result in H as (got & Ht & H & ->). destruct (try_fetch du f) as (g & Eg & Fg & Og). cbv zeta in Fg, Og. rewrite Fg in *.
      assert (exists p, forall p', server (u_uri du) = Some p' -> p' = p) as [p Ep] by (destruct (server (u_uri du)) as [p|]; [exists p|exists ""]; intros p' E; congruence).
      destruct (fetch_here du f p) as [Safe Whole]; [now apply offers_server|intros b Eb; rewrite P in Eb; discriminate Eb|].
      assert (safe f p (destination du dest) g) as [_ _ Rest] by (rewrite Eg; apply Safe, final_state).
      destruct got; [|cbn; split; [left|]; apply Rest; assumption].
      specialize (Og Ht). specialize (Whole Og). rewrite <- Eg in Whole.
      destruct (generate_ok _ _ _ _ H) as (x & Px & K & Rest'). unfold contents in Px. rewrite Whole, (Rest _ N4 N5), Eo in Px. cbn in Px.
      split; [right; rewrite K; f_equal|rewrite Rest' by exact N7; now apply Rest].
      destruct (server (u_uri du)) as [p'|] eqn:Es; [rewrite <- (Ep p' eq_refl) in Px; eapply (Right p'); [now left|reflexivity|exact Px]|].
      exfalso. (* nothing was fetched *) revert Og. unfold Obtain.fetch_to. destruct fuel as [|n]; [discriminate|]. cbn [fetch].
      destruct (String.eqb (u_filename du) ""); [discriminate|]. destruct (negb (dir_writable dest)); [discriminate|].
      unfold result. rewrite ask_eq. destruct (_ && _); [discriminate|]. rewrite M, L.
      intros X. match type of X with snd (?q f) = _ => change (result q f = Ok tt) in X end. apply andthen_result in X as ([] & X & _).
      unfold fetchRemoteFile in X. destruct (authinfo && _); [discriminate X|]. apply andthen_result in X as (r & _ & X & _).
      unfold result in X. rewrite ask_eq, Es in X. discriminate X.
  Qed.
  Lemma open_delta u f c x :
    is_remote_file u = true -> is_mirror u = false -> ends (u_filename u) ".pisi" ->
    (forall c', server (u_uri u) = Some c' -> c' = c) ->
    (forall b, f !! destination u dest = Some b -> b = c) -> (forall b, f !! partial u dest = Some b -> beginning b c) ->
    (forall name v, pure_package_name (u_filename u) = Ok name -> installed name = Some v -> xdelta = true ->
      let cur := current name v in let du := delta_uri parse u cur in
      is_mirror du = false /\ is_local_file du = false /\ ends (u_filename du) ".xdelta" /\ f !! partial du dest = None /\
      (forall p, server (u_uri du) = Some p \/ f !! delta_fn parse dest u cur = Some p -> forall o y, f !! current_fn dest cur = Some o -> patch p o = Some y -> y = c)) ->
    result (open xdelta u) f = Ok x -> x = c.
  Proof.
    intros R M Eu Off D P Del H. unfold open_package in H. apply andthen_result in H as (path & H & K & _). unfold result in K. rewrite ask_eq in K.
    assert (path = destination u dest /\ forall y, final (find xdelta u) f !! destination u dest = Some y -> y = c) as [-> W].
    { unfold find_package in *. rewrite R in *. destruct fetcher; cbn [negb] in *; [|discriminate H].
      set (q := lift_res _) in *. apply andthen_result in H as (name & Hn & H & ->). unfold q in *. apply lift_ok in Hn as (En & Fn). rewrite Fn in *.
      apply andthen_result in H as ([] & Hd & H & ->). fold (destination u dest) in *.
      set (m := match installed name with Some v => _ | None => _ end) in *. set (g := final m f) in *.
      assert ((g !! destination u dest = f !! destination u dest \/ g !! destination u dest = Some c) /\ g !! partial u dest = f !! partial u dest) as [G1 G2].
      { unfold g, m in *. destruct (installed name) as [v|] eqn:Ev; [|auto]. destruct xdelta; [|auto]. destruct (Del name v En Ev eq_refl) as (M' & L' & E' & P' & Right'). eapply use_delta_ok; eassumption. }
      unfold result in H. rewrite ask_eq in H. unfold final. rewrite ask_eq. unfold exists_ in *. destruct (g !! destination u dest) as [y|] eqn:Ey.
      - change (bool_decide (is_Some (Some y))) with true in *. cbn in H. injection H as <-. split; [reflexivity|]. cbn. intros z Ez. rewrite Ey in Ez. injection Ez as <-. destruct G1 as [G1|G1]; [apply D; congruence|congruence].
      - change (bool_decide (is_Some None)) with false in *. cbv iota in *.
        set (q2 := _ <~ fetch_to u ;; _) in *. change (snd (q2 g)) with (result q2 g) in H. change (List.last (fst (q2 g)) g) with (final q2 g). unfold q2 in *. apply andthen_result in H as ([] & Hf & H & ->). cbn in H. injection H as <-. split; [reflexivity|].
        destruct (fetch_here u g c) as [_ Whole]; [apply offers_server; [exact M| |exact Off]; unfold is_remote_file in R; now destruct (is_local_file u)|intros b Eb; rewrite G2 in Eb; now apply P|].
        specialize (Whole Hf). intros y Ey'. change (final (fetch_to u) g !! destination u dest = Some y) in Ey'. congruence. }
    destruct (final (find xdelta u) f !! destination u dest) as [y|]; [|discriminate K]. cbn in K. injection K as <-. now apply W.
  Qed.

  (** ** What goes wrong *)
  Lemma open_cached u f y name : is_remote_file u = true -> fetcher = true -> pure_package_name (u_filename u) = Ok name -> f !! destination u dest = Some y ->
    open false u f = ([], Ok y).
  Proof.
    intros R F N D. unfold open_package, find_package. rewrite R, F, N. cbn [negb lift_res]. fold (destination u dest). unfold andthen, ret, ask. cbn.
    destruct (installed name); cbn; unfold exists_; rewrite D; change (bool_decide (is_Some (Some y))) with true; cbn; now rewrite D.
  Qed.
  Lemma open_never x u f : is_remote_file u = true -> fetcher = false -> open x u f = ([], Err EImport).
  Proof. intros R F. unfold open_package, find_package. rewrite R, F. reflexivity. Qed.
  (** A delta that cannot be applied is the end, whatever the server offers *)
  Lemma open_bad_delta u f name v p o : is_remote_file u = true -> fetcher = true -> pure_package_name (u_filename u) = Ok name -> installed name = Some v ->
    f !! current_fn dest (current name v) = Some o -> f !! delta_fn parse dest u (current name v) = Some p -> patch p o = None ->
    open true u f = ([], Err EError).
  Proof.
    intros R F N I C D P. unfold open_package, find_package. rewrite R, F, N. cbn [negb lift_res]. unfold andthen, ret, ask, raise. cbn. rewrite I. unfold Obtain.use_delta, generate_pisi_file, andthen, ask, exists_. cbn.
    rewrite C. change (bool_decide (is_Some (Some o))) with true. cbn. rewrite D. change (bool_decide (is_Some (Some p))) with true. cbn. unfold contents. rewrite D, C. cbn. now rewrite P.
  Qed.
  (** Nothing of the package has been written yet, but its file is there *)
  Lemma open_stopped u f name v o p c : is_remote_file u = true -> fetcher = true -> pure_package_name (u_filename u) = Ok name -> installed name = Some v ->
    f !! current_fn dest (current name v) = Some o -> f !! delta_fn parse dest u (current name v) = Some p -> patch p o = Some c ->
    exists f', In f' (states (open true u) f) /\ open false u f' = ([], Ok "").
  Proof.
    intros R F N I C D P. exists (<[ destination u dest := "" ]> f). split.
    - assert (exists l r, generate (delta_fn parse dest u (current name v)) (current_fn dest (current name v)) (destination u dest) f = (<[ destination u dest := "" ]> f :: l, r)) as (l & r & G).
      { unfold generate_pisi_file, andthen at 1, ask, contents. cbn. rewrite D, C. cbn. rewrite P. unfold andthen at 1, write, change. cbn.
        match goal with |- context [andthen (grow ?a ?b ?c ?d) ?k ?s] => destruct (andthen (grow a b c d) k s) as [l r] end. cbn. eauto. }
      assert (use_delta u (destination u dest) (current name v) f = (<[ destination u dest := "" ]> f :: l, r)) as U.
      { unfold Obtain.use_delta. rewrite ask_eq. unfold exists_. rewrite C. change (bool_decide (is_Some (Some o))) with true. cbv iota. rewrite D. change (bool_decide (is_Some (Some p))) with true. cbv iota. exact G. }
      unfold open_package, find_package. rewrite R, F, N. cbn [negb lift_res]. fold (destination u dest). unfold states. right.
      assert (forall A B (m : prog files A) (k : A -> prog files B) x, In x (fst (m f)) -> In x (fst (andthen m k f))) as first.
      { intros A B m k x X. unfold andthen. destruct (m f) as [t [a|e]]; [|exact X]. destruct (k a _). cbn. apply in_app_iff. now left. }
      apply first. unfold andthen at 1, ret at 1. cbn [fst snd]. rewrite I.
      match goal with |- In _ (fst (let '(_, _) := andthen ?m ?k ?s in _)) => assert (In (<[ destination u dest := "" ]> f) (fst (andthen m k s))) as K; [|destruct (andthen m k s); exact K] end.
      apply first. rewrite U. now left.
    - eapply open_cached; [exact R|exact F|exact N|]. apply lookup_insert.
  Qed.
End obtain.

Section openings.
  Context (server : string -> option string) (parse : string -> uri) (mirrors : string -> list string) (u : uri) (dest : string) (f0 : files) (c : string).
  Context (O : offers server parse mirrors dest f0 c u) (R : is_remote_file u = true).
  Context (P : forall b, f0 !! partial u dest = Some b -> beginning b c).
  Lemma openings_safe f : openings server parse mirrors u dest f0 f -> safe f0 c (destination u dest) f.
  Proof.
    induction 1 as [|f f' net authinfo dw w patch progress installed fetcher fuel H IH K].
    - now apply safe_start.
    - destruct (keeps_open server parse mirrors net authinfo dw w patch progress installed dest fetcher fuel f0 c u O R f IH Logic.I) as [A _]. now apply A.
  Qed.
  Lemma openings_whole f : openings server parse mirrors u dest f0 f ->
    (f !! destination u dest = f0 !! destination u dest \/ f !! destination u dest = Some c) /\ (forall p, p <> destination u dest -> p <> partial u dest -> f !! p = f0 !! p) /\
    forall net authinfo dw w patch progress installed fetcher fuel x,
      result (open_package server net parse mirrors authinfo dw w patch progress installed false dest fetcher fuel u) f = Ok x -> x = c \/ f0 !! destination u dest = Some x.
  Proof.
    intros H. pose proof (openings_safe _ H) as Sf. pose proof (safe_dest _ _ _ _ Sf) as D. pose proof (safe_rest _ _ _ _ Sf) as Q. split; [exact D|]. split; [exact Q|].
    intros net authinfo dw w patch progress installed fetcher fuel x K.
    destruct (keeps_open server parse mirrors net authinfo dw w patch progress installed dest fetcher fuel f0 c u O R f Sf Logic.I) as [_ B]. exact (B x K).
  Qed.
End openings.

(** ** The name of the delta *)
Lemma delta_named cur stem : ends_in_digit stem -> (forall a, In a (list_ascii_of_string stem) -> a <> "/"%char) ->
  delta_name cur (stem ++ ".pisi") = cur ++ "_" ++ stem ++ ".xdelta".
Proof.
  intros (a & c & -> & Dc) N. unfold delta_name. do 2 f_equal. unfold xdelta_suffix, package_suffix.
  assert (basename ((a ++ String c "") ++ ".pisi") = (a ++ String c "") ++ ".pisi") as ->.
  { unfold basename. assert (py_rfind slash ((a ++ String c "") ++ ".pisi") = None) as ->; [|reflexivity].
    assert (forall s, (forall x, In x (list_ascii_of_string s) -> x <> "/"%char) -> py_rfind slash s = None) as no.
    { induction s as [|x s IH]; intros H; [reflexivity|]. cbn [py_rfind]. rewrite IH by (intros y I; apply H; now right). destruct (Ascii.eqb_spec x slash) as [->|_]; [|reflexivity]. destruct (H slash (or_introl eq_refl) eq_refl). }
    apply no. intros x I. assert (list_ascii_of_string ((a ++ String c "") ++ ".pisi") = (list_ascii_of_string (a ++ String c "") ++ list_ascii_of_string ".pisi")%list) as E by apply los_app.
    rewrite E in I. apply in_app_iff in I as [I|I]; [now apply N|]. cbn in I. intuition (subst; discriminate). }
  assert (py_rstrip ".pisi" ((a ++ String c "") ++ ".pisi") = a ++ String c "") as ->; [|reflexivity].
  rewrite rstrip_app_in; [|cbn; repeat (apply List.Forall_cons; [reflexivity|]); apply List.Forall_nil]. apply rstrip_stop.
  clear -Dc. unfold is_digit in Dc. destruct c as [[] [] [] [] [] [] [] []]; try discriminate Dc; reflexivity.
Qed.
