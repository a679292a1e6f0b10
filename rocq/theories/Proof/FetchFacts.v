(** * Facts about fetching *)
From Coq Require Import String Ascii ZArith List Bool Lia.
From stdpp Require Import gmap strings.
From Verif Require Import Model.Py Model.Path Model.Rebuild Model.Trace Model.Fetch Spec.RebuildSpec Spec.FetchSpec Proof.PyFacts Proof.RebuildTop Proof.TraceFacts.
Import ListNotations.
Open Scope string_scope.

Lemma take_take_drop n s : py_take n s ++ py_drop n s = s.
Proof. revert s. induction n as [|n IH]; intros [|a s]; try reflexivity. cbn [py_take py_drop].
  change (String a (py_take n s) ++ py_drop n s) with (String a (py_take n s ++ py_drop n s)). now rewrite IH.
Qed.
Lemma beginning_take n c : beginning (py_take n c) c.
Proof. exists (py_drop n c). now rewrite take_take_drop. Qed.
Lemma beginning_grow b c n : beginning b c -> beginning (b ++ py_take n (py_drop (String.length b) c)) c.
Proof.
  intros [t ->]. rewrite drop_app. exists (py_drop n t). rewrite str_app_assoc, take_take_drop. reflexivity.
Qed.
Lemma beginning_rest b c : beginning b c -> b ++ py_drop (String.length b) c = c.
Proof. intros [t ->]. now rewrite drop_app. Qed.
Lemma beginning_nil c : beginning "" c.
Proof. now exists c. Qed.

Lemma part_neq d : d ++ ".part" <> d.
Proof.
  intros H. apply (f_equal String.length) in H. rewrite str_app_length in H. cbn in H. lia.
Qed.

Section fetch.
  Context (server : string -> option string) (parse : string -> uri) (mirrors : string -> list string).
  Context (net : string -> files -> transfer) (authinfo : bool) (dir_writable writable : string -> bool).
  Context (f0 : files) (c : string) (dir : string).

  (** What holds at every moment *)
  Record safe (d : string) (f : files) : Prop := {
    safe_part : forall b, f !! (d ++ ".part") = Some b -> beginning b c;
    safe_dest : f !! d = f0 !! d \/ f !! d = Some c;
    safe_rest : forall p, p <> d -> p <> d ++ ".part" -> f !! p = f0 !! p
  }.

  Lemma safe_write d f b : safe d f -> beginning b c -> safe d (<[ d ++ ".part" := b ]> f).
  Proof.
    intros [P D R] B. pose proof (part_neq d). constructor.
    - intros b'. rewrite lookup_insert. congruence.
    - rewrite lookup_insert_ne by congruence. exact D.
    - intros p N M. rewrite lookup_insert_ne by congruence. now apply R.
  Qed.
  Lemma safe_remove d f : safe d f -> safe d (delete (d ++ ".part") f).
  Proof.
    intros [P D R]. pose proof (part_neq d). constructor.
    - intros b'. rewrite lookup_delete. discriminate.
    - rewrite lookup_delete_ne by congruence. exact D.
    - intros p N M. rewrite lookup_delete_ne by congruence. now apply R.
  Qed.

  Lemma keeps_write d b (P : files -> Prop) : beginning b c ->
    keeps (safe d) P (write (d ++ ".part") b) (fun _ f => f !! (d ++ ".part") = Some b).
  Proof. intros B. apply keeps_change. intros f Hf _. split; [now apply safe_write|]. apply lookup_insert. Qed.

  Lemma keeps_grow d base rest sizes : (forall n, beginning (base ++ py_take n rest) c) ->
    keeps (safe d) (fun _ => True) (grow (d ++ ".part") base rest sizes) (fun _ _ => True).
  Proof.
    intros B. apply keeps_each. intros n. eapply keeps_weaken; [apply (keeps_write d _ (fun _ => True)), B|intros; exact Logic.I..].
  Qed.

  Definition full d : unit -> files -> Prop := fun _ f => f !! (d ++ ".part") = Some c.

  Lemma keeps_local u d :
    (forall c', f0 !! u_path u = Some c' -> c' = c) -> u_path u <> d ++ ".part" ->
    keeps (safe d) (fun _ => True) (fetchLocalFile net u (d ++ ".part")) (full d).
  Proof.
    intros L N. unfold fetchLocalFile. apply keeps_read. intros f Hs _.
    destruct (f !! u_path u) as [c'|] eqn:E; [|apply keeps_raise].
    assert (C : c' = c).
    { destruct (decide (u_path u = d)) as [D|D].
      - destruct (safe_dest d f Hs) as [K|K]; rewrite D in *; [apply L; congruence|congruence].
      - apply L. rewrite <- (safe_rest d f Hs) by assumption. exact E. }
    subst c'. eapply keeps_then; [apply keeps_write, beginning_nil|]. intros [].
    apply (keeps_then _ _ _ (fun _ _ => True)).
    { eapply keeps_weaken; [apply (keeps_grow d "" c); intros n; exact (beginning_take n c)|intros; exact Logic.I..]. }
    intros []. destruct (t_complete _); [|apply keeps_raise]. apply keeps_write. exists "". now rewrite str_app_nil_r.
  Qed.

  Lemma keeps_range u d :
    keeps (safe d) (fun _ => True) (test_range_support net u (d ++ ".part"))
      (fun r f => r = true -> is_Some (f !! (d ++ ".part"))).
  Proof.
    unfold test_range_support. apply keeps_read. intros f Hs _. unfold exists_.
    destruct (bool_decide_reflect (is_Some (f !! (d ++ ".part")))) as [E|E].
    - destruct (_ && _).
      + eapply keeps_weaken; [apply (keeps_ret _ (fun s => s = f) true)|auto|]. intros r s _ [_ ->] _. exact E.
      + eapply keeps_then; [apply (keeps_change _ _ (fun _ => True)); intros s S _; split; [now apply safe_remove|exact Logic.I]|].
        intros []. eapply keeps_weaken; [apply (keeps_ret _ (fun _ => True) false)|auto|]. intros r s _ [-> _] K. discriminate K.
    - eapply keeps_weaken; [apply (keeps_ret _ (fun s => s = f) false)|auto|]. intros r s _ [-> _] K. discriminate K.
  Qed.

  Lemma keeps_remote u d :
    (forall c', server (u_uri u) = Some c' -> c' = c) ->
    keeps (safe d) (fun _ => True) (fetchRemoteFile server net authinfo u (d ++ ".part")) (full d).
  Proof.
    intros L. unfold fetchRemoteFile. destruct (_ && _); [apply keeps_raise|].
    eapply keeps_then; [apply keeps_range|]. intros reget. cbv beta. apply keeps_read. intros f Hs Hr.
    destruct (server (u_uri u)) as [c'|] eqn:E; [|apply keeps_raise]. specialize (L c' eq_refl). subst c'.
    set (base := if reget then contents f (d ++ ".part") else "").
    assert (B : beginning base c).
    { unfold base. destruct reget; [|apply beginning_nil]. destruct (Hr eq_refl) as [b K]. unfold contents. rewrite K. exact (safe_part d f Hs b K). }
    eapply (keeps_then _ _ _ (fun _ _ => True)).
    { destruct reget; [eapply keeps_weaken; [apply (keeps_ret _ (fun _ => True))|intros; exact Logic.I..]|].
      eapply keeps_weaken; [apply (keeps_write d "" (fun _ => True)), beginning_nil|intros; exact Logic.I..]. }
    intros []. eapply keeps_then; [apply keeps_grow; intros n; now apply beginning_grow|]. intros [].
    destruct (t_complete _); [|apply keeps_raise]. rewrite (beginning_rest base c B).
    apply keeps_write. exists "". now rewrite str_app_nil_r.
  Qed.

  Lemma keeps_mirrors (g : string -> prog files unit) archive l d (Q : unit -> files -> Prop) :
    (forall m, In m l -> keeps (safe d) (fun _ => True) (g (join_path2 m archive)) Q) ->
    keeps (safe d) (fun _ => True) (try_mirrors g archive l) Q.
  Proof.
    induction l as [|m l IH]; intros H; cbn [try_mirrors]; [apply keeps_raise|].
    apply keeps_try; [apply H; now left|]. apply IH. intros m' K. apply H. now right.
  Qed.

  Lemma keeps_fetch fuel u : offers server parse mirrors dir f0 c u ->
    keeps (safe (destination u dir)) (fun _ => True)
      (fetch server net parse mirrors authinfo dir_writable writable fuel u dir)
      (fun _ f => f !! destination u dir = Some c /\ f !! partial u dir = None).
  Proof.
    revert u. induction fuel as [|fuel IH]; intros u O; cbn [fetch]; [apply keeps_raise|].
    destruct (String.eqb (u_filename u) ""); [apply keeps_raise|]. destruct (negb (dir_writable dir)); [apply keeps_raise|].
    apply keeps_read. intros f Hs _. destruct (_ && _); [apply keeps_raise|].
    destruct (is_mirror u) eqn:M.
    - inversion O as [u' K|u' K|u' K Hm]; subst u'; [congruence|congruence|].
      destruct (mirrors (mirror_name u)) as [|m l] eqn:E; [apply keeps_raise|]. eapply keeps_weaken; [|intros s _ _; exact Logic.I|intros a s _ K0; exact K0].
      apply (keeps_mirrors _ _ (m :: l)). intros m' I. destruct (Hm m' I) as [F O']. specialize (IH _ O').
      unfold partial, destination in *. rewrite F in IH. exact IH.
    - eapply (keeps_then _ _ _ (full (destination u dir))).
      + eapply keeps_weaken; [|intros s _ _; exact Logic.I|intros a s _ K0; exact K0].
        inversion O as [u' K Lo Hm|u' K Lo Hm Ne|u' K Hm]; subst u'; [| |congruence]; rewrite Lo; [now apply keeps_remote|now apply keeps_local].
      + intros []. apply keeps_read. intros g Sg Fg. unfold full, destination in Fg. unfold contents. rewrite Fg. change (default "" (Some c)) with c.
        destruct (String.eqb c "").
        * eapply (keeps_then _ _ _ (fun (_ : unit) (_ : files) => True)); [|intros ?; apply keeps_raise].
          apply keeps_change. intros s S _. split; [now apply safe_remove|exact Logic.I].
        * apply keeps_change. intros s Ss ->. unfold destination in *. set (d := join_path2 dir (u_filename u)) in *.
          rewrite Fg. change (default "" (Some c)) with c. pose proof (part_neq d) as N. split; [constructor|].
          -- intros b. rewrite lookup_insert_ne by congruence. rewrite lookup_delete. discriminate.
          -- right. apply lookup_insert.
          -- intros p P1 P2. rewrite lookup_insert_ne by congruence. rewrite lookup_delete_ne by congruence. now apply Ss.
          -- split; [apply lookup_insert|]. unfold partial, destination. fold d. rewrite lookup_insert_ne by congruence. apply lookup_delete.
  Qed.

  Lemma safe_start d : (forall b, f0 !! (d ++ ".part") = Some b -> beginning b c) -> safe d f0.
  Proof. intros H. constructor; auto. Qed.
End fetch.

Section attempts.
  Context (server : string -> option string) (parse : string -> uri) (mirrors : string -> list string) (u : uri) (dir : string) (f0 : files) (c : string).
  Context (O : offers server parse mirrors dir f0 c u).
  Context (P : forall b, f0 !! partial u dir = Some b -> beginning b c).

  Lemma attempts_safe f : attempts server parse mirrors u dir f0 f -> safe f0 c (destination u dir) f.
  Proof.
    induction 1 as [|f f' net authinfo dw w fuel H IH K].
    - now apply safe_start.
    - destruct (keeps_fetch server parse mirrors net authinfo dw w f0 c dir fuel u O f IH Logic.I) as [A _]. now apply A.
  Qed.
  Lemma attempts_never_partial f : attempts server parse mirrors u dir f0 f ->
    (f !! destination u dir = f0 !! destination u dir \/ f !! destination u dir = Some c) /\
    (forall p, p <> destination u dir -> p <> partial u dir -> f !! p = f0 !! p).
  Proof. intros H. apply attempts_safe in H as [_ D R]. now split. Qed.
  Lemma attempts_succeed f net authinfo dw w fuel : attempts server parse mirrors u dir f0 f ->
    result (fetch server net parse mirrors authinfo dw w fuel u dir) f = Ok tt ->
    final (fetch server net parse mirrors authinfo dw w fuel u dir) f !! destination u dir = Some c /\
    final (fetch server net parse mirrors authinfo dw w fuel u dir) f !! partial u dir = None.
  Proof.
    intros H R. apply attempts_safe in H.
    destruct (keeps_fetch server parse mirrors net authinfo dw w f0 c dir fuel u O f H Logic.I) as [_ B]. exact (B tt R).
  Qed.
End attempts.

(** ** What goes wrong *)
Section wrong.
  Context (server : string -> option string) (parse : string -> uri) (mirrors : string -> list string).
  Context (net : string -> files -> transfer) (dir_writable writable : string -> bool).

  Lemma grow_ok dest base rest sizes (f : files) : result (grow dest base rest sizes) f = Ok tt.
  Proof.
    unfold grow. revert f. induction sizes as [|n l IH]; intros f; cbn [each]; [reflexivity|].
    unfold result. rewrite (andthen_ok _ _ f tt); [|reflexivity]. apply IH.
  Qed.
  Lemma grow_other dest base rest sizes (f : files) p : p <> dest -> final (grow dest base rest sizes) f !! p = f !! p.
  Proof.
    intros N. unfold grow. revert f. induction sizes as [|n l IH]; intros f; cbn [each]; [reflexivity|].
    rewrite (andthen_final _ _ f tt) by reflexivity. rewrite IH. cbn. now rewrite lookup_insert_ne by congruence.
  Qed.

  Lemma stale_resumed fuel u dir (f : files) b c :
    is_mirror u = false -> is_local_file u = false -> u_filename u <> "" -> dir_writable dir = true -> writable (destination u dir) = true ->
    f !! partial u dir = Some b -> server (u_uri u) = Some c -> b <> "" ->
    t_reachable (net (u_uri u) f) = true -> t_length (net (u_uri u) f) = true -> t_complete (net (u_uri u) f) = true ->
    result (fetch server net parse mirrors false dir_writable writable (S fuel) u dir) f = Ok tt /\
    final (fetch server net parse mirrors false dir_writable writable (S fuel) u dir) f !! destination u dir =
      Some (b ++ py_drop (String.length b) c).
  Proof.
    intros M L N D W P Sv B R Le Co. cbn [fetch].
    destruct (String.eqb_spec (u_filename u) "") as [E|_]; [now elim N|]. rewrite D. cbn [negb].
    unfold final, result. rewrite ask_eq. unfold destination in W. rewrite W. cbn [negb]. rewrite andb_false_r, M, L.
    unfold partial, destination in *. set (d := join_path2 dir (u_filename u)) in *.
    set (g := fetchRemoteFile server net false u (d ++ ".part")).
    assert (G : result g f = Ok tt /\ final g f !! (d ++ ".part") = Some (b ++ py_drop (String.length b) c)).
    { unfold g, fetchRemoteFile. cbn [andb]. unfold final, result.
      rewrite (andthen_ok _ _ f true).
      2:{ unfold result, test_range_support. rewrite ask_eq. unfold exists_. rewrite P, R, Le. reflexivity. }
      assert (T : final (test_range_support net u (d ++ ".part")) f = f).
      { unfold final, test_range_support. rewrite ask_eq. unfold exists_. rewrite P, R, Le. reflexivity. }
      assert (T' : fst (test_range_support net u (d ++ ".part") f) = []).
      { unfold test_range_support. rewrite ask_eq. unfold exists_. rewrite P, R, Le. reflexivity. }
      rewrite T, T'. cbn [app fst snd]. rewrite ask_eq. rewrite Sv. unfold contents. rewrite P. change (default "" (Some b)) with b.
      rewrite (andthen_ok _ _ f tt); [|reflexivity]. cbn [app fst snd]. change (final (ret tt) f) with f.
      rewrite (andthen_ok _ _ f tt); [|apply grow_ok]. rewrite Co. cbn [fst snd]. split; [reflexivity|].
      rewrite !last_app. cbn. apply lookup_insert. }
    destruct G as [G1 G2]. fold g. rewrite (andthen_ok _ _ f tt G1). cbn [fst snd]. rewrite ask_eq. unfold contents. rewrite G2.
    change (default "" (Some (b ++ py_drop (String.length b) c))) with (b ++ py_drop (String.length b) c).
    destruct (String.eqb_spec (b ++ py_drop (String.length b) c) "") as [E|_].
    { destruct b; [now elim B|discriminate E]. }
    cbn [fst snd change]. split; [reflexivity|]. rewrite last_app. cbn [List.last]. rewrite G2. apply lookup_insert.
  Qed.

  Lemma authinfo_fails fuel u dir (f : files) :
    is_mirror u = false -> In (u_scheme u) ["http"; "https"; "ftp"] ->
    exists e, result (fetch server net parse mirrors true dir_writable writable fuel u dir) f = Err e.
  Proof.
    intros M Sc. destruct fuel as [|fuel]; [now exists EFuel|]. cbn [fetch].
    destruct (String.eqb (u_filename u) ""); [now exists EFetch|]. destruct (negb (dir_writable dir)); [now exists EFetch|].
    unfold result. rewrite ask_eq. destruct (_ && _); [now exists EFetch|]. rewrite M.
    assert (L : is_local_file u = false).
    { unfold is_local_file. destruct Sc as [<-|[<-|[<-|[]]]]; reflexivity. }
    assert (K : (String.eqb (u_scheme u) "http" || String.eqb (u_scheme u) "https" || String.eqb (u_scheme u) "ftp") = true).
    { destruct Sc as [<-|[<-|[<-|[]]]]; reflexivity. }
    rewrite L. exists EName. rewrite (andthen_err _ _ f EName); [reflexivity|]. unfold fetchRemoteFile. rewrite K. reflexivity.
  Qed.
End wrong.

(** ** Downloads *)
Section download.
  Context (server : string -> option string) (net : string -> files -> transfer) (parse : string -> uri) (mirrors : string -> list string).
  Context (authinfo : bool) (dir_writable writable : string -> bool) (sha1 : string -> string) (bunzip2 : string -> option string).
  Notation get := (download server net parse mirrors authinfo dir_writable writable sha1 bunzip2).
  Notation get_with := (download_with server net parse mirrors authinfo dir_writable writable sha1 bunzip2).
  Notation fetch_ := (fetch server net parse mirrors authinfo dir_writable writable).
  Notation obtain_ := (obtain server net parse mirrors authinfo dir_writable writable sha1).

  Definition ordinary (e : exn) : Prop := e <> EAlreadyHave.
  Lemma raises_fetch fuel u dir : raises_only (fetch_ fuel u dir) ordinary.
  Proof.
    assert (G : forall dest base rest sizes, raises_only (grow dest base rest sizes) ordinary).
    { intros. apply raises_each. intros n. apply raises_change. }
    revert u. induction fuel as [|fuel IH]; intros u; cbn [fetch]; [now apply raises_raise|].
    destruct (String.eqb _ _); [now apply raises_raise|]. destruct (negb _); [now apply raises_raise|].
    apply raises_then; [apply raises_ask|]. intros f. destruct (_ && _); [now apply raises_raise|].
    destruct (is_mirror u).
    - destruct (mirrors (mirror_name u)) as [|m l]; [now apply raises_raise|]. generalize (m :: l). intros k.
      induction k as [|x k IHk]; cbn [try_mirrors]; [now apply raises_raise|]. apply raises_try; [apply IH|exact IHk].
    - apply raises_then.
      + destruct (is_local_file u).
        * apply raises_then; [apply raises_ask|]. intros g. destruct (g !! u_path u); [|now apply raises_raise].
          apply raises_then; [apply raises_change|]. intros _. apply raises_then; [apply G|]. intros _.
          destruct (t_complete _); [apply raises_change|now apply raises_raise].
        * unfold fetchRemoteFile. destruct (_ && _); [now apply raises_raise|]. apply raises_then.
          -- unfold test_range_support. apply raises_then; [apply raises_ask|]. intros g. destruct (exists_ _ _); [|apply raises_ret].
             destruct (_ && _); [apply raises_ret|]. apply raises_then; [apply raises_change|]. intros _. apply raises_ret.
          -- intros reget. apply raises_then; [apply raises_ask|]. intros g. destruct (server _); [|now apply raises_raise].
             apply raises_then; [destruct reget; [apply raises_ret|apply raises_change]|]. intros _. apply raises_then; [apply G|]. intros _.
             destruct (t_complete _); [apply raises_change|now apply raises_raise].
      + intros _. apply raises_then; [apply raises_ask|]. intros g. destruct (String.eqb _ _); [|apply raises_change].
        apply raises_then; [apply raises_change|]. intros _. now apply raises_raise.
  Qed.
  Lemma raises_copy src dst : raises_only (copy src dst) ordinary.
  Proof.
    apply raises_then; [apply raises_ask|]. intros f. destruct (f !! src); [|now apply raises_raise].
    apply raises_then; [apply raises_change|]. intros _. apply raises_change.
  Qed.
  Lemma raises_decompress l m : raises_only (decompress bunzip2 l m) ordinary.
  Proof.
    unfold decompress. destruct (choose_method l m) as [[]|]; [|now apply raises_raise|apply raises_ret..].
    apply raises_then; [apply raises_ask|]. intros f. apply raises_then; [apply raises_change|]. intros _.
    destruct (bunzip2 _); [|now apply raises_raise]. apply raises_then; [apply raises_change|]. intros _. apply raises_ret.
  Qed.
  (** "Already have" comes from the comparison only *)
  Lemma obtain_already fuel u dir h copylocal (f : files) : result (obtain_ fuel u dir h copylocal) f = Err EAlreadyHave ->
    final (obtain_ fuel u dir h copylocal) f = f /\
    exists line c, h = Some line /\ f !! destination u dir = Some c /\ sha1 c = line.
  Proof.
    unfold obtain. destruct (is_remote_file u || copylocal).
    - unfold result, final. rewrite ask_eq. destruct h as [line|].
      + unfold exists_, contents. destruct (f !! join_path2 dir (u_filename u)) as [c|] eqn:E.
        * cbn [bool_decide andb]. destruct (bool_decide_reflect (is_Some (Some c))) as [_|K]; [|elim K; eauto]. cbn [andb].
          change (default "" (Some c)) with c. destruct (String.eqb_spec line (sha1 c)) as [Eq|Ne].
          -- intros _. split; [reflexivity|]. exists line, c. split; [reflexivity|]. split; [exact E|easy].
          -- intros H. exfalso. destruct (is_remote_file u).
             ++ apply andthen_raises in H as [[H _]|(a & _ & H & _)]; [exact (raises_fetch _ _ _ _ _ H eq_refl)|discriminate H].
             ++ apply andthen_raises in H as [[H _]|(a & _ & H & _)]; [exact (raises_copy _ _ _ _ H eq_refl)|discriminate H].
        * destruct (bool_decide_reflect (is_Some (None : option string))) as [[x K]|_]; [discriminate K|]. cbn [andb].
          intros H. exfalso. destruct (is_remote_file u).
          -- apply andthen_raises in H as [[H _]|(a & _ & H & _)]; [exact (raises_fetch _ _ _ _ _ H eq_refl)|discriminate H].
          -- apply andthen_raises in H as [[H _]|(a & _ & H & _)]; [exact (raises_copy _ _ _ _ H eq_refl)|discriminate H].
      + intros H. exfalso. destruct (is_remote_file u).
        * apply andthen_raises in H as [[H _]|(a & _ & H & _)]; [exact (raises_fetch _ _ _ _ _ H eq_refl)|discriminate H].
        * apply andthen_raises in H as [[H _]|(a & _ & H & _)]; [exact (raises_copy _ _ _ _ H eq_refl)|discriminate H].
    - unfold result. rewrite ask_eq. destruct (negb _); [discriminate|]. destruct (writable _); [discriminate|].
      intros H. exfalso. apply andthen_raises in H as [[H _]|(a & _ & H & _)]; [exact (raises_copy _ _ _ _ H eq_refl)|discriminate H].
  Qed.
  Lemma with_already fuel u dir h m copylocal (f : files) : result (get_with fuel u dir h m copylocal) f = Err EAlreadyHave ->
    final (get_with fuel u dir h m copylocal) f = f /\
    exists line c, h = Some line /\ f !! destination u dir = Some c /\ sha1 c = line.
  Proof.
    intros H. unfold download_with in *. apply andthen_raises in H as [[H ->]|(l & _ & H & _)]; [now apply obtain_already|].
    exfalso. unfold result in H. rewrite ask_eq in H. destruct h as [line|].
    - destruct (_ !! l); [|discriminate H]. destruct (negb _); [discriminate H|]. exact (raises_decompress _ _ _ _ H eq_refl).
    - exact (raises_decompress _ _ _ _ H eq_refl).
  Qed.

  Lemma obtain_where fuel u dir h copylocal (f : files) l : is_remote_file u = true \/ copylocal = true ->
    result (obtain_ fuel u dir h copylocal) f = Ok l -> l = destination u dir.
  Proof.
    intros K. unfold obtain. replace (is_remote_file u || copylocal) with true by (destruct K as [-> | ->]; now rewrite ?orb_true_r).
    unfold result. rewrite ask_eq. destruct (match h with Some _ => _ | None => _ end); [discriminate|]. intros H.
    destruct (is_remote_file u); apply andthen_result in H as (x & _ & H & _); now injection H as <-.
  Qed.

  (** A file that was checked *)
  Lemma with_checked fuel u dir line m copylocal (f : files) path : result (get_with fuel u dir (Some line) m copylocal) f = Ok path ->
    exists verified c g, In g (states (get_with fuel u dir (Some line) m copylocal) f) /\
      g !! verified = Some c /\ sha1 c = line /\
      result (decompress bunzip2 verified m) g = Ok path /\
      final (get_with fuel u dir (Some line) m copylocal) f = final (decompress bunzip2 verified m) g /\
      (is_remote_file u = true \/ copylocal = true -> verified = destination u dir).
  Proof.
    intros H. pose proof H as H0. unfold download_with in H. apply andthen_result in H as (l & R & H & F).
    unfold result in H. rewrite ask_eq in H. set (g := final (obtain_ fuel u dir (Some line) copylocal) f) in *.
    destruct (g !! l) as [c|] eqn:E; [|discriminate H]. destruct (String.eqb_spec (sha1 c) line) as [Eq|Ne]; cbn [negb] in H; [|discriminate H].
    exists l, c, g. split.
    - pose proof (final_state (obtain_ fuel u dir (Some line) copylocal) f) as Fs. fold g in Fs. unfold states in *. destruct Fs as [Fs|Fs]; [now left|right].
      unfold download_with. rewrite (andthen_ok _ _ f l R). cbn [fst]. apply in_or_app. now left.
    - split; [exact E|]. split; [exact Eq|]. split; [exact H|]. unfold download_with. rewrite F. unfold final at 1. rewrite ask_eq, E.
      rewrite (proj2 (String.eqb_eq (sha1 c) line) Eq). split; [reflexivity|]. intros K. eapply obtain_where; [exact K|exact R].
  Qed.

  Notation sum_uri u := (parse (u_uri u ++ ".sha1sum")).
  Lemma get_inv fuel u dir m copylocal (f : files) :
    (exists e, result (get fuel u dir true m copylocal) f = Err e /\ e <> EAlreadyHave) \/
    exists sumfile text line, let g := final (get fuel (sum_uri u) dir false None false) f in
      result (get fuel (sum_uri u) dir false None false) f = Ok sumfile /\
      g !! sumfile = Some text /\ says text line /\
      result (get fuel u dir true m copylocal) f = result (get_with fuel u dir (Some line) m copylocal) g /\
      final (get fuel u dir true m copylocal) f = final (get_with fuel u dir (Some line) m copylocal) g /\
      (forall x, In x (states (get_with fuel u dir (Some line) m copylocal) g) -> In x (states (get fuel u dir true m copylocal) f)).
  Proof.
    unfold download at 1. set (p := get_with fuel (sum_uri u) dir None None false).
    destruct (result p f) as [sumfile|e] eqn:R.
    2:{ left. exists e. split; [unfold result; now rewrite (andthen_err _ _ f e R)|]. intros ->. apply with_already in R as [_ (line & c & K & _)]. discriminate K. }
    set (g := final p f). destruct (g !! sumfile) as [text|] eqn:T.
    2:{ left. exists EOS. split; [|discriminate]. unfold result. rewrite (andthen_ok _ _ f sumfile R). fold g. rewrite ask_eq, T. reflexivity. }
    destruct (first_line text) as [line|] eqn:L.
    2:{ left. exists EIndex. split; [|discriminate]. unfold result. rewrite (andthen_ok _ _ f sumfile R). fold g. rewrite ask_eq, T, L. reflexivity. }
    right. exists sumfile, text, line. cbv zeta. change (get fuel (sum_uri u) dir false None false) with p. fold g.
    split; [exact R|]. split; [exact T|]. split; [now apply first_line_says|].
    assert (E : get fuel u dir true m copylocal f =
      ((fst (p f) ++ fst (get_with fuel u dir (Some line) m copylocal g))%list, snd (get_with fuel u dir (Some line) m copylocal g))).
    { unfold download. fold p. rewrite (andthen_ok _ _ f sumfile R). fold g. rewrite ask_eq, T, L. reflexivity. }
    unfold result, final, states in *. rewrite E. cbn [fst snd]. split; [reflexivity|]. split; [now rewrite last_app|].
    intros x [<-|H]; [|right; apply in_or_app; now right].
    destruct (final_state p f) as [K|K]; [left; exact K|right; apply in_or_app; left; exact K].
  Qed.

  Lemma less_four_take name : less_four name (py_take (String.length name - 4) name).
  Proof.
    exists (py_drop (String.length name - 4) name). split; [now rewrite take_take_drop|].
    destruct (Nat.le_gt_cases 4 (String.length name)) as [L|L].
    - left. pose proof (take_take_drop (String.length name - 4) name) as T. apply (f_equal String.length) in T. rewrite str_app_length in T.
      assert (E : String.length (py_take (String.length name - 4) name) = String.length name - 4); [|lia].
      clear T. assert (G : forall n s, n <= String.length s -> String.length (py_take n s) = n).
      { induction n as [|n IH]; intros [|x s] Hn; cbn in *; [reflexivity|reflexivity|lia|]. rewrite IH by lia. reflexivity. }
      apply G. lia.
    - right. replace (String.length name - 4) with 0 by lia. cbn. split; [now destruct name|]. now destruct name.
  Qed.
  Lemma decompress_ok verified m (g : files) c path : g !! verified = Some c -> result (decompress bunzip2 verified m) g = Ok path ->
    (plain_wanted m verified /\ path = verified /\ final (decompress bunzip2 verified m) g = g) \/
    (bzip2_wanted m verified /\ less_four verified path /\
     exists d, bunzip2 c = Some d /\ final (decompress bunzip2 verified m) g = <[ path := d ]> g).
  Proof.
    intros V D. assert (M : (plain_wanted m verified /\ choose_method verified m = None) \/ (bzip2_wanted m verified /\ choose_method verified m = Some Bz2) \/ choose_method verified m = Some Gzip).
    { destruct m as [[]|]; cbn [choose_method]; [right; left; split; [now left|reflexivity]|auto| |left; split; [now left|reflexivity]].
      destruct (py_endswith verified ".bz2") eqn:E1; [right; left; split; [right; split; [reflexivity|now apply endswith_iff]|reflexivity]|].
      destruct (py_endswith verified ".gz") eqn:E2; [auto|]. left. split; [right; split; [reflexivity|split]|reflexivity]; intros K; apply endswith_iff in K; congruence. }
    unfold decompress in *. destruct M as [[M E]|[[M E]|E]]; rewrite E in *; [left|right|discriminate D].
    - injection D as <-. split; [exact M|]. split; reflexivity.
    - unfold result, final in *. rewrite ask_eq in *. unfold contents in *. rewrite V in *. change (default "" (Some c)) with c in *.
      destruct (bunzip2 c) as [d|]; cbn in D; [|discriminate D]. injection D as <-. split; [exact M|]. split; [apply less_four_take|]. exists d. split; [reflexivity|]. cbn. apply insert_insert.
  Qed.

  Theorem download_checked fuel u dir m copylocal (f : files) path : result (get fuel u dir true m copylocal) f = Ok path ->
    exists sumfile text line verified c g,
      result (get fuel (sum_uri u) dir false None false) f = Ok sumfile /\
      final (get fuel (sum_uri u) dir false None false) f !! sumfile = Some text /\ says text line /\
      In g (states (get fuel u dir true m copylocal) f) /\ g !! verified = Some c /\ sha1 c = line /\
      (is_remote_file u = true \/ copylocal = true -> verified = destination u dir) /\
      ((plain_wanted m verified /\ path = verified /\ final (get fuel u dir true m copylocal) f = g) \/
       (bzip2_wanted m verified /\ less_four verified path /\
        exists d, bunzip2 c = Some d /\ final (get fuel u dir true m copylocal) f = <[ path := d ]> g)).
  Proof.
    intros H. destruct (get_inv fuel u dir m copylocal f) as [(e & E & _)|(sumfile & text & line & R & T & L & Eq & Fi & St)]; [congruence|].
    rewrite H in Eq. symmetry in Eq. apply with_checked in Eq as (verified & c & g & G & V & S & D & F & De).
    exists sumfile, text, line, verified, c, g. split; [exact R|]. split; [exact T|]. split; [exact L|]. split; [now apply St|]. split; [exact V|]. split; [exact S|].
    split; [exact De|]. rewrite Fi, F. now apply decompress_ok.
  Qed.

  Theorem download_already fuel u dir m copylocal (f : files) : result (get fuel u dir true m copylocal) f = Err EAlreadyHave ->
    exists sumfile text line c,
      result (get fuel (sum_uri u) dir false None false) f = Ok sumfile /\
      final (get fuel (sum_uri u) dir false None false) f !! sumfile = Some text /\ says text line /\
      final (get fuel u dir true m copylocal) f !! destination u dir = Some c /\ sha1 c = line.
  Proof.
    intros H. destruct (get_inv fuel u dir m copylocal f) as [(e & E & N)|(sumfile & text & line & R & T & L & Eq & Fi & _)]; [congruence|].
    rewrite H in Eq. symmetry in Eq. apply with_already in Eq as [F (line' & c & K & D & S)]. injection K as <-.
    exists sumfile, text, line, c. repeat split; auto. now rewrite Fi, F.
  Qed.

  (** The checksum file is the published one *)
  Theorem published fuel v dir text (f : files) sumfile :
    is_remote_file v = true -> offers server parse mirrors dir f text v ->
    (forall b, f !! partial v dir = Some b -> beginning b text) ->
    result (get fuel v dir false None false) f = Ok sumfile ->
    final (get fuel v dir false None false) f !! sumfile = Some text.
  Proof.
    intros Rm O P R. unfold download, download_with in *. apply andthen_result in R as (l & R1 & R2 & F). rewrite F.
    unfold result in R2. rewrite ask_eq in R2. cbn in R2. injection R2 as <-. unfold final at 1. rewrite ask_eq.
    change (final (obtain_ fuel v dir None false) f !! l = Some text).
    unfold obtain in *. rewrite Rm in *. cbn [orb] in *. unfold result in R1. rewrite ask_eq in R1.
    apply andthen_result in R1 as ([] & R1 & R3 & F3). injection R3 as <-. unfold final at 1. rewrite ask_eq.
    change (final (_ <~ fetch_ fuel v dir;; ret (join_path2 dir (u_filename v)))%prog f !! join_path2 dir (u_filename v) = Some text).
    rewrite F3. destruct (keeps_fetch server parse mirrors net authinfo dir_writable writable f text dir fuel v O f (safe_start f text _ P) Logic.I) as [_ B].
    apply (B tt R1).
  Qed.

  (** A published checksum with a line end is never met *)
  Theorem newline_never fuel u dir m copylocal (f : files) sumfile a rest :
    (forall x, ~ In newline (list_ascii_of_string (sha1 x))) ->
    result (get fuel (sum_uri u) dir false None false) f = Ok sumfile ->
    final (get fuel (sum_uri u) dir false None false) f !! sumfile = Some (a ++ String newline rest) ->
    exists e, result (get fuel u dir true m copylocal) f = Err e /\ e <> EAlreadyHave.
  Proof.
    intros Sh R T. destruct (get_inv fuel u dir m copylocal f) as [K|(sumfile' & text & line & R' & T' & L & Eq & Fi & _)]; [exact K|].
    rewrite R in R'. injection R' as <-. rewrite T in T'. injection T' as <-.
    assert (N : In newline (list_ascii_of_string line)).
    { inversion L as [b r F E E'|b Ne F E E']; subst; [rewrite los_app; apply in_or_app; right; now left|].
      exfalso. apply F. rewrite los_app. apply in_or_app. right. now left. }
    destruct (result (get fuel u dir true m copylocal) f) as [path|e] eqn:H.
    - symmetry in Eq. apply with_checked in Eq as (verified & c & g & _ & _ & S & _). exfalso. apply (Sh c). now rewrite S.
    - exists e. split; [reflexivity|]. intros ->. symmetry in Eq. apply with_already in Eq as [_ (line' & c & K & _ & S)]. injection K as <-.
      apply (Sh c). now rewrite S.
  Qed.
End download.
