(** * Source archives *)
From Coq Require Import String Ascii ZArith List Bool Lia.
From stdpp Require Import gmap strings.
From Verif Require Import Model.Py Model.Path Model.Trace Model.Fetch Model.Source Spec.PathSpec Spec.FetchSpec Proof.PyFacts Proof.PathFacts Proof.TraceFacts Proof.FetchFacts.
Import ListNotations.
Open Scope string_scope.

Section source.
  Context (server : string -> option string) (net : string -> files -> transfer) (parse : string -> uri) (mirrors : string -> list string).
  Context (authinfo : bool) (dir_writable writable readable : string -> bool) (sha1 : string -> string) (unlzma : string -> option string).
  Notation fetch_ := (fetch_source server net parse mirrors authinfo dir_writable writable readable sha1).
  Notation unpack_ := (unpack_source sha1 unlzma).

  Lemma open_result ty path (f : files) d : result (open_archive unlzma ty path) f = Ok d ->
    exists c, f !! path = Some c /\ In ty ["targz"; "tarbz2"; "tarlzma"; "tar"; "zip"; "binary"] /\
      (ty <> "tarlzma" -> d = c /\ states (open_archive unlzma ty path) f = [f]).
  Proof.
    unfold open_archive. destruct (existsb (String.eqb ty) handlers) eqn:E; [|discriminate]. cbn [negb]. unfold result, states. rewrite ask_eq.
    apply existsb_exists in E as (x & Ix & Ex). apply String.eqb_eq in Ex as <-. destruct (f !! path) as [c|]; [|discriminate].
    intros R. exists c. split; [reflexivity|]. split; [exact Ix|]. intros N. rewrite (proj2 (String.eqb_neq _ _) N) in *. injection R as <-. split; reflexivity.
  Qed.
  Lemma unpacked u dir ty sum (f : files) d : result (unpack_ u dir ty sum) f = Ok d ->
    exists c, f !! FetchSpec.destination u dir = Some c /\ sha1 c = sum /\ In ty ["targz"; "tarbz2"; "tarlzma"; "tar"; "zip"; "binary"] /\
      (ty <> "tarlzma" -> d = c /\ states (unpack_ u dir ty sum) f = [f]).
  Proof.
    unfold unpack_source, FetchSpec.destination, archive_path. set (p := join_path2 dir (u_filename u)). unfold result, states. rewrite ask_eq. destruct (f !! p) as [c|] eqn:E; [|discriminate].
    destruct (String.eqb_spec (sha1 c) sum) as [S|S]; [|discriminate]. intros R. apply open_result in R as (c' & E' & I & H). exists c. split; [reflexivity|]. split; [exact S|]. split; [exact I|].
    rewrite E in E'. injection E' as <-. exact H.
  Qed.
  Lemma compromised u dir ty sum (f : files) : (forall c, f !! FetchSpec.destination u dir = Some c -> sha1 c <> sum) -> unpack_ u dir ty sum f = ([], Err EError).
  Proof.
    intros H. unfold unpack_source, archive_path. fold (FetchSpec.destination u dir). rewrite ask_eq. destruct (f !! FetchSpec.destination u dir) as [c|]; [|reflexivity].
    destruct (String.eqb_spec (sha1 c) sum) as [S|S]; [now elim (H c)|reflexivity].
  Qed.
  Lemma cached fuel u dir sum (f : files) c : f !! FetchSpec.destination u dir = Some c -> readable (FetchSpec.destination u dir) = true -> sha1 c = sum ->
    fetch_ fuel u dir sum f = ([], Ok tt).
  Proof.
    intros L R S. unfold fetch_source. rewrite ask_eq. unfold is_cached, archive_path, exists_, contents. fold (FetchSpec.destination u dir). rewrite L, R. cbn [default]. unfold id. rewrite S, String.eqb_refl.
    rewrite bool_decide_eq_true_2 by eauto. reflexivity.
  Qed.
  Lemma not_cached fuel u dir sum (f : files) : (forall c, f !! FetchSpec.destination u dir = Some c -> readable (FetchSpec.destination u dir) = true -> sha1 c <> sum) ->
    fetch_ fuel u dir sum f = fetch server net parse mirrors authinfo dir_writable writable fuel u dir f.
  Proof.
    intros H. unfold fetch_source. rewrite ask_eq. unfold is_cached, archive_path, exists_, contents. fold (FetchSpec.destination u dir). destruct (f !! FetchSpec.destination u dir) as [c|] eqn:L; [|reflexivity].
    cbn [default]. unfold id. destruct (readable _) eqn:R; [|now rewrite andb_false_r]. destruct (String.eqb_spec (sha1 c) sum) as [S|S]; [now elim (H c eq_refl eq_refl)|now rewrite andb_false_r].
  Qed.
  (** Fetching, then unpacking *)
  Lemma open_plain ty path (f : files) c : In ty ["targz"; "tarbz2"; "tar"; "zip"; "binary"] -> f !! path = Some c -> result (open_archive unlzma ty path) f = Ok c.
  Proof.
    intros I L. unfold open_archive. assert (E : existsb (String.eqb ty) handlers = true /\ String.eqb ty "tarlzma" = false) by (cbn in I; destruct I as [<-|[<-|[<-|[<-|[<-|[]]]]]]; split; reflexivity).
    destruct E as [-> ->]. cbn [negb]. unfold result. rewrite ask_eq, L. reflexivity.
  Qed.
  Lemma prepared fuel u dir ty sum (f0 f : files) c : offers server parse mirrors dir f0 c u -> (forall b, f0 !! partial u dir = Some b -> beginning b c) ->
    attempts server parse mirrors u dir f0 f -> sha1 c = sum -> In ty ["targz"; "tarbz2"; "tar"; "zip"; "binary"] -> result (fetch_ fuel u dir sum) f = Ok tt ->
    exists d, result (unpack_ u dir ty sum) (final (fetch_ fuel u dir sum) f) = Ok d /\ sha1 d = sum /\
      ((forall c', f !! FetchSpec.destination u dir = Some c' -> sha1 c' <> sum) -> d = c).
  Proof.
    intros O P A S I R.
    assert (G : exists d, final (fetch_ fuel u dir sum) f !! FetchSpec.destination u dir = Some d /\ sha1 d = sum /\ ((forall c', f !! FetchSpec.destination u dir = Some c' -> sha1 c' <> sum) -> d = c)).
    { destruct (f !! FetchSpec.destination u dir) as [c'|] eqn:L.
      - destruct (String.eqb_spec (sha1 c') sum) as [S'|S'].
        + destruct (readable (FetchSpec.destination u dir)) eqn:Rd.
          * pose proof (cached fuel u dir sum f c' L Rd S') as E. unfold final. rewrite E. cbn. exists c'. split; [exact L|]. split; [exact S'|]. intros K. now elim (K c' eq_refl).
          * pose proof (not_cached fuel u dir sum f) as E. unfold final. unfold result in R. rewrite E in * by (intros c2 _ X; congruence).
            destruct (attempts_succeed server parse mirrors u dir f0 c O P f net authinfo dir_writable writable fuel A R) as [Q _]. exists c. split; [exact Q|]. now split.
        + pose proof (not_cached fuel u dir sum f) as E. unfold final. unfold result in R. rewrite E in * by (intros c2 X _; congruence).
          destruct (attempts_succeed server parse mirrors u dir f0 c O P f net authinfo dir_writable writable fuel A R) as [Q _]. exists c. split; [exact Q|]. now split.
      - pose proof (not_cached fuel u dir sum f) as E. unfold final. unfold result in R. rewrite E in * by (intros c2 X _; congruence).
        destruct (attempts_succeed server parse mirrors u dir f0 c O P f net authinfo dir_writable writable fuel A R) as [Q _]. exists c. split; [exact Q|]. now split. }
    destruct G as (d & L & Sd & K). exists d. split; [|now split]. unfold unpack_source, archive_path. fold (FetchSpec.destination u dir). unfold result. rewrite ask_eq, L, Sd, String.eqb_refl. now apply open_plain.
  Qed.

  (** ** lzma *)
  Lemma take_suffix q s : py_take (String.length (q ++ s) - String.length s) (q ++ s) = q.
  Proof. rewrite str_app_length. replace (String.length q + String.length s - String.length s) with (String.length q) by lia. apply take_app. Qed.
  Lemma lzma_unpacked path q (f : files) c d : path = q ++ ".lzma" -> (forall r x, q = r ++ String x "" -> ~ In x ["."; "l"; "z"; "m"; "a"]%char) -> q <> "" ->
    f !! path = Some c -> unlzma c = Some d ->
    result (open_archive unlzma "tarlzma" path) f = Ok d /\ final (open_archive unlzma "tarlzma" path) f = <[ q := d ]> (delete path f).
  Proof.
    intros E H Nq L U. unfold open_archive. change (existsb (String.eqb "tarlzma") handlers) with true. cbn [negb]. unfold result, final. rewrite ask_eq, L. change (String.eqb "tarlzma" "tarlzma") with true. cbv iota.
    replace (py_endswith path lzma_suffix) with true by (symmetry; apply endswith_iff; now exists q). rewrite U.
    assert (T : py_take (String.length path - String.length lzma_suffix) path = q) by (rewrite E; apply take_suffix). rewrite T.
    rewrite (andthen_ok _ _ f tt) by reflexivity. cbn [fst snd]. rewrite ask_eq. change (final (change (fun f : files => <[ q := d ]> (delete path f))) f) with (<[ q := d ]> (delete path f)).
    assert (R : py_rstrip lzma_suffix path = q).
    { rewrite E. destruct (str_snoc_cases q) as [->|(r & x & Eq)]; [congruence|]. rewrite rstrip_app_in by (cbn; repeat constructor). rewrite Eq. apply PyFacts.rstrip_stop.
      specialize (H r x Eq). destruct (char_in x lzma_suffix) eqn:K; [|reflexivity]. exfalso. apply H. clear -K. unfold lzma_suffix in K. cbn [char_in] in K.
      repeat (apply orb_true_iff in K as [K|K]; [apply Ascii.eqb_eq in K as <-; cbn; tauto|]). discriminate K. }
    rewrite R, lookup_insert. split; reflexivity.
  Qed.
  Lemma lzma_lost path q (f : files) c d : path = q ++ ".lzma" -> f !! path = Some c -> unlzma c = Some d -> final (open_archive unlzma "tarlzma" path) f !! path = None.
  Proof.
    intros E L U. unfold open_archive. change (existsb (String.eqb "tarlzma") handlers) with true. cbn [negb]. unfold final. rewrite ask_eq, L. change (String.eqb "tarlzma" "tarlzma") with true. cbv iota.
    replace (py_endswith path lzma_suffix) with true by (symmetry; apply endswith_iff; now exists q). rewrite U.
    assert (T : py_take (String.length path - String.length lzma_suffix) path = q) by (rewrite E; apply take_suffix). rewrite T.
    rewrite (andthen_ok _ _ f tt) by reflexivity. cbn [fst snd]. rewrite ask_eq. change (final (change (fun f : files => <[ q := d ]> (delete path f))) f) with (<[ q := d ]> (delete path f)).
    assert (N : q <> path). { intros X. rewrite X in E. apply (f_equal String.length) in E. rewrite str_app_length in E. cbn in E. lia. }
    destruct (<[ q := d ]> (delete path f) !! py_rstrip lzma_suffix path); cbn; rewrite lookup_insert_ne by exact N; apply lookup_delete.
  Qed.

  Lemma unreachable fuel u dir (f : files) : is_mirror u = false -> is_local_file u = false -> server (u_uri u) = None ->
    exists e, result (fetch server net parse mirrors authinfo dir_writable writable fuel u dir) f = Err e.
  Proof.
    intros M L Sv. unfold result. destruct fuel as [|fuel]; [now exists EFuel|]. cbn [fetch]. destruct (String.eqb _ _); [now exists EFetch|]. destruct (negb _); [now exists EFetch|].
    rewrite ask_eq. destruct (_ && _); [now exists EFetch|]. rewrite M, L.
    assert (R : exists e, result (fetchRemoteFile server net authinfo u (join_path2 dir (u_filename u) ++ ".part")) f = Err e).
    { unfold fetchRemoteFile. destruct (_ && _); [now exists EName|]. set (q := test_range_support net u _). unfold result, andthen at 1. destruct (q f) as [t [r|e]]; [|now exists e].
      rewrite ask_eq, Sv. now exists EFetch. }
    destruct R as [e R]. exists e. unfold result in R. unfold andthen at 1. destruct (fetchRemoteFile _ _ _ _ _ f) as [t r]. cbn [snd] in R. now rewrite R.
  Qed.
  Lemma unpack_lzma u dir sum (f : files) c : f !! FetchSpec.destination u dir = Some c -> sha1 c = sum ->
    unpack_ u dir "tarlzma" sum f = open_archive unlzma "tarlzma" (FetchSpec.destination u dir) f.
  Proof. intros L S. unfold unpack_source, archive_path. fold (FetchSpec.destination u dir). rewrite ask_eq, L, S, String.eqb_refl. reflexivity. Qed.
  Lemma lzma_source u dir sum q (f : files) c d : FetchSpec.destination u dir = q ++ ".lzma" -> (forall r x, q = r ++ String x "" -> ~ In x ["."; "l"; "z"; "m"; "a"]%char) -> q <> "" ->
    f !! FetchSpec.destination u dir = Some c -> sha1 c = sum -> unlzma c = Some d ->
    result (unpack_ u dir "tarlzma" sum) f = Ok d /\ final (unpack_ u dir "tarlzma" sum) f = <[ q := d ]> (delete (FetchSpec.destination u dir) f).
  Proof.
    intros E H Nq L S U. destruct (lzma_unpacked _ q f c d E H Nq L U) as [A B]. unfold result, final in *. rewrite (unpack_lzma u dir sum f c L S). now split.
  Qed.
  Lemma lzma_again u dir sum q (f : files) c d : FetchSpec.destination u dir = q ++ ".lzma" -> f !! FetchSpec.destination u dir = Some c -> sha1 c = sum -> unlzma c = Some d ->
    is_mirror u = false -> is_local_file u = false -> server (u_uri u) = None -> readable (FetchSpec.destination u dir) = true ->
    (forall fuel, result (fetch_ fuel u dir sum) f = Ok tt) /\
    (forall fuel, exists e, result (fetch_ fuel u dir sum) (final (unpack_ u dir "tarlzma" sum) f) = Err e).
  Proof.
    intros E L S U M Lo Sv Rd. split; intros fuel.
    - unfold result. now rewrite (cached fuel u dir sum f c L Rd S).
    - pose proof (lzma_lost _ q f c d E L U) as K. unfold final in *. rewrite (unpack_lzma u dir sum f c L S). unfold result. rewrite not_cached by (rewrite K; discriminate). now apply unreachable.
  Qed.
  Lemma lzma_wrong u dir sum r t (f : files) c : FetchSpec.destination u dir = r ++ t ++ ".lzma" -> t <> "" -> (forall x, In x (list_ascii_of_string t) -> In x ["."; "l"; "z"; "m"; "a"]%char) ->
    (exists r' x, r = r' ++ String x "" /\ ~ In x ["."; "l"; "z"; "m"; "a"]%char) -> f !! FetchSpec.destination u dir = Some c -> f !! r = None ->
    result (unpack_ u dir "tarlzma" sum) f = Err EError \/ result (unpack_ u dir "tarlzma" sum) f = Err EOS.
  Proof.
    intros E Nt Ht (r' & x & Er & Nx) L N. set (path := FetchSpec.destination u dir) in *. unfold unpack_source, archive_path. fold (FetchSpec.destination u dir). fold path. unfold result. rewrite ask_eq, L.
    destruct (String.eqb (sha1 c) sum); [|now left]. unfold open_archive. change (existsb (String.eqb "tarlzma") handlers) with true. cbn [negb]. rewrite ask_eq, L. change (String.eqb "tarlzma" "tarlzma") with true. cbv iota.
    replace (py_endswith path lzma_suffix) with true by (symmetry; apply endswith_iff; exists (r ++ t); rewrite E; now rewrite str_app_assoc). destruct (unlzma c) as [d|]; [|now left]. right.
    assert (T : py_take (String.length path - String.length lzma_suffix) path = r ++ t) by (rewrite E, <- str_app_assoc; apply take_suffix). rewrite T.
    rewrite (andthen_ok _ _ f tt) by reflexivity. cbn [fst snd]. rewrite ask_eq. change (final (change (fun f : files => <[ r ++ t := d ]> (delete path f))) f) with (<[ r ++ t := d ]> (delete path f)).
    assert (R : py_rstrip lzma_suffix path = r).
    { rewrite E, <- str_app_assoc. rewrite rstrip_app_in by (cbn; repeat constructor). rewrite rstrip_app_in.
      - rewrite Er. apply PyFacts.rstrip_stop. destruct (char_in x lzma_suffix) eqn:K; [|reflexivity]. exfalso. apply Nx. clear -K. unfold lzma_suffix in K. cbn [char_in] in K.
        repeat (apply orb_true_iff in K as [K|K]; [apply Ascii.eqb_eq in K as <-; cbn; tauto|]). discriminate K.
      - apply List.Forall_forall. intros y I. apply Ht in I. cbn in I. repeat (destruct I as [<-|I]; [reflexivity|]). destruct I. }
    rewrite R. rewrite lookup_insert_ne; [|intros X; apply (f_equal String.length) in X; rewrite str_app_length in X; destruct t; [congruence|cbn in X; lia]].
    rewrite lookup_delete_ne; [now rewrite N|intros X]. rewrite X in E. apply (f_equal String.length) in E. rewrite !str_app_length in E. cbn in E. lia.
  Qed.
  Lemma lzma_other u dir sum (f : files) : (forall q, FetchSpec.destination u dir <> q ++ ".lzma") ->
    exists e, unpack_ u dir "tarlzma" sum f = ([], Err e).
  Proof.
    intros N. unfold unpack_source, archive_path. fold (FetchSpec.destination u dir). rewrite ask_eq. destruct (f !! FetchSpec.destination u dir) as [c|] eqn:L; [|now exists EError].
    destruct (String.eqb (sha1 c) sum); [|now exists EError]. unfold open_archive. change (existsb (String.eqb "tarlzma") handlers) with true. cbn [negb]. rewrite ask_eq, L. change (String.eqb "tarlzma" "tarlzma") with true. cbv iota.
    destruct (py_endswith (FetchSpec.destination u dir) lzma_suffix) eqn:K; [apply endswith_iff in K as [q K]; now elim (N q)|now exists EError].
  Qed.
End source.
