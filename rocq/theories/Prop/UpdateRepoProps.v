(** * C90: updating repositories *)
From Coq Require Import String Ascii ZArith List Bool.
From stdpp Require Import gmap strings.
From Verif Require Import Model.Py Model.Path Model.Version Model.Package Model.Dependency Model.ItemByRepo Model.ComponentDB Model.Databases Model.Rebuild Model.Trace Model.Fetch Model.Publish Model.UpdateRepo.
From Verif Require Import Spec.RebuildSpec Spec.FetchSpec Spec.PublishSpec Spec.UpdateRepoSpec Proof.TraceFacts Proof.PublishFacts Proof.UpdateRepoFacts.
Require Import Verif.Prop.FetchProps Verif.Prop.PublishProps Verif.Prop.PlanProps.
Import ListNotations.
Open Scope string_scope.

Section claims.
  Context (server : string -> option string) (net : string -> files -> transfer) (parse : string -> uri) (mirrors : string -> list string)
    (authinfo : bool) (dir_writable writable : string -> bool) (sha1 : string -> string) (bunzip2 : string -> option string) (fuel : nat).
  Context (index_dir tmp_dir : string) (read_index : string -> option pindex) (gpg_verify : files -> string -> bool).
  Notation update := (update_repo server net parse mirrors authinfo dir_writable writable sha1 bunzip2 fuel index_dir read_index gpg_verify).
  Notation rebuild := (rebuild_repo server net parse mirrors authinfo dir_writable writable sha1 bunzip2 fuel index_dir tmp_dir read_index).
  Notation place repo := (repo_dir index_dir repo).

  (** Wherever an update stops, the databases are as before or the update has succeeded; a failed
      one has not touched them.  The same for rebuilding. *)
  Theorem C90_all_or_nothing (repo : string) (force : bool) (s : machine) :
    (forall x, In x (states (update repo force) s) -> m_dbs x = m_dbs s \/ (x = final (update repo force) s /\ result (update repo force) s = Ok tt)) /\
    (forall e, result (update repo force) s = Err e -> m_dbs (final (update repo force) s) = m_dbs s) /\
    (forall x, In x (states (rebuild repo) s) -> m_dbs x = m_dbs s \/ (x = final (rebuild repo) s /\ result (rebuild repo) s = Ok tt)) /\
    (forall e, result (rebuild repo) s = Err e -> m_dbs (final (rebuild repo) s) = m_dbs s).
  Proof.
    destruct (update_whole server net parse mirrors authinfo dir_writable writable sha1 bunzip2 fuel index_dir read_index gpg_verify repo force s) as [A B].
    destruct (rebuild_whole server net parse mirrors authinfo dir_writable writable sha1 bunzip2 fuel index_dir tmp_dir read_index repo s) as [C D]. auto.
  Qed.

  (** A repository nobody added cannot be updated *)
  Theorem C90_unknown (repo : string) (force : bool) (s : machine) :
    has_repo (db_repo (m_dbs s)) repo = false -> update repo force s = ([], Err EError).
  Proof.
    unfold has_repo. intros H. apply update_unknown. destruct (rd_infos (db_repo (m_dbs s)) !! repo); [discriminate H|reflexivity].
  Qed.

  (** After a successful update of a repository on a server or on this machine the databases are the old ones with the
      published index put in, and the index had the published sum; or the file this machine had
      already has the published sum, and nothing was done.  With force the index is always put in. *)
  Theorem C90_up_to_date_partial (g : files) (site : uri) (packed : bool) (u repo : string) (s : machine) (force : bool) :
    rd_infos (db_repo (m_dbs s)) !! repo = Some u ->
    visits server parse g site (parse u) packed (place repo) (m_files s) \/ browses parse g site (parse u) packed (place repo) (m_files s) ->
    unpacks (Some Auto) packed (destination (parse u) (place repo)) -> join_path2 (place repo) "uri" <> destination (parse u) (place repo) ->
    result (update repo force) s = Ok tt ->
    let s' := final (update repo force) s in
    if force then news sha1 bunzip2 read_index false g site packed repo (m_dbs s) (m_dbs s')
    else news sha1 bunzip2 read_index true g site packed repo (m_dbs s) (m_dbs s') \/
      (m_dbs s' = m_dbs s /\ exists c, m_files s !! destination (parse u) (place repo) = Some c /\ attested sha1 g site packed c).
  Proof.
    intros E V U N R. assert (sound server net parse mirrors authinfo dir_writable writable sha1 bunzip2 fuel index_dir g site packed u repo s) as Sd by (destruct V; [now apply sound_server|now apply sound_local]).
    destruct (update_news server net parse mirrors authinfo dir_writable writable sha1 bunzip2 fuel index_dir read_index gpg_verify g site packed u repo s Sd force E R) as [H|[(-> & H & c & K & A)|(-> & H)]].
    - destruct force; [|now left]. destruct H as (c & x & ix & A1 & A2 & A3 & A4 & _). exists c, x, ix. repeat split; auto. discriminate.
    - right. split; [exact H|]. exists c. split; [|exact A]. now rewrite lookup_insert_ne in K.
    - exact H.
  Qed.

  (** If the databases have changed, the signature could not be fetched or gpg accepts it *)
  Theorem C90_signature_partial (u repo : string) (s : machine) (force : bool) :
    rd_infos (db_repo (m_dbs s)) !! repo = Some u -> result (update repo force) s = Ok tt ->
    let s' := final (update repo force) s in m_dbs s' <> m_dbs s ->
    let sig := download server net parse mirrors authinfo dir_writable writable sha1 bunzip2 fuel (parse (u ++ ".sig")) (place repo) false None false in
    exists f, m_files s' = final sig f /\ ((exists e, result sig f = Err e) \/ exists p, result sig f = Ok p /\ gpg_verify (m_files s') p = true).
  Proof. exact (update_signed server net parse mirrors authinfo dir_writable writable sha1 bunzip2 fuel index_dir read_index gpg_verify repo force u s). Qed.

  (** Rebuilding takes the index file this machine has, if any, and nothing else *)
  Theorem C90_rebuild (repo : string) (s : machine) :
    (has_repo (db_repo (m_dbs s)) repo = false -> rebuild repo s = ([], Err EError)) /\
    (forall u packed, rd_infos (db_repo (m_dbs s)) !! repo = Some u ->
      let ip := join_path index_dir [repo; u_filename (parse u)] in
      is_local_file (parse ip) = true -> u_uri (parse ip) = ip -> (forall r, ip <> (tmp_dir ++ "/index/") ++ r) -> unpacks (Some Auto) packed (destination (parse ip) (tmp_dir ++ "/index")) ->
      (result (rebuild repo) s, m_dbs (final (rebuild repo) s)) = rebuilt bunzip2 read_index packed repo (m_dbs s) (m_files s !! ip)).
  Proof.
    split.
    - unfold has_repo. intros H. apply rebuild_unknown. destruct (rd_infos (db_repo (m_dbs s)) !! repo); [discriminate H|reflexivity].
    - intros u packed. exact (rebuild_exact server net parse mirrors authinfo dir_writable writable sha1 bunzip2 fuel index_dir tmp_dir read_index repo u packed s).
  Qed.
End claims.
Print Assumptions C90_rebuild.
Print Assumptions C90_all_or_nothing.
Print Assumptions C90_unknown.
Print Assumptions C90_up_to_date_partial.
Print Assumptions C90_signature_partial.

(** Whatever is in the databases, nothing is done if the index file here has the published sum *)
Theorem C90_no_news (server : string -> option string) (net : string -> files -> transfer) (parse : string -> uri) (mirrors : string -> list string)
    (dir_writable writable : string -> bool) (sha1 : string -> string) (bunzip2 : string -> option string) (fuel : nat)
    (index_dir : string) (read_index : string -> option pindex) (gpg_verify : files -> string -> bool)
    (g : files) (site : uri) (packed : bool) (u repo : string) (s : machine) (c sum : string) :
  (forall p, dir_writable p = true) -> (forall p, writable p = true) -> (forall a f, t_complete (net a f) = true) ->
  rd_infos (db_repo (m_dbs s)) !! repo = Some u -> visits server parse g site (parse u) packed (repo_dir index_dir repo) (m_files s) ->
  join_path2 (repo_dir index_dir repo) "uri" <> destination (parse u) (repo_dir index_dir repo) ->
  m_files s !! destination (parse u) (repo_dir index_dir repo) = Some c -> g !! (shelf site packed ++ ".sha1sum") = Some sum -> says sum (sha1 c) ->
  let update := update_repo server net parse mirrors false dir_writable writable sha1 bunzip2 (S fuel) index_dir read_index gpg_verify repo false in
  result update s = Ok tt /\ m_dbs (final update s) = m_dbs s.
Proof. exact (no_news server net parse mirrors dir_writable writable sha1 bunzip2 fuel index_dir read_index gpg_verify g site packed u repo s c sum). Qed.
Print Assumptions C90_no_news.

(** ** A case: a repository on a server which shows the disk [g] *)
Definition anywhere (s : string) : uri := if py_startswith s "/" then mkUri s "file" s (basename s) else here s.
Definition read_two (t : string) : option pindex :=
  if String.eqb t "new" then Some (mkIndex [] [v_pkg "app" "1" "1" []] []) else if String.eqb t "old" then Some (mkIndex [] [] []) else None.
Definition site_now : files := final (issue "new") ∅.
Definition signed_site : files := <[ "/srv/pisi-index.xml.bz2.sig" := "sig" ]> site_now.
Definition customer : machine :=
  mkMachine ∅ (match repo_add (db_repo empty_dbs) "main" "http://a/pisi-index.xml.bz2" None with
               | Ok rd => mkDbs rd (db_pkg empty_dbs) (db_rev empty_dbs) (db_src empty_dbs) (db_p2s empty_dbs) (db_comp empty_dbs) (db_idx empty_dbs)
               | Err _ => empty_dbs end).
Definition fresh_index (g : files) (trust : bool) (force : bool) : prog machine unit :=
  update_repo (shown g) steady anywhere two_mirrors false (fun _ => true) (fun _ => true) hash unzip 2 "/idx" read_two (fun _ _ => trust) "main" force.
Definition again (g : files) : prog machine unit :=
  rebuild_repo (shown g) steady anywhere two_mirrors false (fun _ => true) (fun _ => true) hash unzip 2 "/idx" "/tmp" read_two "main".
Definition sold (d : dbs) : bool := match get_package d "app" (RName "main") with Ok _ => true | Err _ => false end.
Definition stopped : machine := nth 13 (states (fresh_index site_now true false) customer) customer.

Lemma visits_site g : visits (shown g) anywhere g index_file (anywhere "http://a/pisi-index.xml.bz2") true "/idx/main" ∅.
Proof. split; try split; reflexivity. Qed.
Lemma visits_stopped : visits (shown site_now) anywhere site_now index_file (anywhere "http://a/pisi-index.xml.bz2") true "/idx/main" (m_files stopped).
Proof. split; try split; vm_compute; reflexivity. Qed.

(** "After a successful update the published index is in the databases": not if an earlier update
    was stopped between the download and the databases.  Every later one without force says that
    there are no updates. *)
Theorem C90_up_to_date_refuted :
  ~ (forall server net parse mirrors authinfo dir_writable writable sha1 bunzip2 fuel index_dir read_index gpg_verify g site packed u repo s0 s,
      let update := update_repo server net parse mirrors authinfo dir_writable writable sha1 bunzip2 fuel index_dir read_index gpg_verify repo false in
      m_files s0 = ∅ -> In s (states update s0) -> rd_infos (db_repo (m_dbs s)) !! repo = Some u ->
      visits server parse g site (parse u) packed (repo_dir index_dir repo) (m_files s) -> unpacks (Some Auto) packed (destination (parse u) (repo_dir index_dir repo)) ->
      result update s = Ok tt -> news sha1 bunzip2 read_index true g site packed repo (m_dbs s) (m_dbs (final update s))).
Proof.
  intros H.
  destruct (H (shown site_now) steady anywhere two_mirrors false (fun _ => true) (fun _ => true) hash unzip 2%nat "/idx" read_two (fun _ _ => true) site_now index_file true "http://a/pisi-index.xml.bz2" "main" customer stopped) as (c & x & ix & A1 & A2 & A3 & A4 & _).
  - reflexivity.
  - apply nth_In. vm_compute. repeat constructor.
  - vm_compute. reflexivity.
  - exact visits_stopped.
  - right. split; [reflexivity|]. exists "/idx/main/pisi-index.xml". reflexivity.
  - vm_compute. reflexivity.
  - assert (site_now !! shelf index_file true = Some "BZnew") as E by (vm_compute; reflexivity). rewrite E in A1. injection A1 as <-. cbn in A2. injection A2 as <-. cbn in A3. injection A3 as <-.
    apply (f_equal (fun r => match r with Ok d => sold d | Err _ => false end)) in A4.
    assert (sold (m_dbs (final (fresh_index site_now true false) stopped)) = false) as F by (vm_compute; reflexivity). cbv beta iota in A4. unfold fresh_index in F. rewrite F in A4.
    assert (match update_db (m_dbs stopped) (mkIndex [] [v_pkg "app" "1" "1" []] []) "main" with Ok d => sold d | Err _ => false end = true) as G by (vm_compute; reflexivity). congruence.
Qed.
Print Assumptions C90_up_to_date_refuted.

(** "An index comes into the databases only if gpg accepts a signature": not if there is none. *)
Theorem C90_signature_refuted :
  ~ (forall server net parse mirrors authinfo dir_writable writable sha1 bunzip2 fuel index_dir read_index gpg_verify repo s,
      let update := update_repo server net parse mirrors authinfo dir_writable writable sha1 bunzip2 fuel index_dir read_index gpg_verify repo false in
      result update s = Ok tt -> m_dbs (final update s) <> m_dbs s -> exists p, gpg_verify (m_files (final update s)) p = true).
Proof.
  intros H.
  destruct (H (shown site_now) steady anywhere two_mirrors false (fun _ => true) (fun _ => true) hash unzip 2%nat "/idx" read_two (fun _ _ => false) "main" customer) as [p K]; [vm_compute; reflexivity| |discriminate K].
  intros E. apply (f_equal sold) in E. fold (fresh_index site_now false false) in E.
  assert (sold (m_dbs (final (fresh_index site_now false false) customer)) = true) as F by (vm_compute; reflexivity). assert (sold (m_dbs customer) = false) as G by (vm_compute; reflexivity). congruence.
Qed.
Print Assumptions C90_signature_refuted.

(** "An index whose signature gpg rejects does not come into the databases": the update fails, but
    leaves the index where rebuild-db takes it from, without asking for the signature. *)
Theorem C90_rejected_refuted :
  ~ (forall server net parse mirrors authinfo dir_writable writable sha1 bunzip2 fuel index_dir tmp_dir read_index gpg_verify repo s,
      let update := update_repo server net parse mirrors authinfo dir_writable writable sha1 bunzip2 fuel index_dir read_index gpg_verify repo false in
      let rebuild := rebuild_repo server net parse mirrors authinfo dir_writable writable sha1 bunzip2 fuel index_dir tmp_dir read_index repo in
      m_files s = ∅ -> result update s = Err EError -> (forall f p, gpg_verify f p = false) -> m_dbs (final rebuild (final update s)) = m_dbs s).
Proof.
  intros H.
  specialize (H (shown signed_site) steady anywhere two_mirrors false (fun _ => true) (fun _ => true) hash unzip 2%nat "/idx" "/tmp" read_two (fun _ _ => false) "main" customer). cbv zeta in H.
  fold (fresh_index signed_site false false) in H. fold (again signed_site) in H.
  assert (m_dbs (final (again signed_site) (final (fresh_index signed_site false false) customer)) = m_dbs customer) as E by (apply H; [reflexivity|vm_compute; reflexivity|reflexivity]). clear H.
  apply (f_equal sold) in E.
  assert (sold (m_dbs (final (again signed_site) (final (fresh_index signed_site false false) customer))) = true) as F by (vm_compute; reflexivity). assert (sold (m_dbs customer) = false) as G by (vm_compute; reflexivity). congruence.
Qed.
Print Assumptions C90_rejected_refuted.

(** A first update, one after a stop, one by force, a rejected signature, and what comes after it *)
Example C90_nontrivial :
  let outcome := fun (p : prog machine unit) s => (result p s, sold (m_dbs (final p s))) in
  let rejected := final (fresh_index signed_site false false) customer in
  has_repo (db_repo (m_dbs customer)) "main" = true /\ outcome (fresh_index site_now true false) customer = (Ok tt, true) /\
  outcome (fresh_index site_now true false) stopped = (Ok tt, false) /\ outcome (fresh_index site_now true true) stopped = (Ok tt, true) /\
  outcome (fresh_index signed_site true false) customer = (Ok tt, true) /\ outcome (fresh_index signed_site false false) customer = (Err EError, false) /\
  outcome (fresh_index signed_site false false) rejected = (Ok tt, false) /\ outcome (again signed_site) rejected = (Ok tt, true) /\
  (says "1" (hash "BZnew") /\ m_files stopped !! "/idx/main/pisi-index.xml.bz2" = Some "BZnew" /\ site_now !! "/srv/pisi-index.xml.bz2.sha1sum" = Some "1").
Proof.
  cbv zeta. repeat (split; [vm_compute; reflexivity|]). split; [|split; vm_compute; reflexivity]. apply RebuildTop.first_line_says. reflexivity.
Qed.

(** The hypotheses of [C90_rebuild] *)
Example C90_rebuild_nontrivial :
  let ip := join_path "/idx" ["main"; u_filename (anywhere "http://a/pisi-index.xml.bz2")] in
  rd_infos (db_repo (m_dbs customer)) !! "main" = Some "http://a/pisi-index.xml.bz2" /\ ip = "/idx/main/pisi-index.xml.bz2" /\
  is_local_file (anywhere ip) = true /\ u_uri (anywhere ip) = ip /\ (forall r, ip <> ("/tmp" ++ "/index/") ++ r) /\ unpacks (Some Auto) true (destination (anywhere ip) "/tmp/index") /\
  (let '(r, d) := rebuilt unzip read_two true "main" (m_dbs customer) (Some "BZnew") in (r, sold d)) = (Ok tt, true) /\
  rebuilt unzip read_two true "main" (m_dbs customer) (Some "BZjunk") = (Err EError, m_dbs customer).
Proof.
  cbv zeta. split; [vm_compute; reflexivity|]. split; [reflexivity|]. split; [reflexivity|]. split; [reflexivity|]. split; [intros r K; discriminate K|].
  split; [right; split; [reflexivity|exists "/tmp/index/pisi-index.xml"; reflexivity]|]. split; [vm_compute; reflexivity|]. reflexivity.
Qed.

(** A repository on this machine *)
Definition neighbour : machine := mkMachine site_now (match repo_add (db_repo empty_dbs) "main" "/srv/pisi-index.xml.bz2" None with
               | Ok rd => mkDbs rd (db_pkg empty_dbs) (db_rev empty_dbs) (db_src empty_dbs) (db_p2s empty_dbs) (db_comp empty_dbs) (db_idx empty_dbs)
               | Err _ => empty_dbs end).
Example C90_local_nontrivial :
  browses anywhere site_now index_file (anywhere "/srv/pisi-index.xml.bz2") true "/idx/main" (m_files neighbour) /\ unpacks (Some Auto) true (destination (anywhere "/srv/pisi-index.xml.bz2") "/idx/main") /\
  rd_infos (db_repo (m_dbs neighbour)) !! "main" = Some "/srv/pisi-index.xml.bz2" /\
  result (fresh_index ∅ true false) neighbour = Ok tt /\ sold (m_dbs (final (fresh_index ∅ true false) neighbour)) = true.
Proof.
  split; [split; split; try reflexivity; discriminate|]. split; [right; split; [reflexivity|exists "/idx/main/pisi-index.xml"; reflexivity]|]. repeat (split; [vm_compute; reflexivity|]). vm_compute. reflexivity.
Qed.
