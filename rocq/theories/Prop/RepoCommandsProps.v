(** * C92: the commands on repositories *)
From Coq Require Import String Ascii ZArith List Bool.
From stdpp Require Import gmap strings.
From Verif Require Import Model.Py Model.Path Model.Version Model.Package Model.Dependency Model.ItemByRepo Model.ComponentDB Model.Databases Model.Rebuild Model.Index Model.Trace Model.Fetch Model.Publish Model.UpdateRepo Model.RepoCommands.
From Verif Require Import Spec.ItemByRepoSpec Spec.DatabaseSpec Spec.RepoCommandsSpec Proof.TraceFacts Proof.UpdateRepoFacts Proof.DatabaseFacts Proof.RevDepFacts Proof.RepoCommandsFacts.
Require Import Verif.Prop.FetchProps Verif.Prop.PublishProps Verif.Prop.PlanProps Verif.Prop.UpdateRepoProps.
Import ListNotations.
Open Scope string_scope.

Section claims.
  Context (server : string -> option string) (net : string -> files -> transfer) (parse : string -> uri) (mirrors : string -> list string)
    (authinfo : bool) (dir_writable writable : string -> bool) (sha1 : string -> string) (bunzip2 : string -> option string) (fuel : nat).
  Context (index_dir : string) (read_index : string -> option pindex) (gpg_verify : files -> string -> bool).
  Notation update := (update_repo server net parse mirrors authinfo dir_writable writable sha1 bunzip2 fuel index_dir read_index gpg_verify).
  Notation updates := (update_command server net parse mirrors authinfo dir_writable writable sha1 bunzip2 fuel index_dir read_index gpg_verify).
  Notation adds := (add_command server net parse mirrors authinfo dir_writable writable sha1 bunzip2 fuel index_dir read_index gpg_verify).
  Notation chosen names s := (match names with [] => order_of (m_dbs s) | _ => names end).

  (** Wherever update-repo stops, no database has lost, gained or changed anything of another
      repository, of third-party packages or of installed ones, and the list of repositories is the
      same *)
  Theorem C92_update_isolated (names : list string) (force : bool) (s x : machine) : reachable (m_dbs s) -> In x (states (updates names force) s) ->
    all_spared (chosen names s) (m_dbs s) (m_dbs x) /\ db_repo (m_dbs x) = db_repo (m_dbs s).
  Proof.
    intros R H. unfold states in H. rewrite updates_is in H. destruct (update_each server net parse mirrors authinfo dir_writable writable sha1 bunzip2 fuel index_dir read_index gpg_verify force _ s x R H) as (A & B & _). auto.
  Qed.

  (** It updates one repository after the other; if it succeeds each has been updated in its turn *)
  Theorem C92_update_in_turn (names : list string) (force : bool) (s : machine) : result (updates names force) s = Ok tt ->
    forall pre r post, chosen names s = (pre ++ r :: post)%list ->
    let before := final (each (fun r => update r force) pre) s in
    result (update r force) before = Ok tt /\ final (updates names force) s = final (each (fun r => update r force) post) (final (update r force) before).
  Proof. exact (update_in_turn server net parse mirrors authinfo dir_writable writable sha1 bunzip2 fuel index_dir read_index gpg_verify names force s). Qed.

  (** If it fails the first failing update is the last one tried: those before it have taken place,
      and nothing of the others is touched *)
  Theorem C92_update_stops (names : list string) (force : bool) (s : machine) (e : exn) : reachable (m_dbs s) -> result (updates names force) s = Err e ->
    exists pre bad post, chosen names s = (pre ++ bad :: post)%list /\ result (each (fun r => update r force) pre) s = Ok tt /\
      result (update bad force) (final (each (fun r => update r force) pre) s) = Err e /\
      m_dbs (final (updates names force) s) = m_dbs (final (each (fun r => update r force) pre) s) /\ all_spared pre (m_dbs s) (m_dbs (final (updates names force) s)).
  Proof. exact (update_stops server net parse mirrors authinfo dir_writable writable sha1 bunzip2 fuel index_dir read_index gpg_verify names force s e). Qed.

  (** add-repo with a known name or a position outside the list does nothing; otherwise the
      repository is added at its position, wherever the command stops afterwards, and nothing in
      the databases belongs to anyone else.  Without the update no file is touched. *)
  Theorem C92_add (name u : string) (at_ : option Z) (yes : bool) (s : machine) : reachable (m_dbs s) ->
    let possible := ~ In name (order_of (m_dbs s)) /\ match at_ with None => True | Some z => (0 <= z <= Z.of_nat (length (order_of (m_dbs s))))%Z end in
    (~ possible -> exists e, adds [name; u] at_ yes s = ([], Err e)) /\
    (possible -> final (adds [name; u] at_ yes) s <> s /\ (yes = false -> result (adds [name; u] at_ yes) s = Ok tt)) /\
    (forall x, In x (states (adds [name; u] at_ yes) s) -> x = s \/
      (~ In name (order_of (m_dbs s)) /\ all_spared [name] (m_dbs s) (m_dbs x) /\ rd_infos (db_repo (m_dbs x)) = <[name := u]> (rd_infos (db_repo (m_dbs s))) /\
       (yes = false -> m_files x = m_files s) /\
       match at_ with
       | None => order_of (m_dbs x) = (order_of (m_dbs s) ++ [name])%list
       | Some z => exists pre post, order_of (m_dbs s) = (pre ++ post)%list /\ z = Z.of_nat (length pre) /\ order_of (m_dbs x) = (pre ++ name :: post)%list
       end)).
  Proof.
    intros R possible. destruct (adds_final server net parse mirrors authinfo dir_writable writable sha1 bunzip2 fuel index_dir read_index gpg_verify name u at_ yes s R) as [A B].
    split; [exact A|]. split; [exact B|]. intros x. exact (adds_states server net parse mirrors authinfo dir_writable writable sha1 bunzip2 fuel index_dir read_index gpg_verify name u at_ yes s x R).
  Qed.

  (** Without arguments it adds the default repository; with one, or with three and more, it does
      nothing *)
  Theorem C92_add_arguments (args : list string) (at_ : option Z) (yes : bool) (s : machine) :
    (args = [] -> adds args at_ yes s = adds ["pardus-1-test"; "http://paketler.pardus.org.tr/pardus-1-test/pisi-index.xml.bz2"] at_ yes s) /\
    (length args <> 0 -> length args <> 2 -> adds args at_ yes s = ([], Ok tt)).
  Proof.
    split; [intros ->; reflexivity|]. intros A B. destruct args as [|a [|b [|c l]]]; try reflexivity; [now elim A|now elim B].
  Qed.
End claims.
Print Assumptions C92_update_isolated.
Print Assumptions C92_update_in_turn.
Print Assumptions C92_update_stops.
Print Assumptions C92_add.
Print Assumptions C92_add_arguments.

(** remove-repo of plain names always succeeds; exactly the known ones leave the list, the
    databases and the directory of indexes.  Wherever it stops, a file that is gone belonged to a
    named repository which is no longer listed. *)
Theorem C92_remove_partial (ds names : list string) (s : machine) : ds <> [] -> Forall plain_name ds -> reachable (m_dbs s) -> tidy (m_files s) ->
  (forall n, In n names -> In n (order_of (m_dbs s)) -> plain_name n /\ m_files s !! spelt (ds ++ [n]) = None) ->
  let removes := remove_command (spelt ds) names in let s' := final removes s in let d := m_dbs s' in
  result removes s = Ok tt /\
  order_of d = List.filter (fun r => negb (str_in r names)) (order_of (m_dbs s)) /\
  (forall n k, In n names ->
    missing (get_item (order_of d) (db_pkg d) k (RName n)) /\ missing (get_item (order_of d) (db_rev d) k (RName n)) /\ missing (get_item (order_of d) (db_src d) k (RName n)) /\
    missing (get_item (order_of d) (db_p2s d) k (RName n)) /\ missing (get_item (order_of d) (db_comp d) k (RName n))) /\
  (forall n r, In n names -> In n (order_of (m_dbs s)) -> Forall plain_name r -> m_files s' !! spelt (ds ++ n :: r) = None) /\
  (forall x, In x (states removes s) -> all_spared names (m_dbs s) (m_dbs x) /\
    forall q, m_files x !! q = m_files s !! q \/
      exists n r, q = spelt (ds ++ n :: r) /\ In n names /\ In n (order_of (m_dbs s)) /\ ~ In n (order_of (m_dbs x)) /\ m_files x !! q = None).
Proof.
  intros Dn Dp R T P removes s' d. assert (Ft : fits ds names s) by (split; [exact R|split; [exact T|exact P]]). destruct (removes_do ds Dn Dp names s Ft) as (A & B & C & D).
  split; [exact A|]. split; [exact C|]. split; [intros n k I; exact (removed_missing ds Dn Dp names s n k Ft I)|]. split; [exact D|].
  intros x H. destruct (B x H) as [_ _ L1 L2 _]. split; [exact L1|exact L2].
Qed.
Print Assumptions C92_remove_partial.

(** ** A case *)
Definition two_repos : machine := mkMachine ∅ (run_ops [OAddRepo "lost" "http://nowhere/pisi-index.xml.bz2" None; OAddRepo "main" "http://a/pisi-index.xml.bz2" None]).
Definition refresh (names : list string) : prog machine unit :=
  update_command (shown site_now) steady anywhere two_mirrors false (fun _ => true) (fun _ => true) hash unzip 2 "/idx" read_two (fun _ _ => true) names false.
Definition connect (args : list string) (yes : bool) : prog machine unit :=
  add_command (shown site_now) steady anywhere two_mirrors false (fun _ => true) (fun _ => true) hash unzip 2 "/idx" read_two (fun _ _ => true) args (Some 0%Z) yes.

(** "update-repo updates every repository that can be updated": not if one before it cannot *)
Theorem C92_update_all_refuted :
  ~ (forall server net parse mirrors authinfo dir_writable writable sha1 bunzip2 fuel index_dir read_index gpg_verify s r,
      let update := update_repo server net parse mirrors authinfo dir_writable writable sha1 bunzip2 fuel index_dir read_index gpg_verify in
      let updates := update_command server net parse mirrors authinfo dir_writable writable sha1 bunzip2 fuel index_dir read_index gpg_verify in
      reachable (m_dbs s) -> In r (order_of (m_dbs s)) -> result (update r false) s = Ok tt ->
      forall n, missing (get_package (m_dbs (final (updates [] false) s)) n (RName r)) -> missing (get_package (m_dbs (final (update r false) s)) n (RName r))).
Proof.
  intros H.
  specialize (H (shown site_now) steady anywhere two_mirrors false (fun _ => true) (fun _ => true) hash unzip 2%nat "/idx" read_two (fun _ _ => true) two_repos "main"). cbv zeta in H.
  fold (refresh []) in H. fold (fresh_index site_now true false) in H.
  assert (missing (get_package (m_dbs (final (fresh_index site_now true false) two_repos)) "app" (RName "main"))) as [e E].
  { apply H; [apply run_ops_reachable|vm_compute; auto|vm_compute; reflexivity|]. assert (sold (m_dbs (final (refresh []) two_repos)) = false) as F by (vm_compute; reflexivity). unfold sold in F. destruct (get_package _ _ _) as [p|e]; [discriminate F|]. now exists e. }
  assert (sold (m_dbs (final (fresh_index site_now true false) two_repos)) = true) as F by (vm_compute; reflexivity). unfold sold in F. rewrite E in F. discriminate F.
Qed.
Print Assumptions C92_update_all_refuted.

(** "A failing add-repo adds nothing": the repository stays if only the update fails *)
Theorem C92_add_undone_refuted :
  ~ (forall server net parse mirrors authinfo dir_writable writable sha1 bunzip2 fuel index_dir read_index gpg_verify s name u e,
      let adds := add_command server net parse mirrors authinfo dir_writable writable sha1 bunzip2 fuel index_dir read_index gpg_verify in
      reachable (m_dbs s) -> result (adds [name; u] None true) s = Err e -> ~ In name (order_of (m_dbs (final (adds [name; u] None true) s)))).
Proof.
  intros H.
  apply (H (shown site_now) steady anywhere two_mirrors false (fun _ => true) (fun _ => true) hash unzip 2%nat "/idx" read_two (fun _ _ => true) two_repos "far" "http://far/pisi-index.xml.bz2" EFetch); [apply run_ops_reachable|vm_compute; reflexivity|vm_compute; auto].
Qed.
Print Assumptions C92_add_undone_refuted.

(** "remove-repo removes no file outside the directory of indexes": any name is accepted as that of
    a repository, and is joined to the directory *)
Definition careless : machine := mkMachine {[ "/etc/passwd" := "root" ; "/idx/main/pisi-index.xml" := "new" ]} (run_ops [OAddRepo "/etc" "http://a/pisi-index.xml.bz2" None; OAddRepo "../home" "u" None]).
Theorem C92_remove_files_refuted :
  ~ (forall index_dir names s q, reachable (m_dbs s) -> starts (leads index_dir) (leads q) = false -> m_files (final (remove_command index_dir names) s) !! q = m_files s !! q).
Proof.
  intros H. specialize (H "/idx" ["/etc"] careless "/etc/passwd" (run_ops_reachable _) eq_refl).
  assert (m_files careless !! "/etc/passwd" = Some "root") as A by (vm_compute; reflexivity). rewrite A in H.
  assert (m_files (final (remove_command "/idx" ["/etc"]) careless) !! "/etc/passwd" = None) as B by (vm_compute; reflexivity). congruence.
Qed.
Print Assumptions C92_remove_files_refuted.

(** Updating two repositories, one of which is out of reach; adding one; removing *)
Definition ordinary : machine := mkMachine {[ "/idx/main/pisi-index.xml" := "new" ; "/idx/lost/uri" := "u" ; "/idx/others" := "o" ]} (m_dbs (final (refresh ["main"]) two_repos)).
Example C92_nontrivial :
  let outcome := fun (p : prog machine unit) s => (result p s, sold (m_dbs (final p s)), order_of (m_dbs (final p s))) in
  outcome (refresh ["main"]) two_repos = (Ok tt, true, ["lost"; "main"]) /\
  outcome (refresh []) two_repos = (Err EFetch, false, ["lost"; "main"]) /\
  outcome (refresh ["main"; "lost"]) two_repos = (Err EFetch, true, ["lost"; "main"]) /\
  outcome (connect ["new"; "http://a/pisi-index.xml.bz2"] true) two_repos = (Ok tt, false, ["new"; "lost"; "main"]) /\
  outcome (connect ["main"; "http://a/pisi-index.xml.bz2"] true) two_repos = (Err EError, false, ["lost"; "main"]) /\
  outcome (connect ["new"] true) two_repos = (Ok tt, false, ["lost"; "main"]) /\
  outcome (remove_command "/idx" ["main"; "nobody"]) ordinary = (Ok tt, false, ["lost"]) /\
  sold (m_dbs ordinary) = true /\
  map_to_list (m_files (final (remove_command "/idx" ["main"; "nobody"]) ordinary)) = map_to_list ({[ "/idx/lost/uri" := "u" ; "/idx/others" := "o" ]} : files) /\
  get_item (order_of (m_dbs (final (refresh ["main"]) two_repos))) (db_pkg (m_dbs (final (refresh ["main"]) two_repos))) "app" (RName "main") = Ok (v_pkg "app" "1" "1" []).
Proof. cbv zeta. repeat (split; [vm_compute; reflexivity|]). vm_compute. reflexivity. Qed.
(** The hypotheses of [C92_remove_partial] *)
Example C92_remove_nontrivial : reachable (m_dbs ordinary) /\ tidy (m_files ordinary) /\ Forall plain_name ["idx"; "main"; "lost"] /\ spelt ["idx"] = "/idx" /\
  order_of (m_dbs ordinary) = ["lost"; "main"] /\ m_files ordinary !! spelt ["idx"; "main"] = None /\ m_files ordinary !! spelt ["idx"; "lost"] = None.
Proof.
  assert (P : forall c, negb (String.eqb c "") && negb (String.eqb c ".") && negb (String.eqb c "..") && negb (existsb (Ascii.eqb "/"%char) (list_ascii_of_string c)) = true -> plain_name c).
  { intros c H. apply andb_prop in H as [H H4]. apply andb_prop in H as [H H3]. apply andb_prop in H as [H1 H2]. apply negb_true_iff in H1, H2, H3, H4. apply String.eqb_neq in H1, H2, H3. split; [exact H1|]. split; [exact H2|]. split; [exact H3|].
    intros I. assert (existsb (Ascii.eqb "/"%char) (list_ascii_of_string c) = true) by (apply existsb_exists; exists "/"%char; split; [exact I|reflexivity]). congruence. }
  split.
  { cbn [ordinary m_dbs]. unfold refresh. rewrite (proj1 (proj2 (same_at _ _ two_repos (updates_is _ _ _ _ _ _ _ _ _ _ _ _ _ ["main"] false two_repos)))).
    eapply (fun R => proj2 (proj2 (update_each _ _ _ _ _ _ _ _ _ _ _ _ _ false ["main"] two_repos _ R (final_state _ _)))). apply run_ops_reachable. }
  split; [|split; [repeat constructor; apply P; reflexivity|split; [reflexivity|split; [vm_compute; reflexivity|split; vm_compute; reflexivity]]]].
  intros p c H. cbn [ordinary m_files] in H. apply lookup_insert_Some in H as [[<- _]|[_ H]]; [exists ["idx"; "main"; "pisi-index.xml"]; split; [repeat constructor; apply P; reflexivity|split; [discriminate|reflexivity]]|].
  apply lookup_insert_Some in H as [[<- _]|[_ H]]; [exists ["idx"; "lost"; "uri"]; split; [repeat constructor; apply P; reflexivity|split; [discriminate|reflexivity]]|].
  apply lookup_singleton_Some in H as [<- _]. exists ["idx"; "others"]. split; [repeat constructor; apply P; reflexivity|split; [discriminate|reflexivity]].
Qed.
(** A name that leads upwards, and a file where the directory should be *)
Definition upwards : machine := mkMachine {[ "/home/u" := "mine" ; "/idx/main" := "a file" ]} (run_ops [OAddRepo "../home" "u" None; OAddRepo "main" "u" None]).
Example C92_remove_elsewhere :
  m_files (final (remove_command "/idx" ["../home"]) upwards) !! "/home/u" = None /\
  (let p := remove_command "/idx" ["main"] in (result p upwards, order_of (m_dbs (final p upwards)), m_files (final p upwards) !! "/idx/main")) = (Err EOS, ["../home"], Some "a file").
Proof. split; vm_compute; reflexivity. Qed.
