(** * C46, C47, C62: opening and rebuilding the databases *)
From Coq Require Import String Ascii ZArith List Bool.
From stdpp Require Import gmap strings.
From Verif Require Import Model.Py Model.Version Model.Path Model.Rebuild Spec.VersionSpec Spec.PathSpec Spec.RebuildSpec
  Proof.PyFacts Proof.PathFacts Proof.RebuildFacts Proof.RebuildTop Proof.RebuildDb Proof.RebuildLoss.
Require Import Verif.Prop.PathProps.
Import ListNotations.
Open Scope string_scope.

(** A machine for the examples: the contents of a database are the names recorded in it *)
Definition machine (stamps : list (string * string)) (dbs : list (string * list string)) (dirs : list string) (held : bool) : home (list string) :=
  mkHome _ (list_to_map stamps) (list_to_map dbs) dirs [] true true held.
Definition stamped : list (string * string) := [("dbversion", "1.1.2"); ("filesdbversion", "1.1.2")].

(** ** C46 *)

(** When the cleaning succeeds: exactly one directory per package name is left, it was there at
    every moment, and no directory there was had a newer version in its name, "version" being the
    whole text after the package name.  Missing: that text runs version, release and build number
    together. *)
Theorem C46_newest_text_kept_partial (D : Type) (h : home D) : NoDup (h_dirs D h) -> snd (clean_duplicates D h) = Ok tt ->
  (exists l, final D (clean_duplicates D) h = set_dirs D h l) /\
  (forall d, In d (h_dirs D (final D (clean_duplicates D) h)) -> In d (h_dirs D h)) /\
  (forall d, In d (h_dirs D h) -> exists n v, directory_of d n v) /\
  forall d n v, In d (h_dirs D h) -> directory_of d n v ->
  exists k w, directory_of k n w /\
    (forall d', (In d' (h_dirs D (final D (clean_duplicates D) h)) /\ exists v', directory_of d' n v') <-> d' = k) /\
    (forall s, In s (fst (clean_duplicates D h)) -> In k (h_dirs D s)) /\
    (forall d' v', In d' (h_dirs D h) -> directory_of d' n v' -> d' = k \/ readable_version v' /\ readable_version w /\ ~ newer v' w).
Proof. exact (clean_outcome h). Qed.
Print Assumptions C46_newest_text_kept_partial.

(** It succeeds exactly when every directory is named like a package and the version texts of
    packages with more than one directory can be read; otherwise nothing is removed. *)
Theorem C46_succeeds_iff (D : Type) (h : home D) : NoDup (h_dirs D h) ->
  ((snd (clean_duplicates D h) = Ok tt) <->
   (forall d, In d (h_dirs D h) -> exists n v, directory_of d n v) /\
   forall d d' n v v', In d (h_dirs D h) -> In d' (h_dirs D h) -> d <> d' -> directory_of d n v -> directory_of d' n v' -> readable_version v).
Proof. exact (clean_ok_iff h). Qed.
Print Assumptions C46_succeeds_iff.
Theorem C46_all_or_nothing (D : Type) (h : home D) (e : exn) :
  snd (clean_duplicates D h) = Err e -> final D (clean_duplicates D) h = h.
Proof. intros H. unfold final. now rewrite (clean_err_states h e H). Qed.
Print Assumptions C46_all_or_nothing.

(** A directory name does not say which package it belongs to in two ways *)
Theorem C46_names_are_clear (d n v n' v' : string) : directory_of d n v -> directory_of d n' v' -> n = n' /\ v = v'.
Proof. exact (directory_fun d n v n' v'). Qed.
Print Assumptions C46_names_are_clear.

(** foo 1.0 release 5 and foo 1.0.1 release 2: 1.0.1 is the newer version, and goes.  foo 2.0
    release 3 and foo 1.9 release 4 (upstream went back): release 4 is the newer package, and goes. *)
Theorem C46_newest_refuted :
  newer "1.0.1" "1.0" /\
  h_dirs _ (final _ (clean_duplicates _) (machine [] [] [package_name "foo" "1.0" "5" None false; package_name "foo" "1.0.1" "2" None false] false)) =
    [package_name "foo" "1.0" "5" None false] /\
  h_dirs _ (final _ (clean_duplicates _) (machine [] [] [package_name "foo" "2.0" "3" None false; package_name "foo" "1.9" "4" None false] false)) =
    [package_name "foo" "2.0" "3" None false].
Proof.
  split; [|split; vm_compute; reflexivity].
  destruct (parse_version "1.0.1") as [a|] eqn:A; [|discriminate]. destruct (parse_version "1.0") as [b|] eqn:B; [|discriminate].
  apply (gt_newer _ _ _ _ A B). vm_compute in A, B. injection A as <-. injection B as <-. reflexivity.
Qed.
Print Assumptions C46_newest_refuted.

(** A directory whose version cannot be read stops the whole rebuild when it has a twin *)
Example C46_nontrivial :
  let h := machine [] [] ["bash-3.1-1"; "scripts"; "bash-3.1-3"; "zlib-1.2.3-4"; "bash-3.1-2"] false in
  NoDup (h_dirs _ h) /\ snd (clean_duplicates _ h) = Ok tt /\
  h_dirs _ (final _ (clean_duplicates _) h) = ["scripts"; "bash-3.1-3"; "zlib-1.2.3-4"] /\
  List.length (fst (clean_duplicates _ h)) = 2%nat /\
  snd (clean_duplicates _ (machine [] [] ["bash-3.1-1"; "bash-3.x-2"] false)) = Err EValue.
Proof. split; [apply (bool_decide_eq_true_1 _); reflexivity|]. repeat split; vm_compute; reflexivity. Qed.

(** ** C47 *)

(** Whether the databases can be opened, in each mode *)
Theorem C47_opens_iff (D : Type) (write update : bool) (h : home D) :
  snd (init_dbenv D write update h) = Ok tt <->
  h_readable D h = true /\
  acceptable "1.1.2" write update (h_writable D h) (h_stamps D h !! "dbversion") /\
  acceptable "1.1.2" write update (h_writable D h) (h_stamps D h !! "filesdbversion") /\
  (write = true -> h_writable D h = true /\ h_held D h = false).
Proof. exact (init_ok write update h). Qed.
Print Assumptions C47_opens_iff.

(** The check of one stamp: what it answers in each case *)
Theorem C47_stamp_checked (D : Type) (f ver : string) (write update : bool) (h : home D) : readable_version ver ->
  (snd (check_dbversion D f ver write update h) = Ok tt <-> acceptable ver write update (h_writable D h) (h_stamps D h !! f)) /\
  forall c, h_stamps D h !! f = Some c ->
    (stamp_newer c ver -> check_dbversion D f ver write update h = ([], Err EError)) /\
    (stamp_older c ver -> update = false -> check_dbversion D f ver write update h = ([], Err EError)) /\
    (stamp_same c ver -> update = false -> check_dbversion D f ver write update h = ([], Ok tt)) /\
    (stamp_unreadable c -> check_dbversion D f ver write update h = ([], Err EValue)) /\
    (c = "" -> check_dbversion D f ver write update h = ([], Err EIndex)) /\
    (c = "" \/ stamp_unreadable c \/ stamp_older c ver \/ stamp_same c ver \/ stamp_newer c ver).
Proof.
  intros R. split; [exact (check_ok h f ver write update R)|]. intros c E. split; [exact (check_newer h f ver write update c E)|].
  split; [intros O ->; exact (check_older h f ver write false c E O)|]. split; [intros S ->; exact (check_same h f ver write false c E S)|].
  split; [exact (check_unreadable h f ver write update c E)|]. split; [intros ->; exact (check_empty h f ver write update E)|exact (stamp_cases c ver R)].
Qed.
Print Assumptions C47_stamp_checked.

(** Only writers stamp, and only those that were asked to update or found no stamp; nothing else
    changes, at any moment *)
Theorem C47_only_writers_stamp (D : Type) (write update : bool) (h s : home D) : In s (fst (init_dbenv D write update h)) ->
  write = true /\ h_writable D h = true /\ (exists m, s = set_stamps D h m) /\
  forall f, h_stamps D s !! f = h_stamps D h !! f \/
    (f = "dbversion" \/ f = "filesdbversion") /\ (h_stamps D s !! f = Some "" \/ h_stamps D s !! f = Some "1.1.2") /\
    (h_stamps D h !! f = None \/ update = true).
Proof. exact (init_states write update h s). Qed.
Print Assumptions C47_only_writers_stamp.

(** The stamps after opening *)
Theorem C47_stamps_after (D : Type) (write update : bool) (h : home D) : snd (init_dbenv D write update h) = Ok tt ->
  (exists m, final D (init_dbenv D write update) h = set_stamps D h m) /\
  forall f, h_stamps D (final D (init_dbenv D write update) h) !! f =
    if bool_decide (f = "dbversion" \/ f = "filesdbversion") then
      match h_stamps D h !! f with Some c => Some (if update then "1.1.2" else c) | None => Some "1.1.2" end
    else h_stamps D h !! f.
Proof. exact (init_final write update h). Qed.
Print Assumptions C47_stamps_after.

(** A missing stamp: readers are refused *)
Theorem C47_missing_stamp_refuted (D : Type) (update : bool) (h : home D) : h_stamps D h !! "dbversion" = None ->
  snd (init_dbenv D false update h) <> Ok tt.
Proof.
  intros E H. apply init_ok in H as (_ & A & _). rewrite E in A. destruct A as [(c & ? & _)|(? & _)]; discriminate.
Qed.
Print Assumptions C47_missing_stamp_refuted.

(** A writer that is refused because another one is at work has stamped the databases all the
    same: old databases now carry the new version *)
Theorem C47_stamped_without_lock_refuted :
  let h := machine [("dbversion", "1.1"); ("filesdbversion", "1.1")] [("install.bdb", ["old format"])] [] true in
  snd (init_dbenv _ true false h) = Err EError /\
  snd (init_dbenv _ true true h) = Err EError /\
  h_stamps _ (final _ (init_dbenv _ true true) h) !! "dbversion" = Some "1.1.2" /\
  h_stamps _ (final _ (init_dbenv _ true true) h) !! "filesdbversion" = Some "1.1.2" /\
  snd (init_dbenv _ false false (final _ (init_dbenv _ true true) h)) = Ok tt.
Proof. repeat split; vm_compute; reflexivity. Qed.
Print Assumptions C47_stamped_without_lock_refuted.

(** Stopped while it stamps, it leaves a stamp nothing can open any more, not even to update it:
    first, every stamping passes through such a state; second, what that means *)
Theorem C47_empty_stamp_refuted (D : Type) (h : home D) :
  (h_readable D h = true -> h_writable D h = true -> h_stamps D h !! "dbversion" = None ->
   exists s, In s (fst (init_dbenv D true false h)) /\ h_stamps D s !! "dbversion" = Some "") /\
  (forall s write update, h_stamps D s !! "dbversion" = Some "" -> h_readable D s = true ->
   init_dbenv D write update s = ([], Err EIndex)).
Proof.
  split.
  - intros R W E. exists (stamp_with h "dbversion" ""). split; [|cbn; apply lookup_insert].
    rewrite init_dbenv_eq, R.
    assert (C : snd (check_dbversion D "dbversion" "1.1.2" true false h) = Ok tt).
    { apply check_ok; [apply readable_112|]. right. auto. }
    rewrite (andthen_ok _ _ _ _ C). cbn [fst]. apply in_app_iff. left. rewrite (check_missing h "dbversion" "1.1.2" true false E).
    unfold stamping. rewrite W. now left.
  - intros s write update E R. rewrite init_dbenv_eq, R. pose proof (check_empty s "dbversion" "1.1.2" write update E) as C.
    rewrite (andthen_err _ _ _ EIndex) by now rewrite C. now rewrite C.
Qed.
Print Assumptions C47_empty_stamp_refuted.

Example C47_nontrivial :
  stamp_same "1.1.2" "1.1.2" /\
  snd (init_dbenv _ false false (machine stamped [] [] true)) = Ok tt /\
  snd (init_dbenv _ true false (machine stamped [] [] false)) = Ok tt /\
  snd (init_dbenv _ true false (machine stamped [] [] true)) = Err EError /\
  snd (init_dbenv _ true false (machine [] [] [] false)) = Ok tt /\
  snd (init_dbenv _ true true (machine [("dbversion", "1.1.3"); ("filesdbversion", "1.1.2")] [] [] false)) = Err EError /\
  snd (init_dbenv _ true false (machine [("dbversion", "1.0"); ("filesdbversion", "1.1.2")] [] [] false)) = Err EError /\
  snd (init_dbenv _ true true (machine [("dbversion", "1.0"); ("filesdbversion", "1.1.2")] [] [] false)) = Ok tt.
Proof. split; [exact same_112|]. repeat split; vm_compute; reflexivity. Qed.

(** ** C62 *)

(** [listing] is os.listdir(db_dir), [add_repo] what adding a repository does. *)

(** A rebuild that is refused leaves the databases and the package directories alone. *)
Theorem C62_refused_keeps (D : Type) (blank : D) listing add_repo (files : bool) (h : home D) (e : exn) :
  snd (init_dbenv D true true h) = Err e ->
  snd (rebuild_db D blank listing add_repo files h) = Err e /\
  forall s, In s (fst (rebuild_db D blank listing add_repo files h)) -> h_dbs D s = h_dbs D h /\ h_dirs D s = h_dirs D h.
Proof. exact (rebuild_refused blank listing add_repo files h e). Qed.
Print Assumptions C62_refused_keeps.

(** A rebuild that starts on a machine with any package installed fails, and leaves every database
    but the one of files new and empty. *)
Theorem C62_forgets_refuted (D : Type) (blank : D) listing add_repo (files : bool) (h : home D) :
  (forall m n x, m !! n = Some x -> In n (listing m)) -> NoDup (h_dirs D h) ->
  snd (init_dbenv D true true h) = Ok tt -> (exists d, In d (h_dirs D h) /\ d <> "scripts") ->
  (exists e, snd (rebuild_db D blank listing add_repo files h) = Err e) /\
  forall n, In n ["repo.bdb"; "install.bdb"; "configpending.bdb"; "component.bdb"; "package.bdb"; "revdep.bdb";
                  "source.bdb"; "pkgtosrc.bdb"; "ii-summary-en.bdb"; "ii-summary-tr.bdb"; "ii-description-en.bdb"; "ii-description-tr.bdb"] ->
    h_dbs D (final D (rebuild_db D blank listing add_repo files) h) !! n = Some blank.
Proof.
  intros Ls ND H Ex. destruct (rebuild_forgets blank listing add_repo files h Ls ND H Ex) as (E & B). split; [exact E|].
  intros n Hn. apply B.
  - cbn in Hn. repeat (destruct Hn as [<-|Hn]; [cbn; auto 20|]). easy.
  - cbn in Hn. repeat (destruct Hn as [<-|Hn]; [reflexivity|]). easy.
Qed.
Print Assumptions C62_forgets_refuted.

(** The database of files survives, unless asked for or stamped with another version.  Missing:
    everything else, see above. *)
Theorem C62_files_kept_partial (D : Type) (blank : D) listing add_repo (files : bool) (h : home D) (x : D) :
  (forall m n x, m !! n = Some x -> In n (listing m)) ->
  (forall r h', h_dbs D (final D (add_repo r) h') !! "files.bdb" = h_dbs D h' !! "files.bdb") -> NoDup (h_dirs D h) ->
  files = false -> (exists c, h_stamps D h !! "filesdbversion" = Some c /\ stamp_same c "1.1.2") ->
  h_dbs D h !! "files.bdb" = Some x ->
  h_dbs D (final D (rebuild_db D blank listing add_repo files) h) !! "files.bdb" = Some x.
Proof.
  intros Ls Ra ND Fl St Hx. apply rebuild_spares; try assumption.
  destruct (files_wanted files h) eqn:W; [|reflexivity]. apply files_wanted_iff in W as [W|W]; [congruence|contradiction].
Qed.
Print Assumptions C62_files_kept_partial.

(** Without packages and repositories it succeeds. *)
Theorem C62_nothing_to_do (D : Type) (blank : D) listing add_repo (files : bool) (h : home D) :
  (forall m n x, m !! n = Some x -> In n (listing m)) -> NoDup (h_dirs D h) ->
  snd (init_dbenv D true true h) = Ok tt -> (forall d, In d (h_dirs D h) -> d = "scripts") -> h_index D h = [] ->
  snd (rebuild_db D blank listing add_repo files h) = Ok tt.
Proof. exact (rebuild_nothing blank listing add_repo files h). Qed.
Print Assumptions C62_nothing_to_do.

Definition plain_listing (m : gmap string (list string)) : list string := (map_to_list m).*1.
Lemma plain_listing_ok m n x : m !! n = Some x -> In n (plain_listing m).
Proof. intros H. apply elem_of_list_In, elem_of_list_fmap. exists (n, x). split; [reflexivity|]. now apply elem_of_map_to_list. Qed.
Definition no_repo (r : string) : prog (list string) unit := raise _ EOS.

Example C62_nontrivial :
  let h := machine stamped [("install.bdb", ["bash"; "zlib"]); ("files.bdb", ["/bin/bash"])] ["bash-3.1-3"; "zlib-1.2.3-4"] false in
  let after := final _ (rebuild_db _ [] plain_listing no_repo false) h in
  snd (rebuild_db _ [] plain_listing no_repo false h) = Err EAttribute /\
  h_dbs _ after !! "install.bdb" = Some [] /\ h_dbs _ after !! "files.bdb" = Some ["/bin/bash"] /\
  h_dirs _ after = h_dirs _ h.
Proof. repeat split; vm_compute; reflexivity. Qed.
