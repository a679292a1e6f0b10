(** * C107: emptying the caches *)
From Coq Require Import String Ascii List Bool.
From stdpp Require Import gmap strings.
From Verif Require Import Model.Py Model.InstallDB Model.Path Model.Fs Model.Trace Model.Actions Model.Archive Model.Cache
  Spec.PathSpec Spec.FsSpec Spec.ActionsSpec Spec.ArchiveSpec Spec.CacheSpec
  Proof.TraceFacts Proof.CacheFacts.
Import ListNotations.
Open Scope string_scope.
Open Scope prog_scope.

(** Three directories, none in another: delete-cache empties and removes them, nothing else is changed,
    and nothing else has been changed when it is stopped on the way. *)
Theorem C107_delete_cache_partial (cwd dest packages archives tmp : string) (user : option string) (writable : string -> bool) (P A S T : string) (f : fs) :
  P = join_path2 dest packages -> A = join_path2 dest archives -> S = join_path2 dest tmp ->
  T = (if writable S then S else match user with Some u => "/tmp/pisi-" ++ u | None => "/tmp/pisi-root" end) ->
  cache_place f P -> cache_place f A -> cache_place f S -> apart P A -> apart P S -> apart A S ->
  writable S = true \/ (f !! S = Some NDir /\ cache_place f T /\ apart P T /\ apart A T) ->
  let p := delete_cache cwd dest packages archives tmp user writable in
  result p f = Ok tt /\ emptied_of [P; A; T] f (final p f) /\
  forall s, In s (states p f) -> same_but (fun q => exists D, In D [P; A; T] /\ at_or_in D q) f s.
Proof.
  intros EP EA ES ET CP CA CS PA PS AS W p.
  destruct (delete_did cwd dest packages archives tmp user writable P A S T EP EA ES ET f CP CA CS PA PS AS W) as (R & F & H). fold p in R, F, H.
  split; [exact R|]. split; [rewrite F; apply rmtree3|]. rewrite List.Forall_forall in H. intros s I q Q. apply (H s I). intros K. apply Q. cbn. destruct K as [K|[K|K]]; eexists; (split; [|exact K]); auto.
Qed.
Print Assumptions C107_delete_cache_partial.

(** A link to a directory in the place of the first of them, as when the cache is on another disk: an error, and nothing is removed. *)
Theorem C107_link_refuted (cwd dest packages archives tmp t : string) (user : option string) (writable : string -> bool) (P : string) (f : fs) :
  P = join_path2 dest packages -> py_rstrip "/" (py_strip P) = P -> os_lstat cwd f P = Some (NLink t) -> e_exists cwd f P = true ->
  let p := delete_cache cwd dest packages archives tmp user writable in
  result p f = Err EOS /\ final p f = f.
Proof.
  intros EP St L E p. unfold os_lstat in L. destruct (locate cwd false f P) as [q|] eqn:Q; [|discriminate].
  assert (C : check_dir cwd P f = ([], Ok tt)) by (unfold check_dir; rewrite ask_eq, St, E; reflexivity).
  assert (K : clean_dir cwd P f = ([], Err EOS)) by (unfold clean_dir; rewrite ask_eq, E; unfold shutil_rmtree; rewrite ask_eq, Q, L; reflexivity).
  assert (Run : p f = ([], Err EOS)).
  { unfold p, delete_cache, subdir. rewrite <- EP. unfold andthen at 1 2. rewrite C. cbn [fst snd List.last app ret]. unfold andthen at 1. cbn [List.last]. now rewrite K. }
  unfold result, final. rewrite Run. split; reflexivity.
Qed.
Print Assumptions C107_link_refuted.

(** ** Small systems *)
Definition caches : fs := list_to_map
  [("/tmp", NDir); ("/var", NDir); ("/var/cache", NDir); ("/var/cache/pisi", NDir);
   ("/var/cache/pisi/packages", NDir); ("/var/cache/pisi/packages/a.pisi", NFile "a"); ("/var/cache/pisi/archives", NDir); ("/var/cache/pisi/archives/k", NLink "/var/lib");
   ("/var/tmp", NDir); ("/var/tmp/pisi", NDir); ("/var/tmp/pisi/b", NDir); ("/var/tmp/pisi/b/x", NFile "x");
   ("/var/lib", NDir); ("/var/lib/kept", NFile "y"); ("/tmp/pisi-ayse", NDir); ("/tmp/pisi-ayse/z", NFile "z");
   ("/data", NDir); ("/data/a.pisi", NFile "a")].
Definition moved_cache : fs := <["/var/cache/pisi/packages" := NLink "/data"]> (delete "/var/cache/pisi/packages/a.pisi" caches).
Definition run (packages archives : string) (w : bool) : prog fs unit := delete_cache "/" "/" packages archives "/var/tmp/pisi" (Some "ayse") (fun _ => w).
Definition usual := run "/var/cache/pisi/packages" "/var/cache/pisi/archives".

(** A link in the place of the second: the packages are gone, the temporary files are not. *)
Theorem C107_half_refuted :
  result (run "/data" "/var/cache/pisi/packages" true) (<["/old" := NDir]> (<["/var/cache/pisi/packages" := NLink "/old"]> (delete "/var/cache/pisi/packages/a.pisi" caches))) = Err EOS /\
  final (run "/data" "/var/cache/pisi/packages" true) (<["/old" := NDir]> (<["/var/cache/pisi/packages" := NLink "/old"]> (delete "/var/cache/pisi/packages/a.pisi" caches))) !! "/data" = None /\
  final (run "/data" "/var/cache/pisi/packages" true) (<["/old" := NDir]> (<["/var/cache/pisi/packages" := NLink "/old"]> (delete "/var/cache/pisi/packages/a.pisi" caches))) !! "/var/tmp/pisi/b/x" = Some (NFile "x").
Proof. vm_compute. repeat split. Qed.
Print Assumptions C107_half_refuted.

(** Directories on the way to those that are missing are made, and stay; and one directory in another brings the outer one back. *)
Theorem C107_made_refuted :
  result (run "/srv/pisi/packages" "/var/cache/pisi/archives" true) caches = Ok tt /\ caches !! "/srv" = None /\
  final (run "/srv/pisi/packages" "/var/cache/pisi/archives" true) caches !! "/srv/pisi" = Some NDir /\
  result (run "/var/cache/pisi" "/var/cache/pisi/archives" true) caches = Ok tt /\
  final (run "/var/cache/pisi" "/var/cache/pisi/archives" true) caches !! "/var/cache/pisi" = Some NDir.
Proof. vm_compute. repeat split. Qed.
Print Assumptions C107_made_refuted.

(** ** The hypotheses are met *)
Lemma caches_stand p rs : rs <> [] -> List.Forall name rs -> p = below "/" rs -> forallb (fun n => bool_decide (caches !! below "/" (firstn (S n) rs) = Some NDir)) (seq 0 (List.length rs)) = true -> stands caches p.
Proof.
  intros N H E B. exists rs. split; [exact N|]. split; [now apply List.Forall_forall|]. split; [exact E|]. intros a b Ea Na.
  rewrite forallb_forall in B. specialize (B (List.length a - 1)%nat). destruct a as [|x a]; [congruence|]. cbn [List.length] in B.
  assert (I : In (S (List.length a) - 1)%nat (seq 0 (List.length rs))) by (apply in_seq; rewrite Ea, app_length; cbn; lia). specialize (B I). apply bool_decide_eq_true in B.
  replace (S (S (List.length a) - 1))%nat with (List.length (x :: a)) in B by (cbn; lia). rewrite Ea, firstn_app, firstn_all, Nat.sub_diag, firstn_O, app_nil_r in B. exact B.
Qed.
Lemma name_ok n : (String.eqb n "" || String.eqb n "." || String.eqb n ".." || char_in "/" n) = false -> name n.
Proof.
  rewrite !orb_false_iff, !String.eqb_neq. intros (((A & B) & C) & D). repeat split; try assumption. intros K. apply (proj2 (Proof.PyFacts.char_in_iff _ _)) in K. congruence.
Qed.
Lemma not_in_other D E : under D E = false -> under E D = false -> apart D E.
Proof. intros A B. split; intros K; apply Proof.ActionsMove.under_spec in K; congruence. Qed.
Lemma no_blank s c : is_space c = false -> ~ ends_blank (s ++ String c "").
Proof.
  intros H (r & d & E & K). assert (c = d); [|congruence]. revert r E. induction s as [|x s IH]; intros [|y r] E; cbn in E.
  - now injection E.
  - injection E as _ E. now destruct r.
  - injection E as _ E. now destruct s.
  - injection E as _ E. exact (IH r E).
Qed.

Example C107_nontrivial :
  cache_place caches "/var/cache/pisi/packages" /\ cache_place caches "/var/cache/pisi/archives" /\ cache_place caches "/var/tmp/pisi" /\ cache_place caches "/tmp/pisi-ayse" /\
  apart "/var/cache/pisi/packages" "/var/cache/pisi/archives" /\ apart "/var/cache/pisi/packages" "/var/tmp/pisi" /\ apart "/var/cache/pisi/archives" "/var/tmp/pisi" /\ apart "/var/cache/pisi/archives" "/tmp/pisi-ayse" /\
  join_path2 "/" "/var/cache/pisi/packages" = "/var/cache/pisi/packages" /\
  result (usual true) caches = Ok tt /\ final (usual true) caches !! "/var/cache/pisi/packages/a.pisi" = None /\ final (usual true) caches !! "/var/tmp/pisi/b/x" = None /\ final (usual true) caches !! "/var/lib/kept" = Some (NFile "y") /\ final (usual true) caches !! "/tmp/pisi-ayse/z" = Some (NFile "z") /\
  final (usual false) caches !! "/var/tmp/pisi/b/x" = Some (NFile "x") /\ final (usual false) caches !! "/tmp/pisi-ayse/z" = None /\
  result (usual true) moved_cache = Err EOS /\ os_lstat "/" moved_cache "/var/cache/pisi/packages" = Some (NLink "/data") /\ e_exists "/" moved_cache "/var/cache/pisi/packages" = true.
Proof.
  split; [split; [exists "/var/cache/pisi", "packages"; split; [apply (caches_stand _ ["var"; "cache"; "pisi"]); [discriminate|repeat constructor; now apply name_ok|reflexivity|vm_compute; reflexivity]|split; [now apply name_ok|reflexivity]]|split; [now apply (no_blank "/var/cache/pisi/package" "s")|left; vm_compute; reflexivity]]|].
  split; [split; [exists "/var/cache/pisi", "archives"; split; [apply (caches_stand _ ["var"; "cache"; "pisi"]); [discriminate|repeat constructor; now apply name_ok|reflexivity|vm_compute; reflexivity]|split; [now apply name_ok|reflexivity]]|split; [now apply (no_blank "/var/cache/pisi/archive" "s")|left; vm_compute; reflexivity]]|].
  split; [split; [exists "/var/tmp", "pisi"; split; [apply (caches_stand _ ["var"; "tmp"]); [discriminate|repeat constructor; now apply name_ok|reflexivity|vm_compute; reflexivity]|split; [now apply name_ok|reflexivity]]|split; [now apply (no_blank "/var/tmp/pis" "i")|left; vm_compute; reflexivity]]|].
  split; [split; [exists "/tmp", "pisi-ayse"; split; [apply (caches_stand _ ["tmp"]); [discriminate|repeat constructor; now apply name_ok|reflexivity|vm_compute; reflexivity]|split; [now apply name_ok|reflexivity]]|split; [now apply (no_blank "/tmp/pisi-ays" "e")|left; vm_compute; reflexivity]]|].
  split; [now apply not_in_other|]. split; [now apply not_in_other|]. split; [now apply not_in_other|]. split; [now apply not_in_other|].
  vm_compute. repeat split.
Qed.
