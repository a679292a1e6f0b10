(** * C104: manual pages, and documentation under another name, in action scripts *)
From Coq Require Import String Ascii ZArith List Bool.
From stdpp Require Import gmap strings.
From Verif Require Import Model.Py Model.InstallDB Model.Path Model.Fs Model.Trace Model.Actions Model.Manual
  Spec.PathSpec Spec.FsSpec Spec.ActionsSpec Spec.DocumentsSpec Spec.ManualSpec
  Proof.FsChecks Proof.ActionsPaths Proof.ActionsFacts Proof.ActionsTop Proof.ActionsExact Proof.StripFacts Proof.DocumentsFacts Proof.ManualFacts Proof.ManualNew.
Import ListNotations.
Open Scope string_scope.

(** Any number of patterns, any number of matches each; every match has a section *)
Theorem C104_doman (cwd root : string) (expand : fs -> string -> list string) (runs : string -> fs -> bool) (f : fs) (l : list string) (r : list (string * string * option string)) :
  (forall p g, runs p g = true) -> tree f -> stands f root -> manual_room root r f ->
  collected (pattern cwd root f expand (as_page cwd root f)) l r ->
  result (doman cwd root false expand runs l) f = Ok tt /\ manuals root r f (final (doman cwd root false expand runs l) f).
Proof. exact (doman_exact cwd root expand runs f l r). Qed.
Print Assumptions C104_doman.

(** A match without any dot in it is an error, wherever it is among the arguments and matches. *)
Theorem C104_doman_refuses (cwd root : string) (expand : fs -> string -> list string) (runs : string -> fs -> bool) (f : fs) (l : list string) (s : string) (more ps : list string) (p : string) (qs : list string)
    (a b : list (string * string * option string)) :
  (forall p g, runs p g = true) -> tree f -> stands f root -> manual_room root (a ++ b) f ->
  collected (pattern cwd root f expand (as_page cwd root f)) l a ->
  always root f (fun g => glob cwd expand g s = (ps ++ p :: qs)%list) -> collected (as_page cwd root f) ps b -> free_of "." p ->
  result (doman cwd root false expand runs (l ++ s :: more)) f = Err EError.
Proof. exact (doman_refuses cwd root expand runs f l s more ps p qs a b). Qed.
Print Assumptions C104_doman_refuses.

(** One page under another name: a copy of it is in the current directory, and in its section *)
Theorem C104_newman_partial (cwd root : string) (expand : fs -> string -> list string) (runs : string -> fs -> bool) (f : fs) (s d c sec : string) :
  (forall p g, runs p g = true) -> tree f -> stands f cwd -> stands f root -> ~ beneath root (below cwd [d]) ->
  name d -> has_magic d = false -> of_section d sec ->
  has_magic s = false -> os_lstat cwd f s = Some (NFile c) -> locate cwd true f s <> Some (below cwd [d]) ->
  f !! below cwd [d] = None \/ (exists c', f !! below cwd [d] = Some (NFile c')) -> manual_room root [(sec, d, Some c)] f ->
  result (newman cwd root false expand runs s d) f = Ok tt /\
  manuals root [(sec, d, Some c)] (<[below cwd [d] := NFile c]> f) (final (newman cwd root false expand runs s d) f).
Proof.
  intros Rn Tr Sc Sr Out Nd Md Os Ms Ls Ap Fr Rm. destruct (stands_root root f Sr) as (_ & R1 & R2 & _).
  now apply (newman_exact cwd root expand f s d c).
Qed.
Print Assumptions C104_newman_partial.

(** From the source directory: one file under another name, in the documentation directory or
    below it.  [g] is what there was, with the copy and the directories. *)
Theorem C104_newdoc_partial (cwd root tag : string) (expand : fs -> string -> list string) (runs : string -> fs -> bool) (f : fs) (s d c : string) (ds : list string) :
  (forall p g, runs p g = true) -> tree f -> stands f cwd -> stands f root -> ~ beneath root (below cwd [basename d]) ->
  name (basename d) -> has_magic (below cwd [basename d]) = false -> name tag -> means (dirname d) ds ->
  has_magic s = false -> os_lstat cwd f s = Some (NFile c) -> locate cwd true f s <> Some (below cwd [basename d]) ->
  f !! below cwd [basename d] = None \/ (exists c', f !! below cwd [basename d] = Some (NFile c')) ->
  passable root (["usr"; "share"; "doc"; tag] ++ ds) f -> f !! below root (["usr"; "share"; "doc"; tag] ++ ds ++ [basename d]) <> Some NDir ->
  result (newdoc cwd root cwd tag false expand runs s d) f = Ok tt /\
  exists g, with_dirs root (["usr"; "share"; "doc"; tag] ++ ds) (<[below cwd [basename d] := NFile c]> f) g /\
    final (newdoc cwd root cwd tag false expand runs s d) f !! below root (["usr"; "share"; "doc"; tag] ++ ds ++ [basename d]) = Some (NFile c) /\
    forall q, q <> below root (["usr"; "share"; "doc"; tag] ++ ds ++ [basename d]) -> final (newdoc cwd root cwd tag false expand runs s d) f !! q = g !! q.
Proof. exact (newdoc_exact cwd root tag expand runs f s d c ds). Qed.
Print Assumptions C104_newdoc_partial.

(** ** A small build *)
Definition sources : fs :=
  {[ "/r" := NDir; "/w" := NDir; "/w/a.1" := NFile "a"; "/w/b.3" := NFile "b"; "/w/m" := NDir; "/w/m/a.1" := NFile "other"; "/w/foo.man" := NFile "foo";
     "/w/doc.d" := NDir; "/w/doc.d/foo" := NFile "plain"; "/w/e" := NDir ]}.
Definition start : fs := <["/r/usr" := NDir]> sources.
Definition matched : fs -> string -> list string := fun _ p => if String.eqb p "*.[13]" then ["a.1"; "b.3"] else [].
Definition works : string -> fs -> bool := fun _ _ => true.

(** A page whose own name has no section is not refused when its directory's name has a dot. *)
Theorem C104_section_refuted :
  (forall sec, ~ of_section "doc.d/foo" sec) /\ result (doman "/w" "/r" false matched works ["doc.d/foo"]) start = Ok tt /\
  final (doman "/w" "/r" false matched works ["doc.d/foo"]) start !! "/r/usr/share/man/mand/foo/foo" = Some (NFile "plain").
Proof.
  split; [|vm_compute; split; reflexivity]. intros sec Os. destruct (section_iff _ _ Os) as [E F]. vm_compute in E. injection E as <-. apply F. cbn. tauto.
Qed.
Print Assumptions C104_section_refuted.
(** newdoc makes its copy in the current directory and looks for it in the source directory: from
    another directory nothing is installed, or a file of the same name there is, without an error. *)
Theorem C104_newdoc_refuted :
  result (newdoc "/w/e" "/r" "/w" "t" false matched works "/w/foo.man" "README") start = Ok tt /\
  final (newdoc "/w/e" "/r" "/w" "t" false matched works "/w/foo.man" "README") start !! "/w/e/README" = Some (NFile "foo") /\
  final (newdoc "/w/e" "/r" "/w" "t" false matched works "/w/foo.man" "README") start !! "/r/usr/share/doc/t/README" = None /\
  result (newdoc "/w/e" "/r" "/w" "t" false matched works "/w/foo.man" "a.1") start = Ok tt /\
  final (newdoc "/w/e" "/r" "/w" "t" false matched works "/w/foo.man" "a.1") start !! "/r/usr/share/doc/t/a.1" = Some (NFile "a").
Proof. vm_compute. repeat split. Qed.
Print Assumptions C104_newdoc_refuted.
(** A page that already has the name cannot be installed under it. *)
Theorem C104_newman_itself_refuted :
  result (newman "/w" "/r" false matched works "a.1" "a.1") start = Err EValue /\ final (newman "/w" "/r" false matched works "a.1" "a.1") start = start.
Proof. split; vm_compute; reflexivity. Qed.
Print Assumptions C104_newman_itself_refuted.

(** The hypotheses are met. *)
Lemma start_there g : same_but (beneath "/r") start g -> forall x m, sources !! x = Some m -> g !! x = Some m.
Proof.
  intros Sg x m X.
  assert (B : forallb (fun kv : string * node => negb (py_startswith kv.1 "/r/")) (map_to_list sources) = true) by (vm_compute; reflexivity).
  rewrite forallb_forall in B. specialize (B (x, m)). rewrite <- elem_of_list_In, elem_of_map_to_list in B. specialize (B X). cbn [fst] in B.
  assert (N : ~ beneath "/r" x). { intros [r ->]. destruct r; discriminate B. }
  rewrite (Sg x N). unfold start. rewrite lookup_insert_ne; [exact X|]. intros <-. discriminate B.
Qed.
Lemma start_still p n : os_stat "/w" sources p = Some n -> always "/r" start (fun g => os_stat "/w" g p = Some n).
Proof. intros E g Sg. apply (stat_mono "/w" sources g p n); [|exact E]. exact (start_there g Sg). Qed.
Lemma start_still_l p n : os_lstat "/w" sources p = Some n -> always "/r" start (fun g => os_lstat "/w" g p = Some n).
Proof. intros E g Sg. apply (lstat_mono "/w" sources g p n); [|exact E]. exact (start_there g Sg). Qed.
Example C104_nontrivial :
  tree start /\ stands start "/r" /\ stands start "/w" /\
  collected (pattern "/w" "/r" start matched (as_page "/w" "/r" start)) ["*.[13]"; "m/a.1"] [("1", "a.1", Some "a"); ("3", "b.3", Some "b"); ("1", "m/a.1", Some "other")] /\
  manual_room "/r" [("1", "a.1", Some "a"); ("3", "b.3", Some "b"); ("1", "m/a.1", Some "other")] start /\
  final (doman "/w" "/r" false matched works ["*.[13]"; "m/a.1"]) start !! "/r/usr/share/man/man1/a.1" = Some (NFile "other") /\
  final (doman "/w" "/r" false matched works ["*.[13]"; "m/a.1"]) start !! "/r/usr/share/man/man3/b.3" = Some (NFile "b") /\
  ~ beneath "/r" (below "/w" ["c.1"]) /\ name "c.1" /\ of_section "c.1" "1" /\ os_lstat "/w" start "foo.man" = Some (NFile "foo") /\ locate "/w" true start "foo.man" <> Some (below "/w" ["c.1"]) /\
  start !! below "/w" ["c.1"] = None /\ manual_room "/r" [("1", "c.1", Some "foo")] start /\
  final (newman "/w" "/r" false matched works "foo.man" "c.1") start !! "/r/usr/share/man/man1/c.1" = Some (NFile "foo") /\
  ~ beneath "/r" (below "/w" [basename "api/README"]) /\ name (basename "api/README") /\ has_magic (below "/w" [basename "api/README"]) = false /\ name "t" /\ means (dirname "api/README") ["api"] /\ means (dirname "README") [] /\
  locate "/w" true start "foo.man" <> Some (below "/w" [basename "api/README"]) /\ start !! below "/w" [basename "api/README"] = None /\
  passable "/r" ["usr"; "share"; "doc"; "t"; "api"] start /\ start !! below "/r" ["usr"; "share"; "doc"; "t"; "api"; basename "api/README"] = None /\
  final (newdoc "/w" "/r" "/w" "t" false matched works "foo.man" "api/README") start !! "/r/usr/share/doc/t/api/README" = Some (NFile "foo") /\
  final (newdoc "/w" "/r" "/w" "t" false matched works "foo.man" "README") start !! "/r/usr/share/doc/t/README" = Some (NFile "foo") /\
  always "/r" start (fun g => glob "/w" matched g "e" = ([] ++ "e" :: [])%list) /\ free_of "." "e".
Proof.
  assert (Nm : forall n, In n ["a.1"; "b.3"; "c.1"] -> name n) by now apply names_b.
  assert (Sec : forall d n s, (d = "" \/ ends_in_slash d) -> free_of "/" n -> In s ["1"; "3"] -> of_section (d ++ n ++ "." ++ s) s).
  { intros d n s D F I. exists d, n. split; [reflexivity|]. split; [exact D|]. split; [exact F|]. destruct I as [<-|[<-|[]]]; split; intros [X|[]]; discriminate X. }
  assert (Fn : forall n, In n ["a"; "b"; "c"] -> free_of "/" n) by (intros n [<-|[<-|[<-|[]]]] [X|[]]; discriminate X).
  assert (Pa : forall s, In s ["1"; "3"] -> passable "/r" (section_dir s) start) by (intros s [<-|[<-|[]]]; apply passable_b_ok; vm_compute; reflexivity).
  assert (Pm : passable "/r" ["usr"; "share"; "man"] start) by (apply passable_b_ok; vm_compute; reflexivity).
  split; [apply tree_check_ok; vm_compute; reflexivity|]. split; [apply (stands_b_ok start ["r"]); vm_compute; reflexivity|]. split; [apply (stands_b_ok start ["w"]); vm_compute; reflexivity|].
  split.
  { apply (col_cons _ "*.[13]" ["m/a.1"] [_; _] [_]).
    - exists ["a.1"; "b.3"]. split; [intros g _; reflexivity|]. apply (col_cons _ "a.1" _ [_] [_]); [apply a_page; [apply (Sec "" "a" "1"); [now left|apply Fn; cbn; tauto|cbn; tauto]|apply start_still; vm_compute; reflexivity]|].
      apply (col_cons _ "b.3" _ [_] []); [apply a_page; [apply (Sec "" "b" "3"); [now left|apply Fn; cbn; tauto|cbn; tauto]|apply start_still; vm_compute; reflexivity]|constructor].
    - apply (col_cons _ "m/a.1" [] [_] []); [|constructor]. exists ["m/a.1"]. assert (L : always "/r" start (fun g => os_lstat "/w" g "m/a.1" = Some (NFile "other"))) by (apply start_still_l; vm_compute; reflexivity).
      split; [intros g Sg; unfold glob, e_lexists; change (has_magic "m/a.1") with false; now rewrite (L g Sg)|]. apply (col_cons _ "m/a.1" [] [_] []); [|constructor].
      apply a_page; [apply (Sec "m/" "a" "1"); [right; now exists "m"|apply Fn; cbn; tauto|cbn; tauto]|apply start_still; vm_compute; reflexivity]. }
  split; [split; [exact Pm|]; intros s p o [[= <- <- <-]|[[= <- <- <-]|[[= <- <- <-]|[]]]]; (split; [apply Nm; cbn; tauto|split; [apply Pa; cbn; tauto|vm_compute; discriminate]])|].
  split; [vm_compute; reflexivity|]. split; [vm_compute; reflexivity|]. split; [intros [t X]; discriminate X|]. split; [apply Nm; cbn; tauto|].
  split; [apply (Sec "" "c" "1"); [now left|apply Fn; cbn; tauto|cbn; tauto]|]. split; [vm_compute; reflexivity|]. split; [vm_compute; discriminate|]. split; [vm_compute; reflexivity|].
  split; [split; [exact Pm|]; intros s p o [[= <- <- <-]|[]]; (split; [apply Nm; cbn; tauto|split; [apply Pa; cbn; tauto|vm_compute; discriminate]])|]. split; [vm_compute; reflexivity|].
  assert (Nr : forall n, In n ["README"; "t"] -> name n) by now apply names_b.
  split; [intros [t X]; discriminate X|]. split; [apply Nr; cbn; tauto|]. split; [vm_compute; reflexivity|]. split; [apply Nr; cbn; tauto|]. split; [apply (means_b "" ["api"]); [reflexivity|now left]|]. split; [apply (means_b "" []); [reflexivity|now left]|].
  split; [vm_compute; discriminate|]. split; [vm_compute; reflexivity|]. split; [apply passable_b_ok; vm_compute; reflexivity|]. split; [vm_compute; reflexivity|]. split; [vm_compute; reflexivity|]. split; [vm_compute; reflexivity|].
  assert (Le : always "/r" start (fun g => os_lstat "/w" g "e" = Some NDir)) by (apply start_still_l; vm_compute; reflexivity).
  split; [intros g Sg; unfold glob, e_lexists; change (has_magic "e") with false; now rewrite (Le g Sg)|]. intros [X|[]]; discriminate X.
Qed.
