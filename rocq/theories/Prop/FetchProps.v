(** * C49, C50: fetching and downloading *)
From Coq Require Import String Ascii ZArith List Bool.
From stdpp Require Import gmap strings.
From Verif Require Import Model.Py Model.Path Model.Rebuild Model.Trace Model.Fetch Spec.RebuildSpec Spec.FetchSpec Proof.FetchFacts.
Import ListNotations.
Open Scope string_scope.

(** ** C49 *)

(** However often a file is fetched and wherever each attempt stops, the destination holds its
    old contents or the complete new ones, and no other file changes, if a partial file left from
    before is a beginning of what is fetched.  Missing: other partial files. *)
Theorem C49_never_partial_partial (server : string -> option string) (parse : string -> uri) (mirrors : string -> list string)
    (u : uri) (dir : string) (f0 f : files) (c : string) :
  offers server parse mirrors dir f0 c u ->
  (forall b, f0 !! partial u dir = Some b -> beginning b c) ->
  attempts server parse mirrors u dir f0 f ->
  (f !! destination u dir = f0 !! destination u dir \/ f !! destination u dir = Some c) /\
  (forall p, p <> destination u dir -> p <> partial u dir -> f !! p = f0 !! p).
Proof. intros O P H. exact (attempts_never_partial server parse mirrors u dir f0 c O P f H). Qed.
Print Assumptions C49_never_partial_partial.

(** An attempt that succeeds leaves the complete contents and no partial file. *)
Theorem C49_success_partial (server : string -> option string) (parse : string -> uri) (mirrors : string -> list string)
    (u : uri) (dir : string) (f0 f : files) (c : string) (net : string -> files -> transfer) (authinfo : bool)
    (dir_writable writable : string -> bool) (fuel : nat) :
  offers server parse mirrors dir f0 c u ->
  (forall b, f0 !! partial u dir = Some b -> beginning b c) ->
  attempts server parse mirrors u dir f0 f ->
  result (fetch server net parse mirrors authinfo dir_writable writable fuel u dir) f = Ok tt ->
  let f' := final (fetch server net parse mirrors authinfo dir_writable writable fuel u dir) f in
  f' !! destination u dir = Some c /\ f' !! partial u dir = None.
Proof. intros O P H. exact (attempts_succeed server parse mirrors u dir f0 c O P f net authinfo dir_writable writable fuel H). Qed.
Print Assumptions C49_success_partial.

(** "Whatever partial download preceded it" is false: the rest of the file is appended to any
    partial file, be it of an older version. *)
Theorem C49_stale_part_refuted (server : string -> option string) (parse : string -> uri) (mirrors : string -> list string)
    (net : string -> files -> transfer) (dir_writable writable : string -> bool) (fuel : nat) (u : uri) (dir : string) (f : files) (b c : string) :
  is_mirror u = false -> is_local_file u = false -> u_filename u <> "" ->
  dir_writable dir = true -> writable (destination u dir) = true ->
  f !! partial u dir = Some b -> server (u_uri u) = Some c -> b <> "" ->
  t_reachable (net (u_uri u) f) = true -> t_length (net (u_uri u) f) = true -> t_complete (net (u_uri u) f) = true ->
  result (fetch server net parse mirrors false dir_writable writable (S fuel) u dir) f = Ok tt /\
  final (fetch server net parse mirrors false dir_writable writable (S fuel) u dir) f !! destination u dir =
    Some (b ++ py_drop (String.length b) c).
Proof. exact (stale_resumed server parse mirrors net dir_writable writable fuel u dir f b c). Qed.
Print Assumptions C49_stale_part_refuted.

(** With a user name and password, no fetch from a server succeeds. *)
Theorem C49_authinfo_refuted (server : string -> option string) (parse : string -> uri) (mirrors : string -> list string)
    (net : string -> files -> transfer) (dir_writable writable : string -> bool) (fuel : nat) (u : uri) (dir : string) (f : files) :
  is_mirror u = false -> In (u_scheme u) ["http"; "https"; "ftp"] ->
  exists e, result (fetch server net parse mirrors true dir_writable writable fuel u dir) f = Err e.
Proof. exact (authinfo_fails server parse mirrors net dir_writable writable fuel u dir f). Qed.
Print Assumptions C49_authinfo_refuted.

(** A small network *)
Definition here (s : string) : uri := mkUri s "http" s (basename s).
Definition serving (s : string) : option string :=
  if String.eqb s "http://a/x.pisi" then Some "abcdef"
  else if String.eqb s "http://a/x.pisi.sha1sum" then Some "sha1:abcdef" else None.
Definition two_mirrors (s : string) : list string := ["http://b"; "http://a"].
Definition steady (_ : string) (_ : files) : transfer := mkTransfer true true [1; 3]%nat true.
Definition broken (_ : string) (_ : files) : transfer := mkTransfer true true [1; 3]%nat false.

(** Stopped after three bytes, then completed; also from mirrors, the first of which has nothing *)
Example C49_nontrivial :
  offers serving here two_mirrors "/tmp" ∅ "abcdef" (here "http://a/x.pisi") /\
  (let f1 := final (fetch serving broken here two_mirrors false (fun _ => true) (fun _ => true) 2 (here "http://a/x.pisi") "/tmp") ∅ in
   attempts serving here two_mirrors (here "http://a/x.pisi") "/tmp" ∅ f1 /\
   f1 !! "/tmp/x.pisi.part" = Some "abc" /\ f1 !! "/tmp/x.pisi" = None /\
   result (fetch serving steady here two_mirrors false (fun _ => true) (fun _ => true) 2 (here "http://a/x.pisi") "/tmp") f1 = Ok tt) /\
  result (fetch serving steady here two_mirrors false (fun _ => true) (fun _ => true) 2 (here "mirrors://pardus/x.pisi") "/tmp") ∅ = Ok tt.
Proof.
  split; [|split].
  - apply offers_server; [reflexivity..|]. intros c' H. cbn in H. congruence.
  - split; [|split; [|split]]; [|vm_compute; reflexivity..].
    eapply attempts_more; [apply attempts_none|]. apply TraceFacts.final_state.
  - vm_compute. reflexivity.
Qed.
(** A stale partial file *)
Example C49_stale :
  final (fetch serving steady here two_mirrors false (fun _ => true) (fun _ => true) 1 (here "http://a/x.pisi") "/tmp") {["/tmp/x.pisi.part" := "XYZ"]}
    !! "/tmp/x.pisi" = Some "XYZdef".
Proof. vm_compute. reflexivity. Qed.

(** ** C50 *)

(** A download with a checksum that returns has checked the file: its SHA-1 is the first line of
    the checksum file that was downloaded.  It is the file at the destination.  What is returned is
    that file, or, if bzip2 was asked for or the method is to be found from the name and the name
    ends in .bz2, what bunzip2 makes of it, under the name without these four characters. *)
Theorem C50_download_checked (server : string -> option string) (net : string -> files -> transfer) (parse : string -> uri)
    (mirrors : string -> list string) (authinfo : bool) (dir_writable writable : string -> bool) (sha1 : string -> string)
    (bunzip2 : string -> option string) (fuel : nat) (u : uri) (dir : string) (m : option method) (copylocal : bool) (f : files) (path : string) :
  let get := download server net parse mirrors authinfo dir_writable writable sha1 bunzip2 fuel in
  let sum_uri := parse (u_uri u ++ ".sha1sum") in
  result (get u dir true m copylocal) f = Ok path ->
  exists sumfile text line verified c g,
    result (get sum_uri dir false None false) f = Ok sumfile /\
    final (get sum_uri dir false None false) f !! sumfile = Some text /\ says text line /\
    In g (states (get u dir true m copylocal) f) /\ g !! verified = Some c /\ sha1 c = line /\
    (is_remote_file u = true \/ copylocal = true -> verified = destination u dir) /\
    ((plain_wanted m verified /\ path = verified /\ final (get u dir true m copylocal) f = g) \/
     (bzip2_wanted m verified /\ less_four verified path /\
      exists d, bunzip2 c = Some d /\ final (get u dir true m copylocal) f = <[ path := d ]> g)).
Proof. exact (download_checked server net parse mirrors authinfo dir_writable writable sha1 bunzip2 fuel u dir m copylocal f path). Qed.
Print Assumptions C50_download_checked.

(** "Already have" is reported only if the file at the destination has that SHA-1. *)
Theorem C50_already_have (server : string -> option string) (net : string -> files -> transfer) (parse : string -> uri)
    (mirrors : string -> list string) (authinfo : bool) (dir_writable writable : string -> bool) (sha1 : string -> string)
    (bunzip2 : string -> option string) (fuel : nat) (u : uri) (dir : string) (m : option method) (copylocal : bool) (f : files) :
  let get := download server net parse mirrors authinfo dir_writable writable sha1 bunzip2 fuel in
  let sum_uri := parse (u_uri u ++ ".sha1sum") in
  result (get u dir true m copylocal) f = Err EAlreadyHave ->
  exists sumfile text line c,
    result (get sum_uri dir false None false) f = Ok sumfile /\
    final (get sum_uri dir false None false) f !! sumfile = Some text /\ says text line /\
    final (get u dir true m copylocal) f !! destination u dir = Some c /\ sha1 c = line.
Proof. exact (download_already server net parse mirrors authinfo dir_writable writable sha1 bunzip2 fuel u dir m copylocal f). Qed.
Print Assumptions C50_already_have.

(** The checksum file that was downloaded is the one the server holds, unless a partial file of
    another one was there. *)
Theorem C50_published (server : string -> option string) (net : string -> files -> transfer) (parse : string -> uri)
    (mirrors : string -> list string) (authinfo : bool) (dir_writable writable : string -> bool) (sha1 : string -> string)
    (bunzip2 : string -> option string) (fuel : nat) (v : uri) (dir text : string) (f : files) (sumfile : string) :
  is_remote_file v = true -> offers server parse mirrors dir f text v ->
  (forall b, f !! partial v dir = Some b -> beginning b text) ->
  result (download server net parse mirrors authinfo dir_writable writable sha1 bunzip2 fuel v dir false None false) f = Ok sumfile ->
  final (download server net parse mirrors authinfo dir_writable writable sha1 bunzip2 fuel v dir false None false) f !! sumfile = Some text.
Proof. exact (published server net parse mirrors authinfo dir_writable writable sha1 bunzip2 fuel v dir text f sumfile). Qed.
Print Assumptions C50_published.

(** The line end counts: a checksum file whose first line ends with one is never met, so the
    download always fails. *)
Theorem C50_line_end (server : string -> option string) (net : string -> files -> transfer) (parse : string -> uri)
    (mirrors : string -> list string) (authinfo : bool) (dir_writable writable : string -> bool) (sha1 : string -> string)
    (bunzip2 : string -> option string) (fuel : nat) (u : uri) (dir : string) (m : option method) (copylocal : bool) (f : files) (sumfile a rest : string) :
  let get := download server net parse mirrors authinfo dir_writable writable sha1 bunzip2 fuel in
  let sum_uri := parse (u_uri u ++ ".sha1sum") in
  (forall x, ~ In newline (list_ascii_of_string (sha1 x))) ->
  result (get sum_uri dir false None false) f = Ok sumfile ->
  final (get sum_uri dir false None false) f !! sumfile = Some (a ++ String newline rest) ->
  exists e, result (get u dir true m copylocal) f = Err e /\ e <> EAlreadyHave.
Proof. exact (newline_never server net parse mirrors authinfo dir_writable writable sha1 bunzip2 fuel u dir m copylocal f sumfile a rest). Qed.
Print Assumptions C50_line_end.

(** A good download, a damaged one, and one that is not needed *)
Example C50_nontrivial :
  let get server := download server steady here two_mirrors false (fun _ => true) (fun _ => true) (fun c => "sha1:" ++ c) (fun _ => None) 2 (here "http://a/x.pisi") "/tmp" true None false in
  result (get serving) ∅ = Ok "/tmp/x.pisi" /\
  result (get (fun s => if String.eqb s "http://a/x.pisi" then Some "abcxef" else serving s)) ∅ = Err EError /\
  result (get serving) {["/tmp/x.pisi" := "abcdef"]} = Err EAlreadyHave.
Proof. repeat split; vm_compute; reflexivity. Qed.
(** An index compressed with bzip2 *)
Example C50_compressed :
  let serving s := if String.eqb s "http://a/i.xml.bz2" then Some "packed" else if String.eqb s "http://a/i.xml.bz2.sha1sum" then Some "sha1:packed" else None in
  let get m := download serving steady here two_mirrors false (fun _ => true) (fun _ => true) (fun c => "sha1:" ++ c) (fun c => if String.eqb c "packed" then Some "index" else None) 2 (here "http://a/i.xml.bz2") "/tmp" true m false in
  result (get (Some Auto)) ∅ = Ok "/tmp/i.xml" /\ final (get (Some Auto)) ∅ !! "/tmp/i.xml" = Some "index" /\
  result (get None) ∅ = Ok "/tmp/i.xml.bz2" /\ result (get (Some Gzip)) ∅ = Err EError.
Proof. repeat split; vm_compute; reflexivity. Qed.
