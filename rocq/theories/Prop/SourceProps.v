(** * C76: source archives *)
From Coq Require Import String Ascii ZArith List Bool.
From stdpp Require Import gmap strings.
From Verif Require Import Model.Py Model.Path Model.Trace Model.Fetch Model.Uri Model.Source Spec.FetchSpec Proof.SourceFacts.
Import ListNotations.
Open Scope string_scope.

(** What is unpacked is an archive that has the SHA-1 the spec gives, of a known type; it is that
    file, and unpacking changes no file in the archives directory.  (tar.lzma: see below.) *)
Theorem C76_checked (sha1 : string -> string) (unlzma : string -> option string) (u : uri) (dir ty sum : string) (f : files) (d : string) :
  result (unpack_source sha1 unlzma u dir ty sum) f = Ok d ->
  exists c, f !! destination u dir = Some c /\ sha1 c = sum /\ In ty ["targz"; "tarbz2"; "tarlzma"; "tar"; "zip"; "binary"] /\
    (ty <> "tarlzma" -> d = c /\ states (unpack_source sha1 unlzma u dir ty sum) f = [f]).
Proof. exact (unpacked sha1 unlzma u dir ty sum f d). Qed.
Print Assumptions C76_checked.

(** An archive that is missing or has another SHA-1 is refused, and nothing is touched. *)
Theorem C76_refused (sha1 : string -> string) (unlzma : string -> option string) (u : uri) (dir ty sum : string) (f : files) :
  (forall c, f !! destination u dir = Some c -> sha1 c <> sum) ->
  result (unpack_source sha1 unlzma u dir ty sum) f = Err EError /\ states (unpack_source sha1 unlzma u dir ty sum) f = [f].
Proof. intros H. unfold result, states. rewrite (compromised sha1 unlzma u dir ty sum f H). now split. Qed.
Print Assumptions C76_refused.

(** A good archive that is there is used as it is: nothing is fetched, whatever the servers and
    the network do. *)
Theorem C76_cached (server : string -> option string) (net : string -> files -> transfer) (parse : string -> uri) (mirrors : string -> list string)
    (authinfo : bool) (dir_writable writable readable : string -> bool) (sha1 : string -> string) (fuel : nat) (u : uri) (dir sum : string) (f : files) (c : string) :
  f !! destination u dir = Some c -> readable (destination u dir) = true -> sha1 c = sum ->
  let get := fetch_source server net parse mirrors authinfo dir_writable writable readable sha1 fuel u dir sum in
  result get f = Ok tt /\ states get f = [f].
Proof. intros L R S. unfold result, states. cbv zeta. rewrite (cached server net parse mirrors authinfo dir_writable writable readable sha1 fuel u dir sum f c L R S). now split. Qed.
Print Assumptions C76_cached.

(** Otherwise it is fetched (C49). *)
Theorem C76_fetched (server : string -> option string) (net : string -> files -> transfer) (parse : string -> uri) (mirrors : string -> list string)
    (authinfo : bool) (dir_writable writable readable : string -> bool) (sha1 : string -> string) (fuel : nat) (u : uri) (dir sum : string) (f : files) :
  (forall c, f !! destination u dir = Some c -> readable (destination u dir) = true -> sha1 c <> sum) ->
  fetch_source server net parse mirrors authinfo dir_writable writable readable sha1 fuel u dir sum f =
  fetch server net parse mirrors authinfo dir_writable writable fuel u dir f.
Proof. exact (not_cached server net parse mirrors authinfo dir_writable writable readable sha1 fuel u dir sum f). Qed.
Print Assumptions C76_fetched.

(** If the published archive is the one the spec means, then after any number of interrupted
    fetches a fetch that succeeds is followed by an unpacking that succeeds, with an archive that
    has the SHA-1 of the spec, the published one if no good one was there.  Missing: tar.lzma, and
    partial files of other archives. *)
Theorem C76_prepared_partial (server : string -> option string) (net : string -> files -> transfer) (parse : string -> uri) (mirrors : string -> list string)
    (authinfo : bool) (dir_writable writable readable : string -> bool) (sha1 : string -> string) (unlzma : string -> option string)
    (fuel : nat) (u : uri) (dir ty sum : string) (f0 f : files) (c : string) :
  let get := fetch_source server net parse mirrors authinfo dir_writable writable readable sha1 fuel u dir sum in
  offers server parse mirrors dir f0 c u -> (forall b, f0 !! partial u dir = Some b -> beginning b c) ->
  attempts server parse mirrors u dir f0 f -> sha1 c = sum -> In ty ["targz"; "tarbz2"; "tar"; "zip"; "binary"] ->
  result get f = Ok tt ->
  exists d, result (unpack_source sha1 unlzma u dir ty sum) (final get f) = Ok d /\ sha1 d = sum /\
    ((forall c', f !! destination u dir = Some c' -> sha1 c' <> sum) -> d = c).
Proof. exact (prepared server net parse mirrors authinfo dir_writable writable readable sha1 unlzma fuel u dir ty sum f0 f c). Qed.
Print Assumptions C76_prepared_partial.

(** A tar.lzma archive is unpacked if its name without .lzma does not end in one of the characters
    of ".lzma"; the archive is replaced with the tar file. *)
Theorem C76_lzma_partial (sha1 : string -> string) (unlzma : string -> option string) (u : uri) (dir sum q : string) (f : files) (c d : string) :
  destination u dir = q ++ ".lzma" -> q <> "" -> (forall r x, q = r ++ String x "" -> ~ In x ["."; "l"; "z"; "m"; "a"]%char) ->
  f !! destination u dir = Some c -> sha1 c = sum -> unlzma c = Some d ->
  result (unpack_source sha1 unlzma u dir "tarlzma" sum) f = Ok d /\
  final (unpack_source sha1 unlzma u dir "tarlzma" sum) f = <[ q := d ]> (delete (destination u dir) f).
Proof. intros E Nq H. exact (lzma_source sha1 unlzma u dir sum q f c d E H Nq). Qed.
Print Assumptions C76_lzma_partial.
(** So the archive is not there the next time: before the source was unpacked, it could be built
    without the server; afterwards, never again. *)
Theorem C76_lzma_lost_refuted (server : string -> option string) (net : string -> files -> transfer) (parse : string -> uri) (mirrors : string -> list string)
    (authinfo : bool) (dir_writable writable readable : string -> bool) (sha1 : string -> string) (unlzma : string -> option string)
    (u : uri) (dir sum q : string) (f : files) (c d : string) :
  let get fuel := fetch_source server net parse mirrors authinfo dir_writable writable readable sha1 fuel u dir sum in
  destination u dir = q ++ ".lzma" -> f !! destination u dir = Some c -> sha1 c = sum -> unlzma c = Some d ->
  is_mirror u = false -> is_local_file u = false -> server (u_uri u) = None -> readable (destination u dir) = true ->
  (forall fuel, result (get fuel) f = Ok tt) /\
  (forall fuel, exists e, result (get fuel) (final (unpack_source sha1 unlzma u dir "tarlzma" sum) f) = Err e).
Proof. exact (lzma_again server net parse mirrors authinfo dir_writable writable readable sha1 unlzma u dir sum q f c d). Qed.
Print Assumptions C76_lzma_lost_refuted.
(** And an archive whose name does end in one of them is never unpacked. *)
Theorem C76_lzma_name_refuted (sha1 : string -> string) (unlzma : string -> option string) (u : uri) (dir sum r t : string) (f : files) (c : string) :
  destination u dir = r ++ t ++ ".lzma" -> t <> "" -> (forall x, In x (list_ascii_of_string t) -> In x ["."; "l"; "z"; "m"; "a"]%char) ->
  (exists r' x, r = r' ++ String x "" /\ ~ In x ["."; "l"; "z"; "m"; "a"]%char) ->
  f !! destination u dir = Some c -> f !! r = None ->
  result (unpack_source sha1 unlzma u dir "tarlzma" sum) f = Err EError \/ result (unpack_source sha1 unlzma u dir "tarlzma" sum) f = Err EOS.
Proof. exact (lzma_wrong sha1 unlzma u dir sum r t f c). Qed.
Print Assumptions C76_lzma_name_refuted.

(** One whose name does not end in .lzma is refused and left alone. *)
Theorem C76_lzma_suffix (sha1 : string -> string) (unlzma : string -> option string) (u : uri) (dir sum : string) (f : files) :
  (forall q, destination u dir <> q ++ ".lzma") ->
  let p := unpack_source sha1 unlzma u dir "tarlzma" sum in
  (exists e, result p f = Err e) /\ states p f = [f].
Proof. intros N. destruct (lzma_other sha1 unlzma u dir sum f N) as [e E]. unfold result, states. cbv zeta. rewrite E. split; [now exists e|reflexivity]. Qed.
Print Assumptions C76_lzma_suffix.

(** Fetched and unpacked; damaged; an lzma archive that is gone afterwards; one that cannot be
    opened *)
Definition src_server (s : string) : option string :=
  if String.eqb s "http://a/x-1.0.tar.gz" then Some "good" else if String.eqb s "http://a/x-1.0.tar.lzma" then Some "small" else if String.eqb s "http://a/x.small.lzma" then Some "small" else None.
Definition src_get (server : string -> option string) (s sum : string) : prog files unit :=
  fetch_source server (fun _ _ => mkTransfer true true [1; 3]%nat true) URI (fun _ => []) false (fun _ => true) (fun _ => true) (fun _ => true) (fun c => "sha1:" ++ c) 2 (URI s) "/var/archives" sum.
Definition src_unpack (s ty sum : string) : prog files string :=
  unpack_source (fun c => "sha1:" ++ c) (fun c => if String.eqb c "small" then Some "large" else None) (URI s) "/var/archives" ty sum.
Example C76_nontrivial :
  (let gz := "http://a/x-1.0.tar.gz" in
   let old := {["/var/archives/x-1.0.tar.gz" := "damaged"]} : files in
   let f := final (src_get src_server gz "sha1:good") old in
   result (src_unpack gz "targz" "sha1:good") old = Err EError /\
   result (src_get src_server gz "sha1:good") old = Ok tt /\ result (src_unpack gz "targz" "sha1:good") f = Ok "good" /\
   result (src_get (fun _ => None) gz "sha1:good") f = Ok tt /\ result (src_unpack gz "rar" "sha1:good") f = Err EError) /\
  (let lz := "http://a/x-1.0.tar.lzma" in
   let f := final (src_get src_server lz "sha1:small") ∅ in
   let g := final (src_unpack lz "tarlzma" "sha1:small") f in
   result (src_unpack lz "tarlzma" "sha1:small") f = Ok "large" /\ g !! "/var/archives/x-1.0.tar" = Some "large" /\
   result (src_get (fun _ => None) lz "sha1:small") f = Ok tt /\ result (src_get (fun _ => None) lz "sha1:small") g = Err EFetch) /\
  (let lz := "http://a/x.small.lzma" in
   let f := final (src_get src_server lz "sha1:small") ∅ in
   result (src_get src_server lz "sha1:small") ∅ = Ok tt /\ result (src_unpack lz "tarlzma" "sha1:small") f = Err EOS).
Proof. repeat split; vm_compute; reflexivity. Qed.
