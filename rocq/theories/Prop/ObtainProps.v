(** * C88: getting hold of a package of a repository *)
From Coq Require Import String Ascii ZArith List Bool.
From stdpp Require Import gmap strings.
From Verif Require Import Model.Py Model.Path Model.Rebuild Model.Trace Model.Fetch Model.Obtain Model.Uri Spec.FetchSpec Spec.ObtainSpec Proof.TraceFacts Proof.ObtainFacts.
Require Import Verif.Prop.FetchProps.
Import ListNotations.
Open Scope string_scope.

(** Without deltas, however often a package is opened and wherever each attempt stops, what is
    opened is what the repository holds, or the file that was there before all; the file of the
    package is never a part of one, and no other file changes.  Missing: stale files (below). *)
Theorem C88_plain_partial (server : string -> option string) (parse : string -> uri) (mirrors : string -> list string) (u : uri) (dest : string) (f0 f : files) (c : string) :
  is_remote_file u = true -> offers server parse mirrors dest f0 c u ->
  (forall b, f0 !! partial u dest = Some b -> beginning b c) ->
  openings server parse mirrors u dest f0 f ->
  (f !! destination u dest = f0 !! destination u dest \/ f !! destination u dest = Some c) /\
  (forall p, p <> destination u dest -> p <> partial u dest -> f !! p = f0 !! p) /\
  forall net authinfo dir_writable writable patch progress installed fetcher fuel x,
    result (open_package server net parse mirrors authinfo dir_writable writable patch progress installed false dest fetcher fuel u) f = Ok x ->
    x = c \/ f0 !! destination u dest = Some x.
Proof. intros R O P. exact (openings_whole server parse mirrors u dest f0 c O R P f). Qed.
Print Assumptions C88_plain_partial.

(** With deltas, what is opened is what the repository holds, if every delta for the installed
    package, on the server or kept from before, gives that, and the files kept are of this package.
    Missing: deltas that give something else, runs that are stopped (below). *)
Theorem C88_delta_partial (server : string -> option string) (net : string -> files -> transfer) (parse : string -> uri) (mirrors : string -> list string)
    (authinfo : bool) (dir_writable writable : string -> bool) (patch : string -> string -> option string) (progress : files -> list nat * bool)
    (installed : string -> option (string * string * option Z)) (xdelta : bool) (dest : string) (fetcher : bool) (fuel : nat) (u : uri) (f : files) (c x : string) :
  is_remote_file u = true -> is_mirror u = false -> ends (u_filename u) ".pisi" ->
  (forall c', server (u_uri u) = Some c' -> c' = c) ->
  (forall b, f !! destination u dest = Some b -> b = c) -> (forall b, f !! partial u dest = Some b -> beginning b c) ->
  (forall name v, pure_package_name (u_filename u) = Ok name -> installed name = Some v -> xdelta = true ->
    let cur := current name v in let du := delta_uri parse u cur in
    is_mirror du = false /\ is_local_file du = false /\ ends (u_filename du) ".xdelta" /\ f !! partial du dest = None /\
    (forall p, server (u_uri du) = Some p \/ f !! delta_fn parse dest u cur = Some p ->
      forall o y, f !! current_fn dest cur = Some o -> patch p o = Some y -> y = c)) ->
  result (open_package server net parse mirrors authinfo dir_writable writable patch progress installed xdelta dest fetcher fuel u) f = Ok x -> x = c.
Proof. exact (open_delta server parse mirrors net authinfo dir_writable writable patch progress installed xdelta dest fetcher fuel u f c x). Qed.
Print Assumptions C88_delta_partial.

(** The delta asked for is named after the two packages *)
Theorem C88_delta_name (cur stem : string) : ends_in_digit stem -> (forall a, In a (list_ascii_of_string stem) -> a <> "/"%char) ->
  delta_name cur (stem ++ ".pisi") = cur ++ "_" ++ stem ++ ".xdelta".
Proof. exact (delta_named cur stem). Qed.
Print Assumptions C88_delta_name.

(** A local package is opened as it is, and nothing changes *)
Theorem C88_local (server : string -> option string) (net : string -> files -> transfer) (parse : string -> uri) (mirrors : string -> list string)
    (authinfo : bool) (dir_writable writable : string -> bool) (patch : string -> string -> option string) (progress : files -> list nat * bool)
    (installed : string -> option (string * string * option Z)) (xdelta : bool) (dest : string) (fetcher : bool) (fuel : nat) (u : uri) (f : files) :
  is_remote_file u = false ->
  open_package server net parse mirrors authinfo dir_writable writable patch progress installed xdelta dest fetcher fuel u f =
    ([], match f !! u_uri u with Some c => Ok c | None => Err EOS end).
Proof. exact (open_local server parse mirrors net authinfo dir_writable writable patch progress installed dest fetcher fuel xdelta u f). Qed.
Print Assumptions C88_local.

(** ** The claim itself is false of the code *)

(** There is no module [fetcher] next to pisi/data/package.py (the program's own is pisi.fetcher):
    no package of a server can be opened, and nothing is fetched. *)
Theorem C88_remote_refuted (server : string -> option string) (net : string -> files -> transfer) (parse : string -> uri) (mirrors : string -> list string)
    (authinfo : bool) (dir_writable writable : string -> bool) (patch : string -> string -> option string) (progress : files -> list nat * bool)
    (installed : string -> option (string * string * option Z)) (xdelta : bool) (dest : string) (fuel : nat) (u : uri) (f : files) :
  is_remote_file u = true ->
  open_package server net parse mirrors authinfo dir_writable writable patch progress installed xdelta dest false fuel u f = ([], Err EImport).
Proof. intros R. exact (open_never server parse mirrors net authinfo dir_writable writable patch progress installed dest false fuel xdelta u f R eq_refl). Qed.
Print Assumptions C88_remote_refuted.

(** With such a module: a file of that name is taken, whatever it holds and whatever the server holds *)
Theorem C88_stale_refuted (server : string -> option string) (net : string -> files -> transfer) (parse : string -> uri) (mirrors : string -> list string)
    (authinfo : bool) (dir_writable writable : string -> bool) (patch : string -> string -> option string) (progress : files -> list nat * bool)
    (installed : string -> option (string * string * option Z)) (dest : string) (fuel : nat) (u : uri) (f : files) (y name : string) :
  is_remote_file u = true -> pure_package_name (u_filename u) = Ok name -> f !! destination u dest = Some y ->
  open_package server net parse mirrors authinfo dir_writable writable patch progress installed false dest true fuel u f = ([], Ok y).
Proof. intros R. exact (open_cached server parse mirrors net authinfo dir_writable writable patch progress installed dest true fuel u f y name R eq_refl). Qed.
Print Assumptions C88_stale_refuted.

(** A run stopped while xdelta writes leaves a file that the next run takes for the package *)
Theorem C88_stopped_refuted (server : string -> option string) (net : string -> files -> transfer) (parse : string -> uri) (mirrors : string -> list string)
    (authinfo : bool) (dir_writable writable : string -> bool) (patch : string -> string -> option string) (progress : files -> list nat * bool)
    (installed : string -> option (string * string * option Z)) (dest : string) (fuel : nat) (u : uri) (f : files) (name : string) (v : string * string * option Z) (o p c : string) :
  is_remote_file u = true -> pure_package_name (u_filename u) = Ok name -> installed name = Some v ->
  f !! current_fn dest (current name v) = Some o -> f !! delta_fn parse dest u (current name v) = Some p -> patch p o = Some c ->
  exists f', In f' (states (open_package server net parse mirrors authinfo dir_writable writable patch progress installed true dest true fuel u) f) /\
    open_package server net parse mirrors authinfo dir_writable writable patch progress installed false dest true fuel u f' = ([], Ok "").
Proof. intros R. exact (open_stopped server parse mirrors net authinfo dir_writable writable patch progress installed dest true fuel u f name v o p c R eq_refl). Qed.
Print Assumptions C88_stopped_refuted.

(** A delta that cannot be applied is the end, although the server has the whole package *)
Theorem C88_delta_refuted (server : string -> option string) (net : string -> files -> transfer) (parse : string -> uri) (mirrors : string -> list string)
    (authinfo : bool) (dir_writable writable : string -> bool) (patch : string -> string -> option string) (progress : files -> list nat * bool)
    (installed : string -> option (string * string * option Z)) (dest : string) (fuel : nat) (u : uri) (f : files) (name : string) (v : string * string * option Z) (o p : string) :
  is_remote_file u = true -> pure_package_name (u_filename u) = Ok name -> installed name = Some v ->
  f !! current_fn dest (current name v) = Some o -> f !! delta_fn parse dest u (current name v) = Some p -> patch p o = None ->
  open_package server net parse mirrors authinfo dir_writable writable patch progress installed true dest true fuel u f = ([], Err EError).
Proof. intros R N I C D P. exact (open_bad_delta server parse mirrors net authinfo dir_writable writable patch progress installed dest true fuel u f name v p o R eq_refl N I C D P). Qed.
Print Assumptions C88_delta_refuted.

(** A package given as a file: address is looked for under that text, and not found *)
Theorem C88_file_refuted (server : string -> option string) (net : string -> files -> transfer) (mirrors : string -> list string)
    (authinfo : bool) (dir_writable writable : string -> bool) (patch : string -> string -> option string) (progress : files -> list nat * bool)
    (installed : string -> option (string * string * option Z)) (xdelta : bool) (dest : string) (fetcher : bool) (fuel : nat) :
  let u := URI "file:///tmp/x.pisi" in let f : files := {["/tmp/x.pisi" := "abcdef"]} in
  f !! u_path u = Some "abcdef" /\ is_remote_file u = false /\
  open_package server net URI mirrors authinfo dir_writable writable patch progress installed xdelta dest fetcher fuel u f = ([], Err EOS).
Proof.
  intros u f. split; [reflexivity|]. split; [reflexivity|].
  rewrite (open_local server URI mirrors net authinfo dir_writable writable patch progress installed dest fetcher fuel xdelta u f) by reflexivity. reflexivity.
Qed.
Print Assumptions C88_file_refuted.

(** ** Cases *)
Definition box (s : string) : option string :=
  if String.eqb s "http://a/tasma-1.0.3-5-2.pisi" then Some "abcdef"
  else if String.eqb s "http://a/tasma-1.0.2-4-1_tasma-1.0.3-5-2.xdelta" then Some "+ef" else None.
Definition had (n : string) : option (string * string * option Z) := if String.eqb n "tasma" then Some ("1.0.2", "4", Some 1%Z) else None.
Definition applied (p o : string) : option string := if String.eqb p "+ef" then Some (o ++ "ef") else None.
Definition slow (_ : files) : list nat * bool := ([1; 2]%nat, true).
Definition tasma : uri := here "http://a/tasma-1.0.3-5-2.pisi".
Definition opened (fetcher xdelta : bool) (n : string -> files -> transfer) : prog files string :=
  open_package box n here two_mirrors false (fun _ => true) (fun _ => true) applied slow had xdelta "/pkg" fetcher 2 tasma.

(** Stopped while fetching, then opened; with a delta; the real program *)
Example C88_nontrivial :
  is_remote_file tasma = true /\ offers box here two_mirrors "/pkg" ∅ "abcdef" tasma /\
  (let f1 := final (opened true false broken) ∅ in
   openings box here two_mirrors tasma "/pkg" ∅ f1 /\ f1 !! "/pkg/tasma-1.0.3-5-2.pisi.part" = Some "abc" /\ result (opened true false steady) f1 = Ok "abcdef") /\
  (let f : files := {["/pkg/tasma-1.0.2-4-1.pisi" := "abcd"]} in
   pure_package_name (u_filename tasma) = Ok "tasma" /\ current "tasma" ("1.0.2", "4", Some 1%Z) = "tasma-1.0.2-4-1" /\
   u_uri (delta_uri here tasma "tasma-1.0.2-4-1") = "http://a/tasma-1.0.2-4-1_tasma-1.0.3-5-2.xdelta" /\
   result (opened true true steady) f = Ok "abcdef" /\ final (opened true true steady) f !! "/pkg/tasma-1.0.2-4-1_tasma-1.0.3-5-2.xdelta" = Some "+ef" /\
   result (opened false true steady) f = Err EImport).
Proof.
  split; [reflexivity|]. split.
  { apply offers_server; [reflexivity..|]. intros c' H. vm_compute in H. congruence. }
  split.
  - split; [|split; vm_compute; reflexivity]. eapply openings_more; [apply openings_none|]. apply TraceFacts.final_state.
  - split; [vm_compute; reflexivity|]. split; [vm_compute; reflexivity|]. split; [vm_compute; reflexivity|]. split; [vm_compute; reflexivity|]. split; vm_compute; reflexivity.
Qed.
