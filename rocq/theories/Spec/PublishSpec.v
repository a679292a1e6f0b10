(** * Publishing a file, as users see it *)
From Coq Require Import String Ascii ZArith List Bool.
From stdpp Require Import gmap strings.
From Verif Require Import Model.Py Model.Path Model.Rebuild Model.Trace Model.Fetch Model.Publish Spec.FetchSpec.
Import ListNotations.
Open Scope string_scope.

(** The texts published at [u] so far, newest first, each time with other luck and other options,
    each time possibly stopped anywhere; the last component is what is on the disk of the site *)
Inductive publishings (bzip2 sha1 : string -> string) (u : uri) (g0 : files) : list string -> files -> Prop :=
| published_none : publishings bzip2 sha1 u g0 [] g0
| published_more ts g g' disk gpg text sha1sum compress sign :
    publishings bzip2 sha1 u g0 ts g ->
    In g' (states (publish bzip2 sha1 disk gpg u text sha1sum compress sign) g) ->
    publishings bzip2 sha1 u g0 (text :: ts) g'.

(** The file visitors ask for: the text itself, or the packed one *)
Definition shelf (u : uri) (packed : bool) : string := u_uri u ++ (if packed then ".bz2" else "").
Definition stored (bzip2 : string -> string) (packed : bool) (text : string) : string := if packed then bzip2 text else text.

(** The visitor asks for the file [v] of a server which shows the disk [g] of the site *)
Record visits (server : string -> option string) (parse : string -> uri) (g : files) (u v : uri) (packed : bool) (dir : string) (f : files) : Prop := {
  v_remote : is_local_file v = false /\ is_mirror v = false;
  v_shown : server (u_uri v) = g !! shelf u packed;
  v_sum_remote : is_local_file (parse (u_uri v ++ ".sha1sum")) = false /\ is_mirror (parse (u_uri v ++ ".sha1sum")) = false;
  v_sum_shown : server (u_uri (parse (u_uri v ++ ".sha1sum"))) = g !! (shelf u packed ++ ".sha1sum");
  v_sum_name : u_filename (parse (u_uri v ++ ".sha1sum")) = u_filename v ++ ".sha1sum";
  (* no partial files lie about *)
  v_fresh : f !! partial v dir = None /\ f !! partial (parse (u_uri v ++ ".sha1sum")) dir = None
}.
(** and wants it unpacked if it is packed *)
Definition unpacks (m : option method) (packed : bool) (name : string) : Prop :=
  if packed then bzip2_wanted m name else plain_wanted m name.
(** [x] is what is in the file [c], which may be packed *)
Definition unpacked (bunzip2 : string -> option string) (packed : bool) (c x : string) : Prop :=
  if packed then bunzip2 c = Some x else x = c.

(** SHA-1 sums are of one length, and tell the published files from all beginnings of them *)
Definition telling (bzip2 sha1 : string -> string) (packed : bool) (ts : list string) : Prop :=
  (forall a b, String.length (sha1 a) = String.length (sha1 b)) /\
  (forall t b t', In t ts -> In t' ts -> beginning b (stored bzip2 packed t') -> sha1 b = sha1 (stored bzip2 packed t) -> b = stored bzip2 packed t).
