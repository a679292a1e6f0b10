(** * Fetching files, as users see it *)
From Coq Require Import String Ascii ZArith List Bool.
From stdpp Require Import gmap strings.
From Verif Require Import Model.Py Model.Path Model.Rebuild Model.Trace Model.Fetch.
Import ListNotations.
Open Scope string_scope.

(** Where a fetched file goes, and the partial file beside it *)
Definition destination (u : uri) (dir : string) : string := join_path2 dir (u_filename u).
Definition partial (u : uri) (dir : string) : string := destination u dir ++ ".part".

(** [b] is a beginning of [c] *)
Definition beginning (b c : string) : Prop := exists t, c = b ++ t.

(** Every place fetching [u] may read from holds the text [c], if anything: the server, the
    local file, or all the mirrors (under the same file name) *)
Inductive offers (server : string -> option string) (parse : string -> uri) (mirrors : string -> list string)
    (dir : string) (f : files) (c : string) : uri -> Prop :=
| offers_server u : is_mirror u = false -> is_local_file u = false ->
    (forall c', server (u_uri u) = Some c' -> c' = c) -> offers server parse mirrors dir f c u
| offers_local u : is_mirror u = false -> is_local_file u = true ->
    (forall c', f !! u_path u = Some c' -> c' = c) -> u_path u <> partial u dir -> offers server parse mirrors dir f c u
| offers_mirrors u : is_mirror u = true ->
    (forall m, In m (mirrors (mirror_name u)) ->
      u_filename (parse (join_path2 m (mirror_path u))) = u_filename u /\
      offers server parse mirrors dir f c (parse (join_path2 m (mirror_path u)))) ->
    offers server parse mirrors dir f c u.

(** Fetching [u] again and again, each time with other luck, each time stopped anywhere; what the
    server holds does not change *)
Inductive attempts (server : string -> option string) (parse : string -> uri) (mirrors : string -> list string)
    (u : uri) (dir : string) (f0 : files) : files -> Prop :=
| attempts_none : attempts server parse mirrors u dir f0 f0
| attempts_more f f' net authinfo dir_writable writable fuel :
    attempts server parse mirrors u dir f0 f ->
    In f' (states (fetch server net parse mirrors authinfo dir_writable writable fuel u dir) f) ->
    attempts server parse mirrors u dir f0 f'.

(** ** Compressed downloads *)
Definition ends (name suffix : string) : Prop := exists s, name = s ++ suffix.
(** The file is wanted as it is: no method given, or the method is to be found from the name
    and the name tells none. *)
Definition plain_wanted (m : option method) (name : string) : Prop :=
  m = None \/ (m = Some Auto /\ ~ ends name ".bz2" /\ ~ ends name ".gz").
(** bzip2 is to be undone, by order or because of the name. *)
Definition bzip2_wanted (m : option method) (name : string) : Prop :=
  m = Some Bz2 \/ (m = Some Auto /\ ends name ".bz2").
(** [path] is [name] without its last four characters. *)
Definition less_four (name path : string) : Prop :=
  exists t, name = path ++ t /\ (String.length t = 4 \/ (path = "" /\ String.length t < 4)).
