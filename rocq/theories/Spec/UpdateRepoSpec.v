(** * Updating a repository, as users see it *)
From Coq Require Import String Ascii ZArith List Bool.
From stdpp Require Import gmap strings.
From Verif Require Import Model.Py Model.Path Model.Package Model.Databases Model.Trace Model.Fetch Spec.RebuildSpec Spec.FetchSpec Spec.PublishSpec.
Import ListNotations.
Open Scope string_scope.

(** The file [c] has the SHA-1 sum the site publishes for its index *)
Definition attested (sha1 : string -> string) (g : files) (site : uri) (packed : bool) (c : string) : Prop :=
  exists sum line, g !! (shelf site packed ++ ".sha1sum") = Some sum /\ says sum line /\ sha1 c = line.

(** [d'] are the databases [d] with the index the site [g] publishes put in for [repo]; if [checked],
    the index has the published sum *)
Definition news (sha1 : string -> string) (bunzip2 : string -> option string) (read_index : string -> option pindex) (checked : bool)
    (g : files) (site : uri) (packed : bool) (repo : string) (d d' : dbs) : Prop :=
  exists c x ix, g !! shelf site packed = Some c /\ unpacked bunzip2 packed c x /\ read_index x = Some ix /\
    update_db d ix repo = Ok d' /\ (checked = true -> attested sha1 g site packed c).

(** The repository is a directory [g] of this machine; pisi writes nothing over its index *)
Record browses (parse : string -> uri) (g : files) (site v : uri) (packed : bool) (dir : string) (f : files) : Prop := {
  b_local : is_local_file v = true /\ is_local_file (parse (u_uri v ++ ".sha1sum")) = true;
  b_shown : u_uri v = shelf site packed /\ u_uri (parse (u_uri v ++ ".sha1sum")) = shelf site packed ++ ".sha1sum";
  b_here : f !! shelf site packed = g !! shelf site packed /\ f !! (shelf site packed ++ ".sha1sum") = g !! (shelf site packed ++ ".sha1sum");
  b_note : join_path2 dir "uri" <> shelf site packed /\ join_path2 dir "uri" <> shelf site packed ++ ".sha1sum";
  b_sum : join_path2 dir (basename (shelf site packed ++ ".sha1sum")) <> shelf site packed /\
          join_path2 dir (basename (shelf site packed ++ ".sha1sum")) <> destination v dir
}.

(** What is to come of rebuilding from the index file [c] of this machine, if it is there: the answer
    and the databases.  A file that is not there or cannot be unpacked is only warned of. *)
Definition rebuilt (bunzip2 : string -> option string) (read_index : string -> option pindex) (packed : bool) (repo : string) (d : dbs) (c : option string) : res unit * dbs :=
  match c with
  | None => (Ok tt, d)
  | Some c =>
      match (if packed then bunzip2 c else Some c) with
      | None => (Ok tt, d)
      | Some x =>
          match read_index x with
          | None => (Err EError, d)
          | Some ix => match update_db d ix repo with Ok d' => (Ok tt, d') | Err _ => (Err EName, d) end
          end
      end
  end.
