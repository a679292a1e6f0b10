(** * Resumable builds and build numbers, as users see them *)
From Coq Require Import String Ascii ZArith List Bool.
From stdpp Require Import list.
From Verif Require Import Model.Py Model.Build Spec.PathSpec.
Import ListNotations.
Open Scope string_scope.

(** What must have been done to the source tree, in this order, before a step begins *)
Definition needed (patches : list string) (s : step) : list event :=
  ((Unpacked :: map Patched patches) ++
  match s with
  | Setup => []
  | Compile => [Ended Setup]
  | Install => [Ended Setup; Ended Compile]
  | Package => [Ended Setup; Ended Compile; Ended Install]
  end)%list.

(** The history of a source tree skips nothing: whenever a step begins, everything it needs is
    there before it, in order *)
Definition nothing_skipped (patches : list string) (log : list event) : Prop :=
  forall (before : list event) s after, log = (before ++ Began s :: after)%list -> needed patches s `sublist_of` before.

(** A stop after [k] actions, between recording that the archive is unpacked and applying the last patch *)
Definition stopped_while_patching (acts : list act) (k : nat) : Prop :=
  In (AWrite "unpack") (firstn k acts) /\ exists p, In (APatch p) (skipn k acts).

(** The calls of build_until with any targets, and of build, each stopped after any number of
    its actions.  [allowed] restricts the stops. *)
Inductive history (norootdir : bool) (patches packages : list string) (autoclean : bool)
    (allowed : list act -> nat -> Prop) : work -> Prop :=
| h_fresh : history norootdir patches packages autoclean allowed (mkWork None false [])
| h_until w target k :
    history norootdir patches packages autoclean allowed w ->
    let acts := fst (build_until norootdir patches packages autoclean target w) in
    allowed acts k ->
    history norootdir patches packages autoclean allowed (exec (firstn k acts) w)
| h_build w k :
    history norootdir patches packages autoclean allowed w ->
    let acts := fst (build norootdir patches packages autoclean w) in
    allowed acts k ->
    history norootdir patches packages autoclean allowed (exec (firstn k acts) w).

(** ** Build numbers *)

(** A file name of the package: its name, a dash, dash-separated parts that start with digits, .pisi *)
Definition file_of (name fn : string) : Prop :=
  exists parts, parts <> [] /\ Forall digit_first parts /\ Forall (free_of "-") parts /\
    fn = name ++ "-" ++ py_join "-" parts ++ ".pisi".

(** An old build of the package: a file of that name that can be read and says so itself, with a build number *)
Definition old_build (name : string) (file : string * option old_package) (b : Z) (files : list (string * option string)) : Prop :=
  file_of name (fst file) /\
  exists p, snd file = Some p /\ o_name p = name /\ o_build p = Some b /\ o_files p = files.

(** [b] is the greatest old build number and [files] are that build's, those of the last such
    file if there are several *)
Definition greatest_build (name : string) (seen : list (string * option old_package)) (b : Z) (files : list (string * option string)) : Prop :=
  exists (before : list (string * option old_package)) file after, seen = (before ++ file :: after)%list /\ old_build name file b files /\
    (forall file' b' files', In file' before -> old_build name file' b' files' -> (b' <= b)%Z) /\
    (forall file' b' files', In file' after -> old_build name file' b' files' -> (b' < b)%Z).

Definition each_path_once (files : list (string * option string)) : Prop := NoDup (map fst files).
Definition same_contents (a b : list (string * option string)) : Prop := forall x, In x a <-> In x b.

(** The build number a build gets, and the one it replaces *)
Inductive numbered (name : string) (seen : list (string * option old_package)) (files : list (string * option string)) : Z -> option Z -> Prop :=
| num_first : (forall file b f, In file seen -> ~ old_build name file b f) -> numbered name seen files 1 None
| num_same b f : greatest_build name seen b f -> same_contents f files -> numbered name seen files b (Some b)
| num_next b f : greatest_build name seen b f -> ~ same_contents f files -> numbered name seen files (b + 1) (Some b).
