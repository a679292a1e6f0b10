(** * Vocabulary for "which files go into which package" *)
From Coq Require Import String Ascii List.
From Verif Require Import Model.Contents Spec.PathSpec.
Import ListNotations.
Open Scope string_scope.

(** A file is known by the names that lead to it, ["usr"; "lib"; "libz.so"] *)
Definition good_name (n : string) : Prop := n <> "" /\ free_of "/" n.
(** /usr/lib/libz.so, as a spec file writes it *)
Definition text (p : list string) : string := fold_right (fun n s => "/" ++ n ++ s) "" p.
(** usr/lib/libz.so, as files.xml writes it *)
Definition short (p : list string) : string := match p with [] => "" | n :: p => n ++ text p end.
Definition covers (p f : list string) : Prop := exists r, f = (p ++ r)%list.

(** The tree of a file system: names are good, and no directory has one twice *)
Inductive well_formed : node -> Prop :=
| wf_file c : well_formed (NFile c)
| wf_link g to : well_formed (NLink g to)
| wf_dir es : NoDup (map fst es) -> (forall n c, In (n, c) es -> good_name n /\ well_formed c) -> well_formed (NDir es).

Inductive lies_at : node -> list string -> node -> Prop :=
| lies_here x : lies_at x [] x
| lies_below es n c p x : In (n, c) es -> lies_at c p x -> lies_at (NDir es) (n :: p) x.

(** What a build produced: files, links and empty directories *)
Definition produced (t : node) (f : list string) (x : node) : Prop :=
  lies_at t f x /\ forall es, x = NDir es -> es = [].
Definition is_directory (x : node) : Prop := exists es, x = NDir es.
(** The checksum that may be recorded.  A link is recorded by the text of its target; one that
    is itself listed and leads to a file may be recorded by that file's contents. *)
Inductive fingerprint (sha1 : string -> string) : node -> option string -> Prop :=
| fp_file c : fingerprint sha1 (NFile c) (Some (sha1 c))
| fp_link g to : fingerprint sha1 (NLink g to) (Some (sha1 g))
| fp_through g c : fingerprint sha1 (NLink g (ToFile c)) (Some (sha1 c))
| fp_dir es : fingerprint sha1 (NDir es) None.

(** The packages of a spec are lists of paths.  An explicit path has no wild cards. *)
Definition lists (pkgs : list (list pathinfo)) (i : nat) (pi : pathinfo) : Prop :=
  exists l, nth_error pkgs i = Some l /\ In pi l.
Definition explicit (pi : pathinfo) (p : list string) : Prop :=
  p <> [] /\ Forall good_name p /\ pi_path pi = text p /\
  free_of "*" (text p) /\ free_of "?" (text p) /\ free_of "[" (text p).
Definition names (pkgs : list (list pathinfo)) (i : nat) (p : list string) : Prop :=
  exists pi, lists pkgs i pi /\ explicit pi p.
Definition all_explicit (pkgs : list (list pathinfo)) : Prop :=
  forall i pi, lists pkgs i pi -> exists p, explicit pi p.

(** The full name of a listed path is never found within the full name of a file it does not
    cover: not /usr/lib beside /usr/library, for instance *)
Definition unambiguous (install : string) (t : node) (pkgs : list (list pathinfo)) : Prop :=
  forall i p f x, names pkgs i p -> produced t f x ->
  (exists a b, install ++ text f = a ++ (install ++ text p) ++ b) -> covers p f.
Definition proper_dir (install : string) : Prop := install <> "" /\ ~ ends_in_slash install.

(** No two packages list the same path *)
Definition distinct_paths (pkgs : list (list pathinfo)) : Prop :=
  forall i j p, names pkgs i p -> names pkgs j p -> i = j.
(** No package lists a path between two paths of another *)
Definition no_sandwich (pkgs : list (list pathinfo)) : Prop :=
  forall i j p q p', names pkgs i p -> names pkgs j q -> names pkgs i p' -> covers p q -> covers q p' -> i = j.

(** The path listed by package [i] that covers [f] most closely *)
Definition nearest (pkgs : list (list pathinfo)) (i : nat) (f p : list string) : Prop :=
  names pkgs i p /\ covers p f /\ forall q, names pkgs i q -> covers q f -> covers q p.
(** ... and by any package *)
Definition nearest_of_all (pkgs : list (list pathinfo)) (f p : list string) (i : nat) : Prop :=
  names pkgs i p /\ covers p f /\ forall j q, names pkgs j q -> covers q f -> covers q p.
(** The first entry of package [i] for the path [p] *)
Definition first_entry (pkgs : list (list pathinfo)) (i : nat) (p : list string) (pi : pathinfo) : Prop :=
  exists l before after, nth_error pkgs i = Some l /\ l = (before ++ pi :: after)%list /\
    pi_path pi = text p /\ forall pj, In pj before -> pi_path pj <> text p.

(** Covered by a path of package [i], and not taken away by another package: none lists a path
    that covers it and lies at or below a path of package [i] - unless the file is itself listed *)
Definition belongs (t : node) (pkgs : list (list pathinfo)) (i : nat) (f : list string) : Prop :=
  exists x p, produced t f x /\ names pkgs i p /\ covers p f /\
    ((p = f /\ ~ is_directory x) \/
     ~ exists j q p', j <> i /\ names pkgs j q /\ covers q f /\ names pkgs i p' /\ covers p' q).

(** ** Wild cards *)
(** A star stands for any text, a question mark for one character *)
Inductive fits : string -> string -> Prop :=
| fits_end : fits "" ""
| fits_char a p n : a <> "*"%char -> fits p n -> fits (String a p) (String a n)
| fits_any b p n : fits p n -> fits (String "?" p) (String b n)
| fits_star s p n : fits p n -> fits (String "*" p) (s ++ n).
Definition wild_name (p : string) : Prop := ~ free_of "*" p \/ ~ free_of "?" p.
Definition hidden (n : string) : Prop := exists r, n = "." ++ r.
(** A name with wild cards stands for the names that fit it, hidden ones only if it begins
    with a dot itself; any other name stands for itself *)
Definition stands_for (p n : string) : Prop :=
  (wild_name p /\ fits p n /\ (hidden n -> hidden p)) \/ (~ wild_name p /\ p = n).
Definition matches_path (p q : list string) : Prop := Forall2 stands_for p q.
(** A listed path, perhaps with stars and question marks, but no brackets *)
Definition pattern (pi : pathinfo) (p : list string) : Prop :=
  p <> [] /\ Forall good_name p /\ pi_path pi = text p /\ free_of "[" (text p).
Definition all_patterns (pkgs : list (list pathinfo)) : Prop :=
  forall i pi, lists pkgs i pi -> exists p, pattern pi p.
(** A listed path of package [i] stands for [q] *)
Definition found_under (pkgs : list (list pathinfo)) (i : nat) (q : list string) : Prop :=
  exists pi p, lists pkgs i pi /\ pattern pi p /\ matches_path p q.
(** Its full name begins with the text of a path of another package that lies at or below a
    path of package [i] *)
Definition begins_like_another (pkgs : list (list pathinfo)) (i : nat) (f : list string) : Prop :=
  exists j pj pi q p r, j <> i /\ lists pkgs j pj /\ lists pkgs i pi /\ pattern pj q /\ pattern pi p /\
    covers p q /\ text f = pi_path pj ++ r.
Definition belongs_wild (t : node) (pkgs : list (list pathinfo)) (i : nat) (f : list string) : Prop :=
  exists x q, produced t f x /\ found_under pkgs i q /\ covers q f /\
    ((q = f /\ ~ is_directory x) \/ ~ begins_like_another pkgs i f).
