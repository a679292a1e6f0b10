(** * Vocabulary for "what is built is what is installed" *)
From Coq Require Import String Ascii List.
From stdpp Require Import gmap strings.
From Verif Require Import Model.Py Model.InstallDB Model.Path Model.Fs Model.Contents Model.Ops
  Spec.PathSpec Spec.ContentsSpec Spec.FsSpec Spec.OpsSpec.
Open Scope string_scope.

(** How a file, a link or an empty directory is stored in a package *)
Inductive stored : Contents.node -> Fs.entry -> Prop :=
| st_file c : stored (Contents.NFile c) (AFile c)
| st_link g to : stored (Contents.NLink g to) (ALink g)
| st_dir : stored (Contents.NDir []) ADir.
(** ... and what it is once installed *)
Inductive becomes : Contents.node -> Fs.node -> Prop :=
| bc_file c : becomes (Contents.NFile c) (Fs.NFile c)
| bc_link g to : becomes (Contents.NLink g to) (Fs.NLink g)
| bc_dir : becomes (Contents.NDir []) Fs.NDir.

(** The package holds exactly what belongs to package [i] *)
Definition holds_exactly (t : Contents.node) (pkgs : list (list pathinfo)) (i : nat) (k : pkgfile) : Prop :=
  forall p e, In (p, e) (k_data k) <-> exists f x, p = short f /\ belongs t pkgs i f /\ lies_at t f x /\ stored x e.
(** ... and lists exactly that, with type, permanence and checksum *)
Definition describes (sha1 : string -> string) (t : Contents.node) (pkgs : list (list pathinfo)) (i : nat) (f : list string) (fi : finfo) : Prop :=
  exists x p pi, lies_at t f x /\ nearest pkgs i f p /\ first_entry pkgs i p pi /\
    f_path fi = short f /\ pi_type pi = Some (f_type fi) /\ f_permanent fi = pi_permanent pi /\ fingerprint sha1 x (f_hash fi).
Definition lists_exactly (sha1 : string -> string) (t : Contents.node) (pkgs : list (list pathinfo)) (i : nat) (k : pkgfile) : Prop :=
  (forall fi, In fi (k_files k) -> exists f, belongs t pkgs i f /\ describes sha1 t pkgs i f fi) /\
  (forall f, belongs t pkgs i f -> exists fi, In fi (k_files k) /\ f_path fi = short f).

(** A file of the package falls under a path without a type *)
Definition untyped (t : Contents.node) (pkgs : list (list pathinfo)) (i : nat) : Prop :=
  exists f p pi, belongs t pkgs i f /\ nearest pkgs i f p /\ first_entry pkgs i p pi /\ (pi_type pi = None \/ pi_type pi = Some "").
(** Nothing that was produced is called like the files the program puts beside configuration
    files *)
Definition no_side_names (t : Contents.node) : Prop := forall f x, produced t f x -> ~ side_name (short f).

(** The configuration files among the files of a package *)
Definition listed_config (k : pkgfile) (p : string) : Prop := exists fi, In fi (k_files k) /\ f_path fi = p /\ is_config fi.

(** ** What an installation may touch *)
(** Places of the files and links of the package, of its configuration files, and what is put
    beside these *)
Definition own_place (dest : string) (k : pkgfile) (q : string) : Prop :=
  (exists p e, In (p, e) (k_data k) /\ q = located dest p) \/
  (exists p s, listed_config k p /\ (s = "" \/ s = ".old" \/ s = ".newconfig") /\ q = located dest (p +:+ s)).
(** A directory that leads to one of its files *)
Definition on_the_way (dest : string) (k : pkgfile) (q : string) : Prop :=
  exists p e, In (p, e) (k_data k) /\ above q (located dest p).
(** Below one of its links *)
Definition below_a_link (dest : string) (k : pkgfile) (q : string) : Prop :=
  exists p g, In (p, ALink g) (k_data k) /\ above (located dest p) q.
Definition relative_paths (k : pkgfile) : Prop :=
  (forall fi, In fi (k_files k) -> relative_path (f_path fi)) /\ (forall p e, In (p, e) (k_data k) -> relative_path p).

(** ** Both formats *)
(** No member is below another: that is how packages are built *)
Definition nothing_nested (data : list (string * Fs.entry)) : Prop :=
  forall p e p' e', In (p, e) data -> In (p', e') data -> ~ above p p'.
(** Nothing is at the places of its empty directories, no directory at the places of its files
    and links, and no device at the places of its links *)
Definition nothing_in_the_way (dest : string) (data : list (string * Fs.entry)) (f : fs) : Prop :=
  forall p e, In (p, e) data ->
    match e with
    | ADir => f !! located dest p = None
    | AFile _ => f !! located dest p <> Some Fs.NDir
    | ALink _ => f !! located dest p <> Some Fs.NDir /\ f !! located dest p <> Some Fs.NOther
    end.
