(** * Where additional files are meant to end up *)
From Coq Require Import String Ascii NArith List.
From stdpp Require Import gmap strings.
From Verif Require Import Model.Py Spec.PathSpec Model.Additional.
Import ListNotations.
Open Scope string_scope.

(** "/etc/zip.conf" *)
Definition good_target (target : string) : Prop := exists p, target = "/" ++ p /\ relative_path p.
(** The directory files are installed to *)
Definition install_place (dir : string) : Prop := dir <> "" /\ ~ ends_in_slash dir.

(** What octal numbers mean *)
Fixpoint octal_value (digits : list N) : N :=
  match digits with [] => 0 | d :: ds => d * 8 ^ N.of_nat (length ds) + octal_value ds end.
Definition octal (s : string) (n : N) : Prop :=
  exists ds, ds <> [] /\ List.Forall (fun d => (d < 8)%N) ds /\ n = octal_value ds /\
             list_ascii_of_string s = map (fun d => ascii_of_N (48 + d)) ds.

(** The permission given, if any *)
Definition permits (af : addfile) (n : N) : Prop := exists s, af_permission af = Some s /\ octal s n.
Definition unsaid (af : addfile) : Prop := af_permission af = None \/ af_permission af = Some "".

(** The last one of a list with a property *)
Definition last_with {A} (P : A -> Prop) (l : list A) (x : A) : Prop :=
  exists before after, l = (before ++ x :: after)%list /\ P x /\ forall y, In y after -> ~ P y.

Section where_to.
  Context (sources : string -> option string) (umask : N) (install : string).
  Definition for_place (f : string) (af : addfile) : Prop := f = install ++ af_target af.

  (** The last additional file for a place gives the contents, the last one for it with a
      permission the mode; where none has one it is the mode of what was there, or that of a
      new file *)
  Definition mode_of (t : tree) (afs : list addfile) (f : string) (m : N) : Prop :=
    (exists af n, last_with (fun af => for_place f af /\ ~ unsaid af) afs af /\ permits af n /\ m = (n mod 4096)%N) \/
    ((forall af, In af afs -> for_place f af -> unsaid af) /\
      (forall c0 m0, t !! f = Some (c0, m0) -> m = m0) /\
      (t !! f = None -> m = N.land 438 (N.lxor 511 umask))).
  Inductive placed (t : tree) (afs : list addfile) (f : string) : option (string * N) -> Prop :=
  | placed_new af c m : last_with (for_place f) afs af -> sources (af_name af) = Some c -> mode_of t afs f m ->
      placed t afs f (Some (c, m))
  | placed_old : (forall af, In af afs -> ~ for_place f af) -> placed t afs f (t !! f).

  (** Everything is there to succeed *)
  Definition storable (t : tree) (afs : list addfile) : Prop :=
    (forall af, In af afs -> good_target (af_target af) /\ is_Some (sources (af_name af)) /\ (unsaid af \/ exists n, permits af n)) /\
    (forall af g, In af afs -> is_Some (t !! g) \/ (exists af', In af' afs /\ g = install ++ af_target af') ->
       (forall r, g <> install ++ af_target af ++ "/" ++ r) /\ (forall r, install ++ af_target af <> g ++ "/" ++ r)).
End where_to.

(** All that packages up to and including number [k] add *)
Definition added_upto (pkgs : list apkg) (k : nat) : list addfile := concat (map ap_files (firstn (S k) pkgs)).
