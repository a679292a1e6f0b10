(** * What stripping is meant to do to each file *)
From Coq Require Import String Ascii List.
From stdpp Require Import gmap strings.
From Verif Require Import Model.Py Spec.PathSpec.
Import ListNotations.
Open Scope string_scope.

(** [part] occurs in [s] *)
Definition mentions (part s : string) : Prop := exists u v, s = u ++ part ++ v.
Definition within (dir f : string) : Prop := exists r, f = dir ++ "/" ++ r.

(** A name without blanks *)
Definition unbroken (f : string) : Prop := free_of " " f /\ free_of (ascii_of_nat 9) f.

(** Absolute names of files without empty components *)
Definition proper (fs : gmap string string) : Prop :=
  forall f, is_Some (fs !! f) -> (exists r, f = "/" ++ r) /\ ~ mentions "//" f.
(** The directory a source is built in *)
Definition build_place (dir : string) : Prop :=
  (exists r, dir = "/" ++ r) /\ ~ ends_in_slash dir /\ unbroken dir.

(** os.walk comes to every file below a directory once *)
Definition walks (walk : string -> gmap string string -> list string) : Prop :=
  forall d fs, List.NoDup (walk d fs) /\ forall f, In f (walk d fs) <-> is_Some (fs !! f) /\ within d f.

(** A libtool archive: a file named something.la *)
Definition libtool (f : string) : Prop :=
  exists d n c, f = d ++ n ++ ".la" /\ (d = "" \/ ends_in_slash d) /\
                free_of "/" n /\ In c (list_ascii_of_string n) /\ c <> "."%char.

(** NoStrip names it: one of the places given is the file or a directory it is in *)
Definition named_by (places : list string) (f : string) : Prop :=
  exists e, In e places /\ (f = e \/ within e f).

(** A place as action scripts write it: "/usr/lib" *)
Definition written_place (e : string) : Prop := exists p, e = "/" ++ p /\ relative_path p.
(** The file [r] of the package is exempt in fact: "" and "/" exempt every file, everything else
    has to begin with two slashes *)
Definition spared (places : list string) (r : string) : Prop :=
  exists e, In e places /\ (e = "" \/ e = "/" \/ exists p t, e = "//" ++ p /\ r = p ++ t).

(** What a directory of a build has in it: the file [r] *)
Definition has_file (fs : gmap string string) (dir r : string) : Prop := is_Some (fs !! (dir ++ "/" ++ r)).
(** No name in the directory is broken by a blank *)
Definition unbroken_below (fs : gmap string string) (dir : string) : Prop := forall r, has_file fs dir r -> unbroken r.

Section files.
  Context (file_says : string -> string) (strip_tool : string -> string -> option string)
          (keep_debug : string -> option string) (add_link : string -> string -> string -> option string)
          (sed_libs sed_dirs : string -> string) (generatedebug : bool).

  (** The paths of the build directory are taken out of libtool archives *)
  Inductive repaired (f c : string) : string -> Prop :=
  | rep_libtool : libtool f -> repaired f c (sed_dirs (sed_libs c))
  | rep_other : ~ libtool f -> repaired f c c.

  (** A program that fails leaves the file alone *)
  Definition ran (flags c : string) : string := match strip_tool flags c with Some c' => c' | None => c end.
  (** The debug information, when it can be had, or what another build left in its place *)
  Definition debug_info (old : option string) (c : string) : option string :=
    match keep_debug c with Some d => Some d | None => old end.
  Definition linked (name : string) (old : option string) (c : string) : string :=
    if generatedebug then
      match debug_info old c with
      | Some d => match add_link name d c with Some c' => c' | None => c end
      | None => c
      end
    else c.

  Inductive kind := Ar | Program | Library | Other.
  Inductive is_a (c : string) : kind -> Prop :=
  | is_ar : mentions "current ar archive" (file_says c) -> is_a c Ar
  | is_program : ~ mentions "current ar archive" (file_says c) -> mentions "SB executable" (file_says c) -> is_a c Program
  | is_library : ~ mentions "current ar archive" (file_says c) -> ~ mentions "SB executable" (file_says c) ->
                 mentions "SB shared object" (file_says c) -> is_a c Library
  | is_other : ~ mentions "current ar archive" (file_says c) -> ~ mentions "SB executable" (file_says c) ->
               ~ mentions "SB shared object" (file_says c) -> is_a c Other.

  (** The file with contents [c], whose debug information goes into [name] *)
  Inductive stripped (name : string) (old : option string) (c : string) : string -> Prop :=
  | strip_ar : is_a c Ar -> stripped name old c (ran "-g" c)
  | strip_program : is_a c Program -> stripped name old c (ran "" (linked name old c))
  | strip_library : is_a c Library -> stripped name old c (ran "--strip-unneeded" (linked name old c))
  | strip_other : is_a c Other -> stripped name old c c.

  (** What is then in the file for the debug information *)
  Inductive debugged (old : option string) (c : string) : option string -> Prop :=
  | deb_yes : generatedebug = true -> is_a c Program \/ is_a c Library -> debugged old c (debug_info old c)
  | deb_no : generatedebug = false \/ is_a c Ar \/ is_a c Other -> debugged old c old.

  (** What becomes of the file [r] of the package, with contents [c] before, and of the file with
      its debug information *)
  Definition done_to (base : string) (places : list string) (fs fs' : gmap string string) (r c : string) : Prop :=
    let f := base ++ "/install/" ++ r in
    let b := base ++ "/debug/" ++ r ++ ".debug" in
    exists c1, repaired f c c1 /\
      (spared places r /\ fs' !! f = Some c1 /\ fs' !! b = fs !! b \/
       ~ spared places r /\ (exists c2, stripped b (fs !! b) c1 c2 /\ fs' !! f = Some c2) /\ debugged (fs !! b) c1 (fs' !! b)).
End files.
