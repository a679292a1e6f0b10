(** * What the metadata of a built package must say, read off the spec *)
From Coq Require Import String ZArith NArith List Bool.
From stdpp Require Import gmap strings.
From Verif Require Import Model.Py Model.Xml Model.Schema Model.Metadata Spec.XmlSpec Spec.SpecFileSpec.
Import ListNotations.
Open Scope string_scope.

(** The updates of a spec, newest first *)
Definition updates (spec : node) : list node := flat_map (elements "Update") (elements "History" spec).
(** An attribute's text is [v] *)
Definition attribute_says (name : string) (e : node) (v : value) : Prop :=
  exists t, assoc name (attrs e) = Some t /\ string_of v t.
(** An update as an object *)
Definition update_of (e : node) (v : value) : Prop :=
  exists o, v = VObj o /\ decode c_Update e = Ok (o, []) /\ says "Version" e (field o "version") /\ attribute_says "release" e (field o "release").

(** The component: the package's own, or the source's, or that of the directory above *)
Definition part_of (src e : node) (above : option string) (v : value) : Prop :=
  (given "PartOf" e -> says "PartOf" e v) /\
  (~ given "PartOf" e -> given "PartOf" src -> says "PartOf" src v) /\
  (~ given "PartOf" e -> ~ given "PartOf" src -> exists c, above = Some c /\ v = VStr c).

Definition source_of (src : node) (v : value) : Prop :=
  exists s, v = VObj s /\ says "Name" src (field s "name") /\ says "Homepage" src (field s "homepage") /\
    exists pe p, hd_error (elements "Packager" src) = Some pe /\ field s "packager" = VObj p /\ decode c_Packager pe = Ok (p, []).

(** The package [p] of a metadata.xml, for the element [e] of a spec with the source element [src] *)
Definition package_of (spec src e : node) (above : option string) (p : list (string * value)) : Prop :=
  says "Name" e (field p "name") /\
  part_of src e above (field p "partOf") /\
  ((given "Icon" e -> says "Icon" e (field p "icon")) /\ (~ given "Icon" e -> says "Icon" src (field p "icon"))) /\
  (forall tag name, In (tag, name) [("Summary", "summary"); ("Description", "description")] ->
     (elements tag e <> [] -> says_local tag e (field p name)) /\ (elements tag e = [] -> says_local tag src (field p name))) /\
  (exists l, field p "license" = strings l /\
     (elements "License" e <> [] -> says_all "License" e l) /\ (elements "License" e = [] -> says_all "License" src l)) /\
  (exists l l', field p "isA" = strings (l ++ l') /\ says_all "IsA" e l /\ says_all "IsA" src l') /\
  (exists us, field p "history" = VList us /\ us <> [] /\ Forall2 update_of (updates spec) us) /\
  source_of src (field p "source") /\
  (* dependencies, conflicts, paths, services, additional files as in the package's element *)
  exists alone, decode c_Package e = Ok (alone, []) /\
    forall name, In name ["packageDependencies"; "componentDependencies"; "files"; "conflicts"; "providesComar"; "additionalFiles"] -> field p name = field alone name.

(** A text as the configuration gives it: ASCII, without white space around it, perhaps empty *)
Definition plain_text (s : string) : Prop := ascii_only s /\ (s = "" \/ trimmed (codes s)).
Definition usable (c : setting) (above : option string) (build_no : option Z) : Prop :=
  plain_text (s_distribution c) /\ plain_text (s_distribution_release c) /\
  (forall f, s_format c = Some f -> plain_text f /\ f <> "") /\
  (forall a, above = Some a -> plain_text a /\ a <> "") /\ build_no <> Some 0%Z.

(** A version or a release that goes into the name of a file: that of the source, or else that of
    the newest update *)
Definition version_of (spec src : node) (s : string) : Prop :=
  (given "Version" src -> says "Version" src (VStr s)) /\
  (~ given "Version" src -> exists e rest, updates spec = e :: rest /\ says "Version" e (VStr s)).
Definition release_of (spec src : node) (s : string) : Prop :=
  (given "Release" src -> says "Release" src (VStr s)) /\
  (~ given "Release" src -> exists e rest, updates spec = e :: rest /\ attribute_says "release" e (VStr s)).
(** zlib-1.2-3-4.pisi, or zlib-1.2-3.pisi if there is no build number *)
Definition file_name (name version release : string) (build_no : option Z) : string :=
  name ++ "-" ++ version ++ "-" ++ release ++ match build_no with Some b => "-" ++ str_of_Z b | None => "" end ++ ".pisi".
