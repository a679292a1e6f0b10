(** * The metadata of a package that is built from a spec: pisi/op/build.py 290-308, 559-592 and
    776-794, pisi/data/metadata.py 77-105

    Simplified: the attributes [version] and [release] that from_spec sets (metadata.py 101-105)
    are left out, since they are not members of the classes and are not written.  Neither static
    nor debug packages are asked for. *)
From Coq Require Import String ZArith NArith List Bool.
From stdpp Require Import gmap strings.
From Verif Require Import Model.Py Model.Path Model.Xml Model.Schema Model.XmlFile.
Import ListNotations.
Open Scope string_scope.

(** build.py 290-308.  [above] is the name in the component.xml of the directory above that of the
    spec, if there is such a file; without one there is an Exception *)
Definition fetch_component (above : option string) (o : list (string * value)) : res (list (string * value)) :=
  source <- as_object (field o "source") ;;
  if truth (field source "partOf") then Ok o
  else match above with
       | None => Err EError
       | Some c => override_tags (assign "source" (VObj (assign "partOf" (VStr c) source)) o)
       end.

(** metadata.py 80-83 *)
Definition from_source (src : list (string * value)) : list (string * value) :=
  [("name", field src "name"); ("homepage", field src "homepage"); ("packager", field src "packager")].
Definition number (n : option Z) : value := match n with Some z => VInt z | None => VNone end.
Definition text_or_none (s : option string) : value := match s with Some s => VStr s | None => VNone end.

(** What the configuration and the options say *)
Record setting : Type := mkSetting {
  s_distribution : string;              (* ctx.config.values.general.distribution *)
  s_distribution_release : string;      (* ... distribution_release *)
  s_format : option string              (* ctx.get_option('package_format') *)
}.
(** metadata.py 77-105 and build.py 564-586: the object in the order of its members.  [packageSize]
    and [packageURI] are not set. *)
Definition gen_metadata (c : setting) (size : Z) (build_no : option Z) (src pkg : list (string * value)) : list (string * value) :=
  [("source", VObj (from_source src));
   ("package", VObj
     [("name", field pkg "name"); ("summary", field pkg "summary"); ("description", field pkg "description"); ("isA", field pkg "isA");
      ("partOf", field pkg "partOf"); ("license", field pkg "license"); ("icon", field pkg "icon");
      ("packageDependencies", field pkg "packageDependencies"); ("componentDependencies", field pkg "componentDependencies");
      ("files", field pkg "files"); ("conflicts", field pkg "conflicts"); ("providesComar", field pkg "providesComar");
      ("additionalFiles", field pkg "additionalFiles"); ("history", field src "history"); ("build", number build_no);
      ("distribution", VStr (s_distribution c)); ("distributionRelease", VStr (s_distribution_release c)); ("architecture", VStr "Any");
      ("installedSize", VInt size); ("packageSize", VNone); ("packageURI", VNone); ("packageFormat", text_or_none (s_format c));
      ("source", VObj (from_source src))])].

(** Adding up texts to the name of the file *)
Definition as_text (v : value) : res string := match v with VStr s => Ok s | _ => Err EType end.

Section built.
  Context (keys : gmap utext (option utext) -> list utext) (lang : utext).
  (** From the spec to the package at place [i]: the name of its file (build.py 777-781) and its
      metadata.xml (build.py 588-589) *)
  Definition built (c : setting) (above : option string) (spec : node) (i : nat) (size : Z) (build_no : option Z) : res (string * node) :=
    o <- read_spec lang spec ;;
    o <- fetch_component above o ;;
    src <- as_object (field o "source") ;;
    pkgs <- as_list (field o "packages") ;;
    match nth_error pkgs i with
    | None => Err EIndex
    | Some v =>
        pkg <- as_object v ;;
        m <- write keys lang c_MetaData (gen_metadata c size build_no src pkg) ;;
        name <- as_text (field pkg "name") ;;
        version <- as_text (field src "version") ;;
        release <- as_text (field src "release") ;;
        Ok (package_name name version release build_no true, m)
    end.
End built.

(** metadata.py 54-56: the version and the release a package has when its metadata are read *)
Definition version_read (p : list (string * value)) : res (value * value) :=
  h <- as_list (field p "history") ;;
  match h with
  | [] => Err EIndex
  | v :: _ => u <- as_object v ;; Ok (field u "version", field u "release")
  end.
