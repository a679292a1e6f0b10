(** * Reading specs: C57 *)
From Coq Require Import String ZArith NArith List Bool.
From stdpp Require Import gmap strings.
From Verif Require Import Model.Py Model.Xml Model.Schema Model.XmlFile Spec.XmlSpec Spec.SpecFileSpec Proof.SpecFileFacts.
Import ListNotations.
Open Scope string_scope.

(** C57: after reading a spec, each package has its own values where given, and the source's where not;
    the kinds (IsA) are both, and everything else is as in the package's own element. *)
Theorem C57_packages_inherit lang n o : read_spec lang n = Ok o ->
  exists src pkgs, hd_error (elements "Source" n) = Some src /\ field o "packages" = VList pkgs /\
    Forall2 (inherits src (field o "history")) (elements "Package" n) pkgs.
Proof. exact (spec_inherits lang n o). Qed.
Print Assumptions C57_packages_inherit.

(** The source's version and release: its own, or those of the newest update. *)
Theorem C57_source_version lang n o : read_spec lang n = Ok o ->
  exists src s u l, hd_error (elements "Source" n) = Some src /\ field o "source" = VObj s /\
    field o "history" = VList (VObj u :: l) /\ field s "history" = field o "history" /\
    forall tag name, In (tag, name) [("Version", "version"); ("Release", "release")] ->
      (given tag src -> says tag src (field s name)) /\ (~ given tag src -> field s name = field u name).
Proof. exact (spec_version lang n o). Qed.
Print Assumptions C57_source_version.

(** A spec with two packages, the second with a license, a summary and a part of its own *)
Definition leaf (tag text : string) : node := Elem tag [] [Data (codes text)].
Definition in_language (tag lang text : string) : node := Elem tag [("xml:lang", codes lang)] [Data (codes text)].
Definition a_source : node :=
  Elem "Source" []
    [leaf "Name" "zlib"; Elem "Packager" [] [leaf "Name" "Ada"; leaf "Email" "a@example.org"]; in_language "Summary" "en" "Compression";
     in_language "Summary" "tr" "Sikistirma"; in_language "Description" "en" "A library"; leaf "IsA" "library"; leaf "PartOf" "system.base";
     leaf "License" "BSD"; Elem "Archive" [("type", codes "targz"); ("sha1sum", codes "00")] [Data (codes "http://example.org/zlib.tar.gz")]].
Definition a_history : node :=
  Elem "History" [] [Elem "Update" [("release", codes "2")] [leaf "Date" "2006-11-16"; leaf "Version" "1.2"];
                     Elem "Update" [("release", codes "1")] [leaf "Date" "2006-11-15"; leaf "Version" "1.1"]].
Definition a_spec : node :=
  Elem "PISI" []
    [a_source; Elem "Package" [] [leaf "Name" "zlib"; leaf "IsA" "shared"];
     Elem "Package" [] [leaf "Name" "zlib-devel"; leaf "License" "GPL"; leaf "PartOf" " system.devel "; in_language "Summary" "tr" "Baslik"]; a_history].
Example C57_nontrivial : exists o s p q,
  read_spec english a_spec = Ok o /\ field o "source" = VObj s /\ field o "packages" = VList [VObj p; VObj q] /\
  field s "version" = VStr "1.2" /\ field s "release" = VStr "2" /\
  field p "isA" = VList [VStr "shared"; VStr "library"] /\ field p "license" = VList [VStr "BSD"] /\ field p "partOf" = VStr "system.base" /\
  (exists d, field p "summary" = VLocal d /\ d !! codes "en" = Some (Some (codes "Compression")) /\ d !! codes "tr" = Some (Some (codes "Sikistirma"))) /\
  field q "isA" = VList [VStr "library"] /\ field q "license" = VList [VStr "GPL"] /\ field q "partOf" = VStr "system.devel" /\
  (exists d, field q "summary" = VLocal d /\ d !! codes "en" = None /\ d !! codes "tr" = Some (Some (codes "Baslik"))).
Proof.
  eexists _, _, _, _. repeat (split; [first [vm_compute; reflexivity|eexists; split; [vm_compute; reflexivity|split; vm_compute; reflexivity]]|]).
  eexists; split; [vm_compute; reflexivity|split; vm_compute; reflexivity].
Qed.
