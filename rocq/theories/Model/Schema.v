(** * The classes of pisi's documents *)
From Coq Require Import String ZArith List.
From stdpp Require Import gmap strings.
From Verif Require Import Model.Py Model.Xml.
Import ListNotations.
Open Scope string_scope.

Definition string_tag (token : string) (mandatory : bool) : member typ := Tag token (Basic TString) mandatory None.
Definition text_tag (token : string) (mandatory : bool) : member typ := Tag token (Basic TText) mandatory None.
Definition local_tag (token : string) (mandatory : bool) : member typ := Tag token LocalText mandatory None.
Definition list_tag (token : string) (t : typ) (mandatory : bool) (path : option string) : member typ := Tag token (ListOf t) mandatory path.

(** data/specfile.py 43-46 *)
Definition c_Packager : typ := Object "Packager" [text_tag "Name" true; string_tag "Email" true] NoHook.
(** data/specfile.py 53-57 *)
Definition c_AdditionalFile : typ :=
  Object "AdditionalFile" [Str "Filename" TString true; Attr "target" TString true; Attr "permission" TString false] NoHook.
(** data/specfile.py 66-71 *)
Definition c_Patch : typ :=
  Object "Patch" [Str "Filename" TString true; Attr "compressionType" TString false; Attr "level" TInteger false; Attr "target" TString false] NoHook.
(** data/specfile.py 89-97 *)
Definition c_Update : typ :=
  Object "Update" [Attr "release" TString true; string_tag "Date" true; string_tag "Version" true; string_tag "Type" false;
                   text_tag "Name" false; string_tag "Email" false; string_tag "Comment" false] NoHook.
(** data/specfile.py 108-112 *)
Definition c_Path : typ := Object "Path" [Str "Path" TString true; Attr "fileType" TString false; Attr "permanent" TString false] NoHook.
(** data/specfile.py 120-123 *)
Definition c_ComarProvide : typ := Object "ComarProvide" [Str "om" TString true; Attr "script" TString true] NoHook.
(** data/specfile.py 132-140 *)
Definition c_Archive : typ :=
  Object "Archive" [Str "uri" TString true; Attr "type" TString true; Attr "sha1sum" TString true; Attr "norootdir" TString false] BaseOfUri.
(** data/dependency.py 25-35 *)
Definition c_Dependency : typ :=
  Object "Dependency" [Str "Package" TString true; Attr "version" TString false; Attr "versionFrom" TString false; Attr "versionTo" TString false;
                       Attr "release" TString false; Attr "releaseFrom" TString false; Attr "releaseTo" TString false] NoHook.
(** data/specfile.py 147-163 *)
Definition c_Source : typ :=
  Object "Source"
    [string_tag "Name" true; string_tag "Homepage" false; Tag "Packager" c_Packager true None; local_tag "Summary" true;
     local_tag "Description" true; list_tag "IsA" (Basic TString) false None; string_tag "PartOf" false; string_tag "Icon" false;
     list_tag "License" (Basic TString) true None; Tag "Archive" c_Archive true None; list_tag "Patches" c_Patch false None;
     list_tag "BuildDependencies" c_Dependency false None; string_tag "Version" false; string_tag "Release" false;
     string_tag "SourceURI" false] NoHook.
(** data/specfile.py 166-183 *)
Definition package_members : list (member typ) :=
  [string_tag "Name" true; local_tag "Summary" false; local_tag "Description" false; list_tag "IsA" (Basic TString) false None;
   string_tag "PartOf" false; list_tag "License" (Basic TString) false None; string_tag "Icon" false;
   list_tag "PackageDependencies" c_Dependency false (Some "RuntimeDependencies/Dependency");
   list_tag "ComponentDependencies" (Basic TString) false (Some "RuntimeDependencies/Component");
   list_tag "Files" c_Path false None; list_tag "Conflicts" (Basic TString) false (Some "Conflicts/Package");
   list_tag "ProvidesComar" c_ComarProvide false (Some "Provides/COMAR"); list_tag "AdditionalFiles" c_AdditionalFile false None;
   list_tag "History" c_Update false None].
Definition c_Package : typ := Object "Package" package_members NoHook.
(** data/component.py 30-43 *)
Definition c_Distribution : typ :=
  Object "PISI" [text_tag "SourceName" true; local_tag "Description" true; text_tag "Version" false; text_tag "Type" true;
                 list_tag "Dependencies" (Basic TText) false (Some "Dependencies/Distribution"); text_tag "BinaryName" false;
                 text_tag "Architecture" false] NoHook.
(** data/component.py 46-73 *)
Definition c_Component : typ :=
  Object "PISI" [string_tag "Name" true; local_tag "LocalName" true; local_tag "Summary" true; local_tag "Description" true;
                 list_tag "Dependencies" (Basic TString) false (Some "Dependencies/Component");
                 list_tag "Packages" (Basic TString) false (Some "Parts/Package");
                 list_tag "Sources" (Basic TString) false (Some "Parts/Source")] NoHook.
(** data/specfile.py 227-235 *)
Definition c_SpecFile : typ :=
  Object "PISI" [Tag "Source" c_Source true None; list_tag "Packages" c_Package true (Some "Package"); list_tag "History" c_Update true None;
                 list_tag "Components" c_Component false (Some "Component")] NoHook.
(** data/metadata.py 30-35 *)
Definition c_MetaSource : typ :=
  Object "Source" [string_tag "Name" true; string_tag "Homepage" false; Tag "Packager" c_Packager true None] NoHook.
(** data/metadata.py 37-56 *)
Definition c_MetaPackage : typ :=
  Object "Package"
    (package_members ++
     [string_tag "PartOf" true; Tag "Build" (Basic TInteger) false None; string_tag "Distribution" true; string_tag "DistributionRelease" true;
      string_tag "Architecture" true; Tag "InstalledSize" (Basic TLong) true None; Tag "PackageSize" (Basic TLong) false None;
      string_tag "PackageURI" false; string_tag "PackageFormat" false; Tag "Source" c_MetaSource false None]) FirstOfHistory.
(** data/metadata.py 66-75 *)
Definition c_MetaData : typ := Object "PISI" [Tag "Source" c_MetaSource true None; Tag "Package" c_MetaPackage true None] NoHook.
(** data/files.py 19-28: the third item of Hash is not used (autoxml.py 489-500, 615-660) *)
Definition c_FileInfo : typ :=
  Object "FileInfo" [string_tag "Path" true; string_tag "Type" true; Tag "Size" (Basic TLong) false None;
                     Tag "Hash" (Basic TString) false (Some "SHA1Sum"); string_tag "Permanent" false] NoHook.
(** data/files.py 36-42 *)
Definition c_Files : typ := Object "Files" [list_tag "List" c_FileInfo false (Some "File")] NoHook.
(** data/index.py 39-48 *)
Definition c_Index : typ :=
  Object "PISI" [Tag "Distribution" c_Distribution false None; list_tag "Specs" c_SpecFile false (Some "SpecFile");
                 list_tag "Packages" c_MetaPackage false (Some "Package"); list_tag "Components" c_Component false (Some "Component")] NoHook.

(** The documents pisi reads and writes *)
Definition documents : list typ := [c_SpecFile; c_MetaData; c_Files; c_Index; c_Component; c_Distribution].
