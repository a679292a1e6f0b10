(** * The metadata of built packages: C72 *)
From Coq Require Import String ZArith NArith List Bool.
From stdpp Require Import gmap strings.
From Verif Require Import Model.Py Model.Path Model.Xml Model.Schema Model.XmlFile Model.Metadata Spec.XmlSpec Spec.SpecFileSpec Spec.MetadataSpec
  Proof.XmlCheck Proof.MetadataFacts Proof.MetadataTop.
Require Import Verif.Prop.XmlProps Verif.Prop.SpecFileProps.
Import ListNotations.
Open Scope string_scope.

(** C72: whoever reads the metadata.xml of a package that was built finds what the spec says about
    that package, what the configuration and the options say, the size and the build number; and
    the file has the name of the package, the source's version and release, and the build number. *)
Theorem C72_metadata_says_what_the_spec_says keys lang c above spec i size build_no f m : any_order keys -> usable c above build_no ->
  built keys lang c above spec i size build_no = Ok (f, m) ->
  exists src e r p, hd_error (elements "Source" spec) = Some src /\ nth_error (elements "Package" spec) i = Some e /\
    read no_hook lang c_MetaData m = Ok r /\ source_of src (field r "source") /\ field r "package" = VObj p /\ package_of spec src e above p /\
    field p "distribution" = VStr (s_distribution c) /\ field p "distributionRelease" = VStr (s_distribution_release c) /\
    field p "packageFormat" = match s_format c with Some f => VStr f | None => VNone end /\
    field p "installedSize" = VInt size /\ field p "build" = match build_no with Some b => VInt b | None => VNone end /\
    exists name version release, says "Name" e (VStr name) /\ version_of spec src version /\ release_of spec src release /\
      f = file_name name version release build_no.
Proof. exact (fun O => built_describes keys lang O c above spec i size build_no f m). Qed.
Print Assumptions C72_metadata_says_what_the_spec_says.

(** Exactly when a package of a spec that can be read is built. *)
Theorem C72_built_exactly_when keys lang c above spec i size build_no o src : any_order keys -> usable c above build_no -> read_spec lang spec = Ok o ->
  hd_error (elements "Source" spec) = Some src -> (i < length (elements "Package" spec))%nat ->
  (exists r, built keys lang c above spec i size build_no = Ok r) <->
  (given "PartOf" src \/ above <> None) /\ s_distribution c <> "" /\ s_distribution_release c <> "" /\ size <> 0%Z.
Proof. exact (fun O => built_iff keys lang O c above spec i size build_no o src). Qed.
Print Assumptions C72_built_exactly_when.

(** The file is named after the version and release that the package has when it is read, provided
    the source element has no version or release of its own. *)
Theorem C72_file_named_after_installed_version_partial keys lang c above spec i size build_no f m src r p : any_order keys -> usable c above build_no ->
  built keys lang c above spec i size build_no = Ok (f, m) -> hd_error (elements "Source" spec) = Some src -> ~ given "Version" src -> ~ given "Release" src ->
  read no_hook lang c_MetaData m = Ok r -> field r "package" = VObj p ->
  exists name version release, field p "name" = VStr name /\ version_read p = Ok (VStr version, VStr release) /\ f = file_name name version release build_no.
Proof. exact (file_agrees keys lang c above spec i size build_no f m src r p). Qed.
Print Assumptions C72_file_named_after_installed_version_partial.

(** A spec, one whose source has a version of its own, and one where only the packages are parts of something *)
Definition spec_of (more : list node) (part : option string) : node :=
  Elem "PISI" []
    [Elem "Source" []
       (leaf "Name" "zlib" :: Elem "Packager" [] [leaf "Name" "Ada"; leaf "Email" "a@example.org"] :: in_language "Summary" "en" "Compression"
        :: in_language "Description" "en" "A library" :: leaf "License" "BSD"
        :: Elem "Archive" [("type", codes "targz"); ("sha1sum", codes "00")] [Data (codes "http://example.org/zlib.tar.gz")] :: more);
     Elem "Package" [] (leaf "Name" "zlib" :: match part with Some p => [leaf "PartOf" p] | None => [] end); a_history].
Definition pardus : setting := mkSetting "Pardus" "2007" (Some "1.1").
Lemma pardus_usable above build_no : (forall a, above = Some a -> plain_text a /\ a <> "") -> build_no <> Some 0%Z -> usable pardus above build_no.
Proof.
  intros A B. assert (T : forall s, In s ["Pardus"; "2007"; "1.1"] -> plain_text s).
  { intros s [<-|[<-|[<-|[]]]]; (split; [unfold ascii_only; cbn; repeat constructor|right; apply trimmed_b_ok; reflexivity]). }
  split; [apply T; cbn; tauto|]. split; [apply T; cbn; tauto|]. split; [|auto]. cbn. intros f [= <-]. split; [apply T; cbn; tauto|discriminate].
Qed.
Definition outcome (r : res (string * node)) : option (string * option (string * value * value)) :=
  match r with
  | Ok (f, m) =>
      Some (f, match read no_hook english c_MetaData m with
               | Ok r => match field r "package" with
                         | VObj p => match field p "name", version_read p with VStr n, Ok (v, w) => Some (n, v, w) | _, _ => None end
                         | _ => None
                         end
               | Err _ => None
               end)
  | Err _ => None
  end.

(** In general it is not: the file says one version, the package another. *)
Theorem C72_file_named_after_installed_version_refuted : exists f v w,
  outcome (built key_list english pardus None (spec_of [leaf "PartOf" "system.base"; leaf "Version" "9.9"] None) 0 10%Z (Some 3%Z)) = Some (f, Some ("zlib", VStr v, VStr w)) /\
  f = file_name "zlib" "9.9" w (Some 3%Z) /\ v = "1.2".
Proof. eexists _, _, _. split; [vm_compute; reflexivity|]. split; vm_compute; reflexivity. Qed.
Print Assumptions C72_file_named_after_installed_version_refuted.

(** A package that has only empty files cannot be built, whatever its spec. *)
Theorem C72_empty_package_refuted keys lang c above spec i build_no : any_order keys -> usable c above build_no ->
  ~ exists r, built keys lang c above spec i 0%Z build_no = Ok r.
Proof.
  intros O U [[f m] B]. destruct (C72_metadata_says_what_the_spec_says _ _ _ _ _ _ _ _ _ _ O U B) as (src & e & _ & _ & S & N & _).
  assert (R : exists o, read_spec lang spec = Ok o) by (unfold built in B; destruct (read_spec lang spec); [eauto|discriminate B]).
  destruct R as [o R].
  assert (L : (i < length (elements "Package" spec))%nat) by (apply nth_error_Some; congruence).
  pose proof (proj1 (C72_built_exactly_when keys lang c above spec i 0%Z build_no o src O U R S L) (ex_intro _ _ B)) as K. now apply (proj2 (proj2 (proj2 K))).
Qed.
Print Assumptions C72_empty_package_refuted.

(** A spec whose packages are all parts of some component still needs one for the source. *)
Theorem C72_component_of_package_refuted :
  (exists o, read_spec english (spec_of [] (Some "system.base")) = Ok o) /\
  ~ exists r, built key_list english pardus None (spec_of [] (Some "system.base")) 0 10%Z (Some 3%Z) = Ok r.
Proof. split; [eexists; vm_compute; reflexivity|]. intros [r K]. vm_compute in K. discriminate K. Qed.
Print Assumptions C72_component_of_package_refuted.

Example C72_nontrivial :
  usable pardus (Some "system.devel") (Some 3%Z) /\ usable pardus None None /\
  outcome (built key_list english pardus None a_spec 0 10%Z (Some 3%Z)) = Some ("zlib-1.2-2-3.pisi", Some ("zlib", VStr "1.2", VStr "2")) /\
  outcome (built key_list english pardus None a_spec 1 10%Z None) = Some ("zlib-devel-1.2-2.pisi", Some ("zlib-devel", VStr "1.2", VStr "2")) /\
  outcome (built key_list english pardus None a_spec 2 10%Z None) = None /\
  outcome (built key_list english pardus None a_spec 1 0%Z None) = None /\
  outcome (built key_list english pardus (Some "system.devel") (spec_of [] None) 0 10%Z None) = Some ("zlib-1.2-2.pisi", Some ("zlib", VStr "1.2", VStr "2")).
Proof.
  split; [apply pardus_usable; [intros a [= <-]; split; [split; [unfold ascii_only; cbn; repeat constructor|right; apply trimmed_b_ok; reflexivity]|discriminate]|discriminate]|].
  split; [apply pardus_usable; discriminate|]. repeat split; vm_compute; reflexivity.
Qed.
