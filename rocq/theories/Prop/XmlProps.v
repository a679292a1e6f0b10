(** * Documents: C48 *)
From Coq Require Import String ZArith NArith List Bool.
From stdpp Require Import gmap strings.
From Verif Require Import Model.Py Model.Xml Model.Schema Model.XmlFile Spec.XmlSpec Proof.XmlRound Proof.XmlMain Proof.XmlRead Proof.XmlCheck Proof.XmlFileFacts.
Import ListNotations.
Open Scope string_scope.

(** The classes of pisi's documents can be used. *)
Theorem C48_documents_well_formed : Forall (fun t => well_formed t = true) documents.
Proof. repeat constructor. Qed.
Print Assumptions C48_documents_well_formed.

(** C48: decoding what was encoded gives the object back.  Proved for classes whose members do not
    share places ([well_formed]), and values with no zero, no empty text and no white space around
    texts ([carried_object]); refuted without that, below. *)
Theorem C48_round_trip_partial keys t o root n : any_order keys -> well_formed t = true -> carried_object t o ->
  encode keys t o (Elem root [] []) = Ok (n, []) -> decode t n = Ok (o, []).
Proof. exact (object_round_trip keys t o root n). Qed.
Print Assumptions C48_round_trip_partial.

(** Such an object is encoded without errors if its mandatory members are there. *)
Theorem C48_complete_partial keys t o n : any_order keys -> well_formed t = true -> carried_object t o -> complete_object t o ->
  exists n', encode keys t o n = Ok (n', []).
Proof. exact (complete_object_encodes keys t o n). Qed.
Print Assumptions C48_complete_partial.

(** Whatever was decoded without errors, and has no zero in it, is encoded without errors and decoded
    again as the same object. *)
Theorem C48_reread_partial keys tag ms h n o root : any_order keys -> well_formed (Object tag ms h) = true ->
  decode (Object tag ms h) n = Ok (o, []) -> ~ zero_inside (VObj o) ->
  exists n', encode keys (Object tag ms h) o (Elem root [] []) = Ok (n', []) /\ decode (Object tag ms h) n' = Ok (o, []).
Proof. exact (reread keys tag ms h n o root). Qed.
Print Assumptions C48_reread_partial.

(** The same for files that are written and read, with their validation. *)
Theorem C48_write_read_partial keys lang t o n : any_order keys -> well_formed t = true -> carried_object t o ->
  write keys lang t o = Ok n -> read no_hook lang t n = Ok o.
Proof. exact (write_read keys lang t o n). Qed.
Print Assumptions C48_write_read_partial.
Theorem C48_read_write_partial keys lang tag ms h n o : any_order keys -> well_formed (Object tag ms h) = true -> ~ zero_inside (VObj o) ->
  read no_hook lang (Object tag ms h) n = Ok o ->
  exists n', write keys lang (Object tag ms h) o = Ok n' /\ read no_hook lang (Object tag ms h) n' = Ok o.
Proof. exact (read_write keys lang tag ms h n o). Qed.
Print Assumptions C48_read_write_partial.

(** ** Samples *)
Definition u (s : string) : value := VText (codes s).
Definition key_list (d : gmap utext (option utext)) : list utext := (map_to_list d).*1.
Lemma key_list_any_order : any_order key_list.
Proof.
  intros d. unfold key_list. split; [apply NoDup_fst_map_to_list|]. intros k. rewrite <- elem_of_list_In, elem_of_list_fmap. split.
  - intros ([x c] & -> & H). apply elem_of_map_to_list in H. eauto.
  - intros [c H]. exists (k, c). split; [reflexivity|]. now apply elem_of_map_to_list.
Qed.
Definition local (l : list (string * string)) : value := VLocal (list_to_map (map (fun x => (codes (fst x), Some (codes (snd x)))) l)).
Definition de : utext := codes "de".

Definition an_update : list (string * value) :=
  [("release", VStr "1"); ("date", VStr "2006-11-16"); ("version", VStr "2.0"); ("type", VNone); ("name", VText [199; 97; 287; 105]%N); ("email", VNone); ("comment", VNone)].
Definition a_packager : list (string * value) := [("name", VText [199; 97; 287; 105]%N); ("email", VStr "c@example.org")].
Definition a_package (history : list value) (build size : Z) : list (string * value) :=
  [("name", VStr "zlib"); ("summary", local [("en", "A library"); ("tr", "Bir kitaplik")]); ("description", local [("en", "Compression")]);
   ("isA", VList [VStr "library"]); ("partOf", VStr "system.base"); ("license", VList [VStr "GPL"; VStr "BSD"]); ("icon", VNone);
   ("packageDependencies", VList [VObj [("package", VStr "glibc"); ("version", VNone); ("versionFrom", VStr "2.3"); ("versionTo", VNone);
                                        ("release", VNone); ("releaseFrom", VNone); ("releaseTo", VNone)]]);
   ("componentDependencies", VList []); ("files", VList [VObj [("path", VStr "/usr/lib"); ("fileType", VStr "library"); ("permanent", VNone)]]);
   ("conflicts", VList [VStr "libz"]); ("providesComar", VList []); ("additionalFiles", VList []); ("history", VList history);
   ("build", VInt build); ("distribution", VStr "Pardus"); ("distributionRelease", VStr "1.0"); ("architecture", VStr "i686");
   ("installedSize", VInt size); ("packageSize", VNone); ("packageURI", VNone); ("packageFormat", VNone);
   ("source", VObj [("name", VStr "zlib"); ("homepage", VNone); ("packager", VObj a_packager)])].

(** A package's metadata can be carried, is written and is read back. *)
Definition metadata : list (string * value) :=
  [("source", VObj [("name", VStr "zlib"); ("homepage", VNone); ("packager", VObj a_packager)]); ("package", VObj (a_package [VObj an_update] 3 4096))].
Example C48_nontrivial :
  carried_object c_MetaData metadata /\ exists n, write key_list de c_MetaData metadata = Ok n /\ read no_hook de c_MetaData n = Ok metadata.
Proof.
  assert (C : carried_object c_MetaData metadata) by (apply carried_b_ok; vm_compute; reflexivity).
  split; [exact C|].
  destruct (write key_list de c_MetaData metadata) as [n|] eqn:E; [|vm_compute in E; discriminate E].
  exists n. split; [reflexivity|]. exact (C48_write_read_partial key_list de c_MetaData _ n key_list_any_order eq_refl C E).
Qed.

(** ** What is lost *)
Definition a_patch (level : value) : list (string * value) :=
  [("filename", VStr "fix.patch"); ("compressionType", VNone); ("level", level); ("target", VNone)].
(** A patch of level 0 is valid and encoded without errors, and read as a patch with no level. *)
Theorem C48_zero_refuted keys : exists n,
  errors de c_Patch (a_patch (VInt 0)) = Ok [] /\ encode keys c_Patch (a_patch (VInt 0)) (Elem "Patch" [] []) = Ok (n, []) /\
  decode c_Patch n = Ok (a_patch VNone, []) /\ a_patch VNone <> a_patch (VInt 0).
Proof. eexists. split; [reflexivity|]. split; [reflexivity|]. split; [vm_compute; reflexivity|discriminate]. Qed.
Print Assumptions C48_zero_refuted.

(** Metadata of a package with no content is valid and cannot be written. *)
Definition empty_metadata : list (string * value) :=
  [("source", VObj [("name", VStr "zlib"); ("homepage", VNone); ("packager", VObj a_packager)]); ("package", VObj (a_package [VObj an_update] 3 0))].
Theorem C48_empty_package_refuted : errors de c_MetaData empty_metadata = Ok [] /\ write key_list de c_MetaData empty_metadata = Err EError.
Proof. split; vm_compute; reflexivity. Qed.
Print Assumptions C48_empty_package_refuted.

(** Metadata of a package without history is written and cannot be read. *)
Definition no_history : list (string * value) :=
  [("source", VObj [("name", VStr "zlib"); ("homepage", VNone); ("packager", VObj a_packager)]); ("package", VObj (a_package [] 3 4096))].
Lemma taken {A} (r : res A) (f : A -> Prop) : is_ok r = true -> (match r with Ok x => f x | Err _ => True end) -> exists x, r = Ok x /\ f x.
Proof. destruct r as [x|]; [intros _ H; now exists x|discriminate]. Qed.
Theorem C48_no_history_refuted : exists n, write key_list de c_MetaData no_history = Ok n /\ read no_hook de c_MetaData n = Err EIndex.
Proof.
  apply taken; [vm_compute; reflexivity|].
  assert (H : match write key_list de c_MetaData no_history with Ok x => match read no_hook de c_MetaData x with Err EIndex => true | _ => false end | Err _ => true end = true)
    by (vm_compute; reflexivity).
  destruct (write key_list de c_MetaData no_history) as [x|]; [|exact I]. destruct (read no_hook de c_MetaData x) as [y|[]]; try discriminate H. reflexivity.
Qed.
Print Assumptions C48_no_history_refuted.

(** White space around a text is lost; a text of white space is read as an error. *)
Theorem C48_white_space_refuted keys : 
  (exists n, encode keys c_Packager [("name", u " Ada"); ("email", VStr "a@b")] (Elem "Packager" [] []) = Ok (n, []) /\
     decode c_Packager n = Ok ([("name", u "Ada"); ("email", VStr "a@b")], [])) /\
  (exists n, encode keys c_Packager [("name", u " "); ("email", VStr "a@b")] (Elem "Packager" [] []) = Ok (n, []) /\
     decode c_Packager n = Ok ([("name", VNone); ("email", VStr "a@b")], [NoToken "Name"])).
Proof. split; eexists; split; vm_compute; reflexivity. Qed.
Print Assumptions C48_white_space_refuted.

(** What is written under one locale may be refused under another. *)
Definition german : list (string * value) :=
  [("name", VStr "system.base"); ("localName", local [("de", "Basis")]); ("summary", local [("de", "Basis")]); ("description", local [("de", "Basis")]);
   ("dependencies", VList []); ("packages", VList [VStr "zlib"]); ("sources", VList [])].
Theorem C48_locale_refuted : carried_object c_Component german /\
  exists n, write key_list de c_Component german = Ok n /\ read no_hook de c_Component n = Ok german /\ read no_hook english c_Component n = Err EError.
Proof.
  assert (C : carried_object c_Component german) by (apply carried_b_ok; vm_compute; reflexivity). split; [exact C|].
  destruct (write key_list de c_Component german) as [n|] eqn:E; [|vm_compute in E; discriminate E]. exists n. split; [reflexivity|].
  pose proof (C48_write_read_partial key_list de c_Component _ n key_list_any_order eq_refl C E) as R. split; [exact R|].
  apply read_plain in R as [D _]. unfold read. rewrite D. reflexivity.
Qed.
Print Assumptions C48_locale_refuted.
