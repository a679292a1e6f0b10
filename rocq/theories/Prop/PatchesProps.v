(** * C96: the patches of a source *)
From Coq Require Import String Ascii ZArith List.
From stdpp Require Import gmap strings.
From Verif Require Import Model.Py Spec.PathSpec Spec.StripSpec Model.Trace Model.Patches Spec.PatchesSpec Proof.PatchesFacts.
Import ListNotations.
Open Scope string_scope.

(** C96.  Applying the patches of a source applies each of them once, in the order in which they
    are given: its text, unpacked if it is said to be packed, goes to patch with its level, 0 if
    it has none, and its target, if it has one.  If all are taken that is the new source, and
    the process is in the directory it was in; otherwise building fails at the first one that
    has no text or is not taken, and none after it is tried.  Missing: names with blanks or
    characters a shell gives a meaning to, for which it is not so (C96_blanks_refuted). *)
Theorem C96_patches_partial {T : Type} (patch : list string -> string -> T -> bool * T) (gunzip bunzip2 : string -> option string)
    (src_dir files_dir tmp_dir : string) (ps : list patch_entry) (d : desk T) :
  dir_name files_dir -> dir_name tmp_dir -> apart files_dir tmp_dir ps -> (forall p, In p ps -> good_entry p) ->
  let prog := apply_patches patch gunzip bunzip2 src_dir files_dir tmp_dir true ps in
  let d' := final prog d in
  (forall f, (forall p, In p ps -> ~ unpacked_at tmp_dir p f) -> kept d' !! f = kept d !! f) /\
  ((all_taken patch gunzip bunzip2 files_dir (kept d) ps (source d) (source d') /\ result prog d = Ok tt /\ place d' = place d) \/
   (exists before p after t, ps = (before ++ p :: after)%list /\ all_taken patch gunzip bunzip2 files_dir (kept d) before (source d) t /\
      refuses patch gunzip bunzip2 files_dir (kept d) p t (source d') /\ exists e, result prog d = Err e)).
Proof.
  intros Hf Ht A G. exact (apply_all patch gunzip bunzip2 src_dir files_dir tmp_dir Hf Ht (kept d) ps A ps d (fun p Ip => conj Ip (G p Ip)) (fun f _ => eq_refl)).
Qed.
Print Assumptions C96_patches_partial.

(** It succeeds just if every one of them can be applied to what those before it leave. *)
Theorem C96_succeeds_partial {T : Type} (patch : list string -> string -> T -> bool * T) (gunzip bunzip2 : string -> option string)
    (src_dir files_dir tmp_dir : string) (ps : list patch_entry) (d : desk T) :
  dir_name files_dir -> dir_name tmp_dir -> apart files_dir tmp_dir ps -> (forall p, In p ps -> good_entry p) ->
  result (apply_patches patch gunzip bunzip2 src_dir files_dir tmp_dir true ps) d = Ok tt <->
  exists t, all_taken patch gunzip bunzip2 files_dir (kept d) ps (source d) t.
Proof. intros Hf Ht A G. exact (apply_iff patch gunzip bunzip2 src_dir files_dir tmp_dir Hf Ht ps d A G). Qed.
Print Assumptions C96_succeeds_partial.

(** Without a source directory no patch is applied. *)
Theorem C96_no_source {T : Type} (patch : list string -> string -> T -> bool * T) (gunzip bunzip2 : string -> option string)
    (src_dir files_dir tmp_dir : string) (p : patch_entry) (ps : list patch_entry) (d : desk T) :
  exists e, result (apply_patches patch gunzip bunzip2 src_dir files_dir tmp_dir false (p :: ps)) d = Err e.
Proof. exact (nowhere patch gunzip bunzip2 src_dir files_dir tmp_dir p ps d). Qed.
Print Assumptions C96_no_source.

(** A specification with a patch packed otherwise than with gz or bz2 cannot be built. *)
Theorem C96_other_packing {T : Type} (patch : list string -> string -> T -> bool * T) (gunzip bunzip2 : string -> option string)
    (src_dir files_dir tmp_dir : string) (ps : list patch_entry) (d : desk T) (p : patch_entry) (c : string) :
  dir_name files_dir -> dir_name tmp_dir -> apart files_dir tmp_dir ps -> (forall p, In p ps -> good_entry p) ->
  In p ps -> pt_compression p = Some c -> c <> "" -> c <> "gz" -> c <> "bz2" ->
  exists e, result (apply_patches patch gunzip bunzip2 src_dir files_dir tmp_dir true ps) d = Err e.
Proof.
  intros Hf Ht A G I C N1 N2 N3. destruct (result _ d) as [[]|e] eqn:R; [|now exists e]. exfalso.
  apply (apply_iff patch gunzip bunzip2 src_dir files_dir tmp_dir Hf Ht ps d A G) in R as [t R].
  apply in_split in I as (b & a & E). rewrite E in R. apply taken_split in R as (u & v & _ & text & args & [x U _|x y U _ _|x y U _ _] & _); [destruct U|..]; congruence.
Qed.
Print Assumptions C96_other_packing.

(** ** A case *)
(** What patch was told, and what it refuses *)
Definition told := list (list string * string).
Definition recorder (args : list string) (text : string) (t : told) : bool * told :=
  if String.eqb text "bad" then (false, t) else (true, (t ++ [(args, text)])%list).
Definition unpacker (c : string) : option string := if String.eqb c "packed" then Some "one" else None.
Definition three : list patch_entry :=
  [mkPatch "a/fix.patch" (Some "gz") (Some 1%Z) None; mkPatch "two.patch" None None (Some "src/x.c"); mkPatch "bad.patch" (Some "") (Some 2%Z) (Some "")].
Definition start : desk told :=
  mkDesk {["/zip/files/a/fix.patch" := "packed"; "/zip/files/two.patch" := "two"; "/zip/files/bad.patch" := "bad"]} [] "/home".

Lemma three_good p : In p three -> good_entry p.
Proof.
  assert (forall n, n <> "" -> free_of "/" n -> relative_path n) as R by (intros; now apply rel_name).
  assert (forall x, x = ascii_of_nat 9 -> x <> "/"%char /\ x <> " "%char) as Tab by (intros x ->; split; discriminate).
  intros [<-|[<-|[<-|[]]]]; (split; [split|]); cbn [pt_filename pt_target].
  - apply (rel_under "a" "fix.patch"); [discriminate|cbv; intuition discriminate|apply R; [discriminate|cbv; intuition discriminate]].
  - split; cbv; intuition discriminate.
  - left. now left.
  - apply R; [discriminate|cbv; intuition discriminate].
  - split; cbv; intuition discriminate.
  - right. exists "src/x.c". split; [reflexivity|]. split; [split; cbv; intuition discriminate|split; discriminate].
  - apply R; [discriminate|cbv; intuition discriminate].
  - split; cbv; intuition discriminate.
  - left. now right.
Qed.
Lemma zip_files : dir_name "/zip/files".
Proof. split; [now exists "zip/files"|]. split; [|split; cbv; intuition discriminate]. intros [t H]. do 10 (destruct t as [|? t]; [discriminate H|injection H as ? H; subst]); destruct t; discriminate H. Qed.
Lemma tmp : dir_name "/tmp".
Proof. split; [now exists "tmp"|]. split; [|split; cbv; intuition discriminate]. intros [t H]. do 4 (destruct t as [|? t]; [discriminate H|injection H as ? H; subst]); destruct t; discriminate H. Qed.
Lemma three_apart : apart "/zip/files" "/tmp" three.
Proof.
  intros p q _ _ (_ & n & _ & E). injection E. discriminate.
Qed.
Example C96_nontrivial : dir_name "/zip/files" /\ dir_name "/tmp" /\ apart "/zip/files" "/tmp" three /\ (forall p, In p three -> good_entry p) /\
  result (apply_patches recorder unpacker unpacker "/src" "/zip/files" "/tmp" true (firstn 2 three)) start = Ok tt /\
  source (final (apply_patches recorder unpacker unpacker "/src" "/zip/files" "/tmp" true three) start) = [(["-p1"], "one"); (["-p0"; "src/x.c"], "two")] /\
  result (apply_patches recorder unpacker unpacker "/src" "/zip/files" "/tmp" true three) start = Err EError.
Proof.
  split; [apply zip_files|]. split; [apply tmp|]. split; [apply three_apart|]. split; [apply three_good|]. repeat split; vm_compute; reflexivity.
Qed.

(** ** Where it is not so *)
(** The name of a patch with a blank in it: everything is there, and building fails. *)
Definition blank_patch : patch_entry := mkPatch "fix this.patch" None None None.
Theorem C96_blanks_refuted :
  ~ (forall (patch : list string -> string -> told -> bool * told) gunzip bunzip2 src_dir files_dir tmp_dir ps d t,
       dir_name files_dir -> dir_name tmp_dir -> apart files_dir tmp_dir ps -> (forall p, In p ps -> relative_path (pt_filename p)) ->
       all_taken patch gunzip bunzip2 files_dir (kept d) ps (source d) t ->
       result (apply_patches patch gunzip bunzip2 src_dir files_dir tmp_dir true ps) d = Ok tt).
Proof.
  intros H.
  specialize (H recorder unpacker unpacker "/src" "/zip/files" "/tmp" [blank_patch] (mkDesk {["/zip/files/fix this.patch" := "one"]} [] "/home") [(["-p0"], "one")] zip_files tmp).
  assert (result (apply_patches recorder unpacker unpacker "/src" "/zip/files" "/tmp" true [blank_patch]) (mkDesk {["/zip/files/fix this.patch" := "one"]} [] "/home") = Err EError) as E by (vm_compute; reflexivity).
  rewrite E in H. enough (Err EError = Ok tt) by discriminate. apply H.
  - intros p q _ _ (_ & n & _ & K). injection K. discriminate.
  - intros p [<-|[]]. apply rel_name; [discriminate|cbv; intuition discriminate].
  - apply one_more with [(["-p0"], "one")]; [|constructor]. exists "one", ["-p0"]. split; [|split; [|reflexivity]].
    + apply plain; [now left|]. reflexivity.
    + exists 0%Z. split; [right; now split|]. left. split; [now left|reflexivity].
Qed.
Print Assumptions C96_blanks_refuted.

(** With another file of the name up to the blank, that one is applied, and nobody notices. *)
Theorem C96_other_file_refuted :
  ~ (forall (patch : list string -> string -> told -> bool * told) gunzip bunzip2 src_dir files_dir tmp_dir ps d,
       dir_name files_dir -> dir_name tmp_dir -> apart files_dir tmp_dir ps -> (forall p, In p ps -> relative_path (pt_filename p)) ->
       result (apply_patches patch gunzip bunzip2 src_dir files_dir tmp_dir true ps) d = Ok tt ->
       all_taken patch gunzip bunzip2 files_dir (kept d) ps (source d)
         (source (final (apply_patches patch gunzip bunzip2 src_dir files_dir tmp_dir true ps) d))).
Proof.
  intros H. set (d := mkDesk (T := told) {["/zip/files/fix this.patch" := "one"; "/zip/files/fix" := "other"]} [] "/home").
  specialize (H recorder unpacker unpacker "/src" "/zip/files" "/tmp" [blank_patch] d zip_files tmp).
  assert (source (final (apply_patches recorder unpacker unpacker "/src" "/zip/files" "/tmp" true [blank_patch]) d) = [(["-p0"; "this.patch"], "other")]) as E by (vm_compute; reflexivity).
  rewrite E in H. change (source d) with ([] : told) in H.
  assert (all_taken recorder unpacker unpacker "/zip/files" (kept d) [blank_patch] [] [(["-p0"; "this.patch"], "other")]) as A.
  { apply H.
    - intros p q _ _ (_ & n & _ & K). injection K. discriminate.
    - intros p [<-|[]]. apply rel_name; [discriminate|cbv; intuition discriminate].
    - vm_compute. reflexivity. }
  inversion A as [|p ps t t' t'' (text & args & Tx & _ & P) B]; subst. inversion B; subst.
  destruct Tx as [c _ L|c text C|c text C]; [|discriminate C|discriminate C].
  assert (c = "one") as ->. { cbn [blank_patch pt_filename] in L. change ("/zip/files" ++ "/" ++ "fix this.patch") with "/zip/files/fix this.patch" in L.
    assert (kept d !! "/zip/files/fix this.patch" = Some "one") as K by (vm_compute; reflexivity). rewrite K in L. now injection L as <-. }
  discriminate P.
Qed.
Print Assumptions C96_other_file_refuted.

(** After a patch that is not taken the process is in the source directory. *)
Theorem C96_place_refuted :
  ~ (forall (patch : list string -> string -> told -> bool * told) gunzip bunzip2 src_dir files_dir tmp_dir ps d,
       dir_name files_dir -> dir_name tmp_dir -> apart files_dir tmp_dir ps -> (forall p, In p ps -> good_entry p) ->
       place (final (apply_patches patch gunzip bunzip2 src_dir files_dir tmp_dir true ps) d) = place d).
Proof.
  intros H. specialize (H recorder unpacker unpacker "/src" "/zip/files" "/tmp" three start zip_files tmp three_apart three_good).
  vm_compute in H. discriminate H.
Qed.
Print Assumptions C96_place_refuted.
