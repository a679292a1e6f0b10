(** * What patching a source means *)
From Coq Require Import String Ascii ZArith List.
From stdpp Require Import gmap strings.
From Verif Require Import Model.Py Spec.PathSpec Spec.StripSpec Model.Patches.
Import ListNotations.
Open Scope string_scope.

(** "/home/user/zip/files": an absolute name without blanks *)
Definition dir_name (d : string) : Prop := (exists r, d = "/" ++ r) /\ ~ ends_in_slash d /\ unbroken d.
(** "fixes/01.patch" *)
Definition file_name (f : string) : Prop := relative_path f /\ unbroken f.
(** The last part of a name *)
Definition last_part (f n : string) : Prop := free_of "/" n /\ (f = n \/ exists d, f = d ++ "/" ++ n).

(** What stands in a specification may be empty, which is as if it did not *)
Definition unsaid (o : option string) : Prop := o = None \/ o = Some "".

Section spec.
  Context {T : Type} (patch : list string -> string -> T -> bool * T) (gunzip bunzip2 : string -> option string).
  Context (files_dir tmp_dir : string).

  Definition good_entry (p : patch_entry) : Prop :=
    file_name (pt_filename p) /\ (unsaid (pt_target p) \/ exists t, pt_target p = Some t /\ unbroken t /\ t <> "" /\ t <> "<").

  (** The text of a patch, among these files *)
  Inductive text_of (k : gmap string string) (p : patch_entry) : string -> Prop :=
  | plain c : unsaid (pt_compression p) -> k !! (files_dir ++ "/" ++ pt_filename p) = Some c -> text_of k p c
  | gz c text : pt_compression p = Some "gz" -> k !! (files_dir ++ "/" ++ pt_filename p) = Some c -> gunzip c = Some text -> text_of k p text
  | bz2 c text : pt_compression p = Some "bz2" -> k !! (files_dir ++ "/" ++ pt_filename p) = Some c -> bunzip2 c = Some text -> text_of k p text.

  (** patch -pLEVEL [TARGET] *)
  Definition level_of (p : patch_entry) (n : Z) : Prop := pt_level p = Some n \/ pt_level p = None /\ n = 0%Z.
  Definition arguments (p : patch_entry) (args : list string) : Prop :=
    exists n, level_of p n /\
      ((unsaid (pt_target p) /\ args = ["-p" ++ str_of_Z n]) \/
       (exists t, t <> "" /\ pt_target p = Some t /\ args = ["-p" ++ str_of_Z n; t])).

  (** One patch is applied to a tree, and is refused by one *)
  Definition takes (k : gmap string string) (p : patch_entry) (t t' : T) : Prop :=
    exists text args, text_of k p text /\ arguments p args /\ patch args text t = (true, t').
  Definition refuses (k : gmap string string) (p : patch_entry) (t t' : T) : Prop :=
    ((forall text, ~ text_of k p text) /\ t' = t) \/
    exists text args, text_of k p text /\ arguments p args /\ patch args text t = (false, t').

  (** All of them, one after the other *)
  Inductive all_taken (k : gmap string string) : list patch_entry -> T -> T -> Prop :=
  | none_left t : all_taken k [] t t
  | one_more p ps t t' t'' : takes k p t t' -> all_taken k ps t' t'' -> all_taken k (p :: ps) t t''.

  (** Where a patch is unpacked to *)
  Definition unpacked_at (p : patch_entry) (f : string) : Prop :=
    ~ unsaid (pt_compression p) /\ exists n, last_part (pt_filename p) n /\ f = tmp_dir ++ "/" ++ n.
  Definition apart (ps : list patch_entry) : Prop :=
    forall p q, In p ps -> In q ps -> ~ unpacked_at p (files_dir ++ "/" ++ pt_filename q).
End spec.
