(** * Building packages from source: the resumable steps and the build number

    pisi/op/build.py *)
From Coq Require Import String Ascii ZArith List Bool.
From Verif Require Import Model.Py Model.Path.
Import ListNotations.
Open Scope string_scope.

(** ** Steps

    A build is a sequence of atomic actions on the work directory, each of which may be the last
    one before a crash; an exception raised half way through an action script is the same as a
    crash there. *)

Inductive step := Setup | Compile | Install | Package.

(** What has happened to the source tree *)
Inductive event :=
| Unpacked                 (* the archive has been unpacked *)
| Patched (p : string)     (* a patch has been applied *)
| Began (s : step)         (* the step has begun *)
| Ended (s : step).        (* the step has been completed *)

Inductive act :=
| AClean                   (* util.clean_dir of the work directory *)
| AMkdir                   (* os.makedirs of the source directory *)
| AUnpack | APatch (p : string) | ABegin (s : step) | AEnd (s : step)
| ATruncate                (* open(stateFile, "w") *)
| AWrite (state : string)  (* write(state), reaching the disk *)
| AWipe.                   (* util.clean_dir of the build directory *)

Record work := mkWork {
  w_state : option string;  (* the contents of pisiBuildState, None if there is no such file *)
  w_src : bool;             (* the source directory exists *)
  w_log : list event        (* what has been done to the source tree that is there, oldest first *)
}.

Definition note (w : work) (e : event) : work := mkWork (w_state w) (w_src w) (w_log w ++ [e]).
Definition exec1 (w : work) (a : act) : work :=
  match a with
  | AClean | AWipe => mkWork None false []
  | AMkdir => mkWork (w_state w) true (w_log w)
  | AUnpack => note w Unpacked
  | APatch p => note w (Patched p)
  | ABegin s => note w (Began s)
  | AEnd s => note w (Ended s)
  | ATruncate => mkWork (Some "") (w_src w) (w_log w)
  | AWrite state => mkWork (Some state) (w_src w) (w_log w)
  end.
Definition exec (acts : list act) (w : work) : work := fold_left exec1 acts w.

(** The actions of a call, and whether it returns (true) or raises (false) after them *)
Definition plan := (list act * bool)%type.
Definition seq (a b : plan) : plan :=
  if snd a then ((fst a ++ fst b)%list, snd b) else a.
Notation "a ;;; b" := (seq a b) (at level 60, right associativity).

(** build.py 175-177 *)
Definition set_state (state : string) : plan := ([ATruncate; AWrite state], true).

Section builder.
  Variable norootdir : bool.          (* <Archive norootdir="true"> *)
  Variable patches : list string.     (* spec.source.patches *)
  Variable packages : list string.    (* spec.packages *)
  Variable autoclean : bool.          (* ctx.config.values.general.autoclean *)

  (** sourcearchive.py 64-77 with archive.py 47-53.  [w] is the work directory at that time:
      os.makedirs of a directory that exists is an OSError.  The integrity check is left out: where
      it fails the call raises before doing anything, which is a crash at the first action. *)
  Definition unpack (w : work) : plan :=
    if norootdir then (if w_src w then ([], false) else ([AMkdir; AUnpack], true))
    else ([AClean; AUnpack], true).

  (** build.py 316-323 *)
  Definition unpack_source_archive (w : work) : plan := unpack w ;;; set_state "unpack".

  (** build.py 481-496 *)
  Definition apply_patches : plan := (map APatch patches, true).

  (** build.py 325-329, 331-334, 336-345, 402-419: the install directory is cleaned first, and an
      action script without an install function is accepted (there is no "raise" on line 417) *)
  Definition run_setup_action : plan := ([ABegin Setup; AEnd Setup], true) ;;; set_state "setupaction".
  Definition run_build_action : plan := ([ABegin Compile; AEnd Compile], true) ;;; set_state "buildaction".
  Definition run_install_action : plan := ([ABegin Install; AEnd Install], true) ;;; set_state "installaction".

  (** build.py 724-868: the state is written once per package *)
  Definition build_packages : plan :=
    ([ABegin Package], true) ;;;
    (fold_right (fun _ rest => set_state "buildpackages" ;;; rest) ([], true) packages) ;;;
    ([AEnd Package], true) ;;;
    (if autoclean then ([AWipe], true) else ([], true)).

  (** build.py 880-885; [order[last]] of another text is a KeyError *)
  Definition order (state : string) : option nat :=
    if String.eqb state "none" then Some 0%nat
    else if String.eqb state "unpack" then Some 1%nat
    else if String.eqb state "setupaction" then Some 2%nat
    else if String.eqb state "buildaction" then Some 3%nat
    else if String.eqb state "installaction" then Some 4%nat
    else if String.eqb state "buildpackages" then Some 5%nat
    else None.
  (** [if order[last] < order[state]: p] *)
  Definition unless_done (last : string) (state : nat) (p : plan) : plan :=
    match order last with
    | None => ([], false)
    | Some n => if (n <? state)%nat then p else ([], true)
    end.

  (** build.py 887-915; fetching the archive does not touch the work directory *)
  Definition buildState_unpack (w : work) : plan := unpack_source_archive w ;;; apply_patches.
  Definition buildState_setupaction (w : work) (last : string) : plan :=
    unless_done last 1 (buildState_unpack w) ;;; run_setup_action.
  Definition buildState_buildaction (w : work) (last : string) : plan :=
    unless_done last 2 (buildState_setupaction w last) ;;; run_build_action.
  Definition buildState_installaction (w : work) (last : string) : plan :=
    unless_done last 3 (buildState_buildaction w last) ;;; run_install_action.
  Definition buildState_buildpackages (w : work) (last : string) : plan :=
    unless_done last 4 (buildState_installaction w last) ;;; build_packages.

  (** build.py 917-946: [if not last] holds for None and for the empty text *)
  Definition last_state (w : work) : string :=
    match w_state w with None => "none" | Some "" => "none" | Some s => s end.
  Definition build_until (state : string) (w : work) : plan :=
    let last := last_state w in
    if String.eqb state "unpack" then buildState_unpack w
    else if String.eqb state "setup" then buildState_setupaction w last
    else if String.eqb state "build" then buildState_buildaction w last
    else if String.eqb state "install" then buildState_installaction w last
    else buildState_buildpackages w last.

  (** build.py 185-208, from unpacking on *)
  Definition build (w : work) : plan :=
    unpack_source_archive w ;;; apply_patches ;;; run_setup_action ;;; run_build_action ;;; run_install_action ;;; build_packages.
End builder.

(** ** Build numbers *)

(** What calc_build_no looks at in a package file *)
Record old_package := mkOld {
  o_name : string;                            (* metadata.package.name *)
  o_build : option Z;                         (* metadata.package.build *)
  o_files : list (string * option string)     (* files.list: path and hash *)
}.

(** [l.sort(cmp)] where [cmp] compares keys: stable *)
Fixpoint insert_by {A} (before : A -> A -> bool) (x : A) (l : list A) : list A :=
  match l with
  | [] => [x]
  | y :: l' => if before x y then x :: l else y :: insert_by before x l'
  end.
Definition sort_by {A} (before : A -> A -> bool) (l : list A) : list A :=
  fold_left (fun acc x => insert_by before x acc) l [].

(** build.py 645-670: the readable package files with the right name, in the order they are met.
    A file is its name and what reading it gives, None if that fails. *)
Definition locate_old_packages (package_name : string) (seen : list (string * option old_package)) : list old_package :=
  flat_map (fun file => match is_package_name (fst file) (Some package_name), snd file with
                        | Ok true, Some p => if String.eqb (o_name p) package_name then [p] else []
                        | _, _ => []
                        end) seen.

(** build.py 698-707: the loop over the two sorted lists, of the same length *)
Definition hash_eqb (a b : option string) : bool :=
  match a, b with
  | Some x, Some y => String.eqb x y
  | None, None => true
  | _, _ => false
  end.
Fixpoint files_differ (fold fnew : list (string * option string)) : bool :=
  match fold, fnew with
  | fo :: fold, fn :: fnew =>
      if negb (String.eqb (fst fo) (fst fn)) then true
      else if negb (hash_eqb (snd fo) (snd fn)) then true
      else files_differ fold fnew
  | _, _ => false
  end.
(** cmp on byte strings *)
Definition path_before (a b : string * option string) : bool := String.ltb (fst a) (fst b).
Definition files_changed (fold fnew : list (string * option string)) : bool :=
  let fold := sort_by path_before fold in
  let fnew := sort_by path_before fnew in
  if negb (length fnew =? length fold)%nat then true else files_differ fold fnew.

Definition build_before (a b : Z * old_package) : bool := Z.ltb (fst a) (fst b).
(** build.py 641-722: (build number, old build number) *)
Definition calc_build_no (package_name : string) (seen : list (string * option old_package)) (files : list (string * option string)) : Z * option Z :=
  let found := locate_old_packages package_name seen in
  let a := flat_map (fun p => match o_build p with Some b => [(b, p)] | None => [] end) found in
  match rev (sort_by build_before a) with
  | [] => (1%Z, None)
  | (old_build, old) :: _ =>
      if files_changed (o_files old) files then ((old_build + 1)%Z, Some old_build) else (old_build, Some old_build)
  end.
