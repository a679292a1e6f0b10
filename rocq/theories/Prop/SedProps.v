(** * C105: editing files in action scripts *)
From Coq Require Import String Ascii ZArith List Bool.
From stdpp Require Import gmap strings.
From Verif Require Import Model.Py Model.InstallDB Model.Path Model.Fs Model.Trace Model.Actions Model.Sed
  Spec.PathSpec Spec.FsSpec Spec.ActionsSpec Spec.PipesSpec Spec.SedSpec
  Proof.FsChecks Proof.ActionsTop Proof.ActionsExact Proof.SedFacts.
Import ListNotations.
Open Scope string_scope.

(** All the files a pattern matches, when they are files and none is where the copy of one goes:
    they are edited, what was where the copies go is gone, and the rest is as before. *)
Theorem C105_dosed_partial (cwd : string) (expand : fs -> string -> list string) (sub : string -> option string) (f : fs) (s : string) (l : list target) :
  tree f -> glob cwd expand f s = map t_path l -> List.Forall (to_edit cwd sub f) l -> List.Forall (backup_room f) l ->
  List.NoDup (map place_of l) -> (forall t u, In t l -> In u l -> place_of t <> backup_of u) ->
  result (dosed cwd expand sub s) f = Ok tt /\ all_edited l f (final (dosed cwd expand sub s) f).
Proof. exact (dosed_ok cwd expand sub f s l). Qed.
Print Assumptions C105_dosed_partial.

(** A file that is not there is no error. *)
Theorem C105_missing_refuted (cwd : string) (expand : fs -> string -> list string) (sub : string -> option string) (f : fs) (s : string) :
  has_magic s = false -> os_lstat cwd f s = None -> result (dosed cwd expand sub s) f = Ok tt /\ final (dosed cwd expand sub s) f = f.
Proof. intros M L. unfold result, final. now rewrite (dosed_missing cwd expand sub f s M L). Qed.
Print Assumptions C105_missing_refuted.

(** ** A small build *)
Definition eol : string := String "010" "".
Definition build : fs :=
  {[ "/w" := NDir; "/w/Makefile" := NFile ("PAM=no" ++ eol ++ "X=1" ++ eol ++ "PAM=no"); "/w/Makefile.in" := NFile ("PAM=no" ++ eol); "/w/d" := NDir; "/w/d/x" := NFile "x";
     "/w/k" := NLink "Makefile.in"; "/w/conf" := NFile "a"; "/w/conf.bak" := NFile "kept"; "/w/Makefile.in.bak" := NFile "old" ]}.
Definition matched : fs -> string -> list string := fun _ p => if String.eqb p "Make*" then ["Makefile"; "Makefile.in"] else if String.eqb p "conf*" then ["conf"; "conf.bak"] else [].
(** re.sub("^PAM=no", "PAM=yes", line), on these *)
Definition pam : string -> option string := fun l => Some (if String.eqb l "PAM=no" then "PAM=yes" else if String.eqb l ("PAM=no" ++ eol) then "PAM=yes" ++ eol else l).
Definition bad : string -> option string := fun _ => None.

(** A file that happens to have the name of the copy is lost, and when the pattern matches it too, dosed fails half way. *)
Theorem C105_backup_refuted :
  result (dosed "/w" matched pam "conf") build = Ok tt /\ final (dosed "/w" matched pam "conf") build !! "/w/conf.bak" = None /\
  result (dosed "/w" matched pam "conf*") build = Err EError /\ final (dosed "/w" matched pam "conf*") build !! "/w/conf.bak" = None.
Proof. vm_compute. repeat split. Qed.
Print Assumptions C105_backup_refuted.
(** A link becomes a file, and the file it led to is not edited. *)
Theorem C105_link_refuted :
  result (dosed "/w" matched pam "k") build = Ok tt /\ final (dosed "/w" matched pam "k") build !! "/w/k" = Some (NFile ("PAM=yes" ++ eol)) /\
  final (dosed "/w" matched pam "k") build !! "/w/Makefile.in" = Some (NFile ("PAM=no" ++ eol)).
Proof. vm_compute. repeat split. Qed.
Print Assumptions C105_link_refuted.
(** A directory that matches is an error, and has another name then. *)
Theorem C105_directory_refuted :
  result (dosed "/w" matched pam "d") build = Err EOS /\ final (dosed "/w" matched pam "d") build !! "/w/d" = None /\ final (dosed "/w" matched pam "d") build !! "/w/d.bak/x" = Some (NFile "x").
Proof. vm_compute. repeat split. Qed.
Print Assumptions C105_directory_refuted.
(** After a pattern that is no regular expression, the file is empty. *)
Theorem C105_pattern_refuted :
  result (dosed "/w" matched bad "Makefile.in") build = Err EValue /\ final (dosed "/w" matched bad "Makefile.in") build !! "/w/Makefile.in" = Some (NFile "") /\
  final (dosed "/w" matched bad "Makefile.in") build !! "/w/Makefile.in.bak" = Some (NFile ("PAM=no" ++ eol)).
Proof. vm_compute. repeat split. Qed.
Print Assumptions C105_pattern_refuted.

(** The hypotheses are met. *)
Definition both : list target :=
  [ {| t_path := "Makefile"; t_dir := "/w"; t_name := "Makefile"; t_old := "PAM=no" ++ eol ++ "X=1" ++ eol ++ "PAM=no"; t_new := "PAM=yes" ++ eol ++ "X=1" ++ eol ++ "PAM=yes" |};
    {| t_path := "Makefile.in"; t_dir := "/w"; t_name := "Makefile.in"; t_old := "PAM=no" ++ eol; t_new := "PAM=yes" ++ eol |} ].
Example C105_nontrivial :
  tree build /\ glob "/w" matched build "Make*" = map t_path both /\ List.Forall (to_edit "/w" pam build) both /\ List.Forall (backup_room build) both /\ List.NoDup (map place_of both) /\ (forall t u, In t both -> In u both -> place_of t <> backup_of u) /\
  final (dosed "/w" matched pam "Make*") build !! "/w/Makefile" = Some (NFile ("PAM=yes" ++ eol ++ "X=1" ++ eol ++ "PAM=yes")) /\
  has_magic "Makefile.am" = false /\ os_lstat "/w" build "Makefile.am" = None.
Proof.
  assert (Nm : forall n, In n ["Makefile"; "Makefile.in"] -> name n) by now apply names_b.
  assert (S : stands build "/w") by (apply (stands_b_ok build ["w"]); vm_compute; reflexivity).
  assert (W : forall l t, In (l, t) [("PAM=no" ++ eol, "PAM=no"); ("X=1" ++ eol, "X=1")] -> whole_line l).
  { intros l t I. exists t. destruct I as [[= <- <-]|[[= <- <-]|[]]]; (split; [reflexivity|]); cbn; intros I; repeat (destruct I as [I|I]; [discriminate I|]); exact I. }
  assert (R : rest_line "PAM=no"). { split; [discriminate|]. cbn. intros I. repeat (destruct I as [I|I]; [discriminate I|]). exact I. }
  split; [apply tree_check_ok; vm_compute; reflexivity|]. split; [reflexivity|]. split.
  { constructor; [|constructor; [|constructor]].
    - split; [exact S|]. split; [apply Nm; cbn; tauto|]. split; [now right|]. split; [vm_compute; reflexivity|]. exists ["PAM=no" ++ eol; "X=1" ++ eol; "PAM=no"], ["PAM=yes" ++ eol; "X=1" ++ eol; "PAM=yes"]. split; [|split; [repeat constructor|reflexivity]].
      split; [reflexivity|]. exists ["PAM=no" ++ eol; "X=1" ++ eol], ["PAM=no"]. split; [reflexivity|]. split; [|right; now exists "PAM=no"]. intros l [<-|[<-|[]]]; eapply W; [now left|right; now left].
    - split; [exact S|]. split; [apply Nm; cbn; tauto|]. split; [now right|]. split; [vm_compute; reflexivity|]. exists ["PAM=no" ++ eol], ["PAM=yes" ++ eol]. split; [|split; [repeat constructor|reflexivity]].
      split; [reflexivity|]. exists ["PAM=no" ++ eol], []. split; [reflexivity|]. split; [|now left]. intros l [<-|[]]; eapply W; now left. }
  split; [constructor; [vm_compute; discriminate|constructor; [vm_compute; discriminate|constructor]]|]. split; [constructor; [intros [X|[]]; discriminate X|constructor; [intros []|constructor]]|]. split; [intros t u [<-|[<-|[]]] [<-|[<-|[]]]; vm_compute; discriminate|]. split; [vm_compute; reflexivity|]. split; vm_compute; reflexivity.
Qed.
