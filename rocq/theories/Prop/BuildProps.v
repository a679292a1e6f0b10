(** * C51, C52: resumed builds and build numbers *)
From Coq Require Import String Ascii ZArith List Bool.
From stdpp Require Import list strings.
From Verif Require Import Model.Py Model.Path Model.Build Spec.PathSpec Spec.BuildSpec Proof.BuildFacts Proof.BuildNumber.
Import ListNotations.
Open Scope string_scope.

(** ** C51 *)

(** As stated, C51 is false for every source package with a patch: stop after the archive is
    unpacked and recorded but before it is patched, and the next step begins on an unpatched
    tree. *)
Theorem C51_patches_skipped_refuted (norootdir : bool) (patches packages : list string) (autoclean : bool) :
  patches <> [] ->
  exists w, history norootdir patches packages autoclean (fun _ _ => True) w /\ ~ nothing_skipped patches (w_log w).
Proof. exact (skipped_patches norootdir patches packages autoclean). Qed.
Print Assumptions C51_patches_skipped_refuted.

(** For every other stop it holds.  Missing: stops between recording "unpack" and the last patch. *)
Theorem C51_resumed_builds_partial (norootdir : bool) (patches packages : list string) (autoclean : bool) (w : work) :
  history norootdir patches packages autoclean (fun acts k => ~ stopped_while_patching acts k) w ->
  nothing_skipped patches (w_log w).
Proof. exact (history_partial norootdir patches packages autoclean w). Qed.
Print Assumptions C51_resumed_builds_partial.

(** A source package without patches may be stopped anywhere. *)
Theorem C51_unpatched_sources (norootdir : bool) (patches packages : list string) (autoclean : bool) (w : work) :
  patches = [] ->
  history norootdir patches packages autoclean (fun _ _ => True) w ->
  nothing_skipped patches (w_log w).
Proof. exact (history_any norootdir patches packages autoclean w). Qed.
Print Assumptions C51_unpatched_sources.

(** A call that returns has brought the tree to the state it was asked for. *)
Theorem C51_target_reached_partial (norootdir : bool) (patches packages : list string) (autoclean : bool) (w : work) :
  history norootdir patches packages autoclean (fun acts k => ~ stopped_while_patching acts k) w ->
  let result target := exec (fst (build_until norootdir patches packages autoclean target w)) w in
  let returns target := snd (build_until norootdir patches packages autoclean target w) = true in
  (returns "unpack" -> needed patches Setup `sublist_of` w_log (result "unpack")) /\
  (returns "setup" -> needed patches Compile `sublist_of` w_log (result "setup")) /\
  (returns "build" -> needed patches Install `sublist_of` w_log (result "build")) /\
  (returns "install" -> needed patches Package `sublist_of` w_log (result "install")).
Proof. exact (history_done norootdir patches packages autoclean w). Qed.
Print Assumptions C51_target_reached_partial.

(** A step that is run again and interrupted is not noticed: the tree's setup was begun again
    and not completed, yet installing begins. *)
Theorem C51_half_step_refuted (norootdir : bool) (patches packages : list string) (autoclean : bool) :
  exists w before s s' middle after,
    history norootdir patches packages autoclean (fun _ _ => True) w /\
    w_log w = (before ++ Began s :: middle ++ Began s' :: after)%list /\
    s = Setup /\ s' = Install /\ ~ In (Ended s) middle.
Proof. exact (half_step norootdir patches packages autoclean). Qed.
Print Assumptions C51_half_step_refuted.

(** With norootdir="true", a stop while unpacking makes every later call fail without doing
    anything. *)
Theorem C51_stuck (patches packages : list string) (autoclean : bool) (w : work) :
  w_src w = true -> last_state w = "none" ->
  (forall target, build_until true patches packages autoclean target w = ([], false)) /\
  build true patches packages autoclean w = ([], false).
Proof. exact (stuck patches packages autoclean w). Qed.
Print Assumptions C51_stuck.
Theorem C51_stuck_reachable (patches packages : list string) (autoclean : bool) : exists w,
  history true patches packages autoclean (fun _ _ => True) w /\ w_src w = true /\ last_state w = "none".
Proof. exact (stuck_reachable patches packages autoclean). Qed.
Print Assumptions C51_stuck_reachable.

(** Two patches; stopped while setting up, and resumed up to the packages *)
Example C51_nontrivial :
  let allowed acts k := ~ stopped_while_patching acts k in
  let w1 := exec (firstn 7 (fst (build_until false ["fix.patch"; "more.patch"] ["curl"] false "build" (mkWork None false [])))) (mkWork None false []) in
  let w2 := exec (firstn 100 (fst (build_until false ["fix.patch"; "more.patch"] ["curl"] false "package" w1))) w1 in
  history false ["fix.patch"; "more.patch"] ["curl"] false allowed w2 /\
  w_log w2 = [Unpacked; Patched "fix.patch"; Patched "more.patch"; Began Setup; Began Setup; Ended Setup;
              Began Compile; Ended Compile; Began Install; Ended Install; Began Package; Ended Package] /\
  w_state w2 = Some "buildpackages".
Proof.
  split; [|split; reflexivity]. apply h_until; [apply h_until; [apply h_fresh|]|].
  - intros [_ [p H]]. cbn in H. repeat (destruct H as [H|H]; [discriminate H|]). exact H.
  - intros [_ [p H]]. cbn in H. exact H.
Qed.

(** ** C52 *)
Theorem C52_build_number (name : string) (seen : list (string * option old_package)) (files : list (string * option string)) (n : Z) (old : option Z) :
  each_path_once files -> (forall fn p, In (fn, Some p) seen -> each_path_once (o_files p)) ->
  (calc_build_no name seen files = (n, old) <-> numbered name seen files n old).
Proof. exact (numbered_iff name seen files n old). Qed.
Print Assumptions C52_build_number.

(** Which files count as files of the package *)
Theorem C52_recognised (fn name : string) : is_package_name fn (Some name) = Ok true <-> file_of name fn.
Proof. exact (is_package_name_iff fn name). Qed.
Print Assumptions C52_recognised.

(** Two old builds, an unreadable file and a file of another package; the same files in another
    order keep the number, a changed hash raises it *)
Definition C52_seen : list (string * option old_package) :=
  [("curl-7.1-2-4.pisi", Some (mkOld "curl" (Some 4%Z) [("usr/bin/curl", Some "aa"); ("etc/curl.conf", Some "bb")]));
   ("curl-7.1-2-3.pisi", Some (mkOld "curl" (Some 3%Z) []));
   ("curl-7.1-2-9.pisi", None);
   ("curl-devel-7.1-2-8.pisi", Some (mkOld "curl-devel" (Some 8%Z) []));
   ("curl-7.1-2.pisi", Some (mkOld "curl" None []))].
Example C52_nontrivial :
  (forall fn p, In (fn, Some p) C52_seen -> each_path_once (o_files p)) /\
  each_path_once [("etc/curl.conf", Some "bb"); ("usr/bin/curl", Some "aa")] /\
  calc_build_no "curl" C52_seen [("etc/curl.conf", Some "bb"); ("usr/bin/curl", Some "aa")] = (4%Z, Some 4%Z) /\
  calc_build_no "curl" C52_seen [("etc/curl.conf", Some "cc"); ("usr/bin/curl", Some "aa")] = (5%Z, Some 4%Z) /\
  calc_build_no "wget" C52_seen [] = (1%Z, None).
Proof.
  split; [|split; [|repeat split; reflexivity]].
  - assert (F : Forall (fun f => match snd f with Some p => each_path_once (o_files p) | None => True end) C52_seen).
    { unfold C52_seen, each_path_once. repeat (apply List.Forall_cons; [cbn; first [exact Logic.I|apply (bool_decide_eq_true_1 _); reflexivity]|]). apply List.Forall_nil. }
    intros fn p H. rewrite List.Forall_forall in F. exact (F _ H).
  - unfold each_path_once. apply (bool_decide_eq_true_1 _). reflexivity.
Qed.
