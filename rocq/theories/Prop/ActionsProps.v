(** * C77: action scripts *)
From Coq Require Import String Ascii ZArith List Bool.
From stdpp Require Import gmap strings.
From Verif Require Import Model.Py Model.Path Model.InstallDB Model.Fs Model.Trace Model.Actions Spec.PathSpec Spec.FsSpec Spec.ActionsSpec Proof.FsChecks Proof.ActionsTop Proof.ActionsExact Proof.ActionsMove.
Import ListNotations.
Open Scope string_scope.

(** ** Nothing outside the install directory is changed

    In every state a function passes through, also one that fails in the end. *)

Theorem C77_dodir_only_makes_directories (cwd root : string) (ignore : bool) (f : fs) (d : string) (ds : list string) :
  stands f root -> means d ds -> clear f root ds ->
  forall g, In g (states (dodir cwd root ignore d) f) -> dirs_made root ds f g.
Proof. intros S. exact (dodir_makes cwd root ignore f S d ds). Qed.
Print Assumptions C77_dodir_only_makes_directories.

(** dobin, dosbin, doexe: whatever the command install does, and for any pattern *)
Theorem C77_dobin_contained_partial (cwd root src : string) (ignore : bool) (expand : fs -> string -> list string) (runs : string -> fs -> bool) (f : fs) (s d : string) (ds : list string) :
  stands f root -> means d ds -> clear f root ds ->
  forall g, In g (states (dobin cwd root src ignore expand runs s d) f) -> same_but (beneath root) f g.
Proof. intros S. exact (dobin_stays cwd root src ignore expand runs f S s d ds). Qed.
Print Assumptions C77_dobin_contained_partial.

Theorem C77_dodoc_contained_partial (cwd root src tag : string) (ignore : bool) (expand : fs -> string -> list string) (runs : string -> fs -> bool) (f : fs) (l : list string) :
  stands f root -> name tag -> clear f root ["usr"; "share"; "doc"; tag] ->
  forall g, In g (states (dodoc cwd root src tag ignore expand runs l) f) -> same_but (beneath root) f g.
Proof. intros S. exact (dodoc_stays cwd root src tag ignore expand runs f S l). Qed.
Print Assumptions C77_dodoc_contained_partial.

Theorem C77_doinfo_contained_partial (cwd root src : string) (ignore : bool) (expand : fs -> string -> list string) (runs : string -> fs -> bool) (f : fs) (l : list string) :
  stands f root -> clear f root ["usr"; "share"; "info"] ->
  forall g, In g (states (doinfo cwd root src ignore expand runs l) f) -> same_but (beneath root) f g.
Proof. intros S. exact (doinfo_stays cwd root src ignore expand runs f S l). Qed.
Print Assumptions C77_doinfo_contained_partial.

Theorem C77_dolib_contained_partial (cwd root : string) (ignore : bool) (runs : string -> fs -> bool) (f : fs) (s d : string) (ds : list string) :
  stands f root -> py_startswith cwd "/" = true -> means d ds -> clear f root ds ->
  forall g, In g (states (dolib cwd root ignore runs s d) f) -> same_but (beneath root) f g.
Proof. intros S. exact (dolib_stays cwd root ignore runs f S s d ds). Qed.
Print Assumptions C77_dolib_contained_partial.

Theorem C77_doman_contained_partial (cwd root : string) (ignore : bool) (expand : fs -> string -> list string) (runs : string -> fs -> bool) (f : fs) (l : list string) :
  stands f root -> (forall sec, clear f root ["usr"; "share"; "man"; "man" ++ sec]) ->
  (forall g s p sec, In s l -> In p (glob cwd expand g s) -> section_of p = Some sec -> free_of "/" sec) ->
  forall g, In g (states (doman cwd root ignore expand runs l) f) -> same_but (beneath root) f g.
Proof. intros S. exact (doman_stays cwd root ignore expand runs f S l). Qed.
Print Assumptions C77_doman_contained_partial.

Theorem C77_dosym_contained_partial (cwd root : string) (ignore : bool) (f : fs) (t x : string) (a : list string) (n : string) :
  stands f root -> means x (a ++ [n]) -> clear f root a ->
  forall g, In g (states (dosym cwd root ignore t x) f) -> same_but (beneath root) f g.
Proof. intros S. exact (dosym_stays cwd root ignore f S t x a n). Qed.
Print Assumptions C77_dosym_contained_partial.

Theorem C77_rename_contained_partial (cwd root : string) (ignore : bool) (f : fs) (s nm : string) (a : list string) (n : string) :
  stands f root -> means s (a ++ [n]) -> name nm -> clear f root a ->
  forall g, In g (states (rename cwd root ignore s nm) f) -> same_but (beneath root) f g.
Proof. intros S. exact (rename_stays cwd root ignore f S s nm a n). Qed.
Print Assumptions C77_rename_contained_partial.

Theorem C77_remove_contained_partial (cwd root : string) (expand : fs -> string -> list string) (f : fs) (s : string) :
  stands f root -> (forall p, In p (glob cwd expand f (join_path2 root s)) -> found root f p) ->
  forall g, In g (states (remove cwd root expand s) f) -> same_but (beneath root) f g.
Proof. intros S. exact (remove_stays cwd root expand f S s). Qed.
Print Assumptions C77_remove_contained_partial.

Theorem C77_removeDir_contained_partial (cwd root : string) (ignore : bool) (expand : fs -> string -> list string) (f : fs) (s : string) :
  stands f root -> (forall p, In p (glob cwd expand f (join_path2 root s)) -> found root f p) ->
  forall g, In g (states (removeDir cwd root ignore expand s) f) -> same_but (beneath root) f g.
Proof. intros S. exact (removeDir_stays cwd root ignore expand f S s). Qed.
Print Assumptions C77_removeDir_contained_partial.

(** insinto: files, links and directories, any number of them with different names; what is in
    the way is no link (a directory that is there already is entered, again and again) *)
Theorem C77_insinto_contained_partial (cwd root : string) (ignore : bool) (expand : fs -> string -> list string) (f : fs) (d : string) (ds : list string) (s : string) :
  stands f root -> means d ds ->
  (forall g, (forall p, In p (glob cwd expand g s) -> name (basename p) /\ has_magic p = false) /\ List.NoDup (map basename (glob cwd expand g s))) ->
  clear f root ds -> (forall g p k, In p (glob cwd expand g s) -> clear f root (ds ++ repeat (basename p) k)) ->
  forall g, In g (states (insinto cwd root ignore expand d s "") f) -> same_but (beneath root) f g.
Proof. intros S. exact (insinto_stays cwd root ignore expand f S d ds s). Qed.
Print Assumptions C77_insinto_contained_partial.
Theorem C77_insinto_as_contained_partial (cwd root : string) (ignore : bool) (expand : fs -> string -> list string) (f : fs) (d : string) (ds : list string) (s nm : string) (ms : list string) :
  stands f root -> means d ds -> means nm ms -> ms <> [] ->
  (forall g, List.length (glob cwd expand g s) <= 1) -> (forall g p, In p (glob cwd expand g s) -> name (basename p)) ->
  clear f root ds -> (forall g p k, In p (glob cwd expand g s) -> clear f root ((ds ++ ms) ++ repeat (basename p) k)) ->
  forall g, In g (states (insinto cwd root ignore expand d s nm) f) -> same_but (beneath root) f g.
Proof. intros S. exact (insinto_named_stays cwd root ignore expand f S d ds s nm ms). Qed.
Print Assumptions C77_insinto_as_contained_partial.

(** domove, if there are no links in the install directory *)
Theorem C77_domove_contained_partial (cwd root : string) (ignore : bool) (expand : fs -> string -> list string) (f : fs) (s d : string) (ds : list string) (nm : string) :
  stands f root -> means d ds -> (nm = "" \/ exists ms, ms <> [] /\ means nm ms) -> linkless f root ->
  (forall g p, In p (glob cwd expand g (join_path2 root s)) -> has_magic p = false /\ exists a, a <> [] /\ (forall n, In n a -> name n) /\ p = below root a) ->
  forall g, In g (states (domove cwd root ignore expand s d nm) f) -> same_but (beneath root) f g.
Proof. intros S. exact (domove_stays cwd root ignore expand f S s d ds nm). Qed.
Print Assumptions C77_domove_contained_partial.

(** ** What is done *)

(** dodir succeeds exactly if nothing but directories is on the way. *)
Theorem C77_dodir_exact (cwd root : string) (f : fs) (d : string) (ds : list string) :
  tree f -> stands f root -> means d ds -> clear f root ds ->
  (result (dodir cwd root false d) f = Ok tt <-> passable_to root ds f) /\
  (result (dodir cwd root false d) f = Ok tt -> with_dirs root ds f (final (dodir cwd root false d) f)).
Proof. exact (dodir_exact cwd root f d ds). Qed.
Print Assumptions C77_dodir_exact.

Theorem C77_dosym_exact (cwd root : string) (f : fs) (t x : string) (a : list string) (n : string) :
  tree f -> stands f root -> means x (a ++ [n]) -> clear f root a ->
  (result (dosym cwd root false t x) f = Ok tt <-> passable root a f /\ f !! below root (a ++ [n]) = None) /\
  (result (dosym cwd root false t x) f = Ok tt -> exists g, with_dirs root a f g /\ final (dosym cwd root false t x) f = <[below root (a ++ [n]) := NLink t]> g).
Proof. exact (dosym_exact cwd root (fun _ _ => []) (fun _ _ => true) f t x a n). Qed.
Print Assumptions C77_dosym_exact.

Theorem C77_rename_exact (cwd root : string) (f : fs) (s : string) (a : list string) (n m : string) (x : node) :
  tree f -> stands f root -> means s (a ++ [n]) -> name m -> n <> m ->
  f !! below root (a ++ [n]) = Some x -> x <> NDir -> f !! below root (a ++ [m]) <> Some NDir ->
  result (rename cwd root false s m) f = Ok tt /\
  forall q, final (rename cwd root false s m) f !! q =
    if String.eqb q (below root (a ++ [m])) then Some x else if String.eqb q (below root (a ++ [n])) then None else f !! q.
Proof. exact (rename_file cwd root f s a n m x). Qed.
Print Assumptions C77_rename_exact.
Theorem C77_rename_missing (cwd root : string) (f : fs) (s : string) (a : list string) (n m : string) :
  tree f -> stands f root -> means s (a ++ [n]) -> name m -> clear f root a -> f !! below root (a ++ [n]) = None ->
  result (rename cwd root false s m) f = Err EError /\ final (rename cwd root false s m) f = f.
Proof. exact (rename_missing cwd root f s a n m). Qed.
Print Assumptions C77_rename_missing.

(** A directory takes all that is in it along.  A name that is taken by a directory is refused,
    unless an empty one is replaced by a directory, and so is a directory in place of a file. *)
Theorem C77_rename_whole (cwd root : string) (f : fs) (s : string) (a : list string) (n m : string) (x : node) :
  tree f -> stands f root -> means s (a ++ [n]) -> name m -> n <> m -> f !! below root (a ++ [n]) = Some x ->
  let run := rename cwd root false s m in
  let P := below root (a ++ [n]) in let Q := below root (a ++ [m]) in
  let free := f !! Q = None \/ (x = NDir /\ f !! Q = Some NDir /\ vacant f Q) \/ (x <> NDir /\ f !! Q <> Some NDir) in
  (result run f = Ok tt <-> free) /\ (free -> taken f (final run f) P Q) /\ (~ free -> result run f = Err EError /\ final run f = f).
Proof. exact (rename_whole cwd root (fun _ _ => []) f s a n m x). Qed.
Print Assumptions C77_rename_whole.
(** domove of one file, link or directory, to a place that is free, or a file in place of a file:
    it is there afterwards with all that is in it; moved into itself it stays. *)
Theorem C77_domove_exact (cwd root : string) (expand : fs -> string -> list string) (f : fs) (s : string) (a : list string) (n d : string) (ds : list string) (nm : string) (x : node) :
  tree f -> stands f root -> means s (a ++ [n]) -> means d ds -> (nm = "" \/ name nm) -> has_magic (below root (a ++ [n])) = false ->
  f !! below root (a ++ [n]) = Some x -> x = NDir \/ plain (Some x) = true -> passable root ds f ->
  let P := below root (a ++ [n]) in let Q := below root (ds ++ [if String.eqb nm "" then n else nm]) in
  (f !! Q = None \/ x <> NDir /\ exists c, f !! Q = Some (NFile c)) -> P <> Q ->
  let run := domove cwd root false expand s d nm in
  exists g, with_dirs root ds f g /\
    (~ at_or_in P Q -> result run f = Ok tt /\ taken g (final run f) P Q) /\
    (at_or_in P Q -> result run f = Err EError /\ final run f = g).
Proof. exact (domove_one cwd root expand f s a n d ds nm x). Qed.
Print Assumptions C77_domove_exact.

(** remove takes away the files and links that the pattern matches, and only these. *)
Theorem C77_remove_exact (cwd root : string) (expand : fs -> string -> list string) (f : fs) (s : string) :
  tree f -> stands f root -> (forall p, In p (glob cwd expand f (join_path2 root s)) -> found root f p) ->
  result (remove cwd root expand s) f = Ok tt /\
  forall q, final (remove cwd root expand s) f !! q = if bool_decide (q ∈ glob cwd expand f (join_path2 root s)) && plain (f !! q) then None else f !! q.
Proof. exact (remove_exact cwd root expand f s). Qed.
Print Assumptions C77_remove_exact.
Theorem C77_removeDir_exact (cwd root : string) (expand : fs -> string -> list string) (f : fs) (s : string) (a : list string) (n : string) :
  tree f -> stands f root -> means s (a ++ [n]) -> has_magic (below root (a ++ [n])) = false -> f !! below root (a ++ [n]) = Some NDir ->
  result (removeDir cwd root false expand s) f = Ok tt /\
  forall q, final (removeDir cwd root false expand s) f !! q = if under (below root (a ++ [n])) q then None else f !! q.
Proof. exact (removeDir_exact cwd root expand f s a n). Qed.
Print Assumptions C77_removeDir_exact.

(** A file goes into the directory, which is made if it is missing. *)
Theorem C77_insinto_exact (cwd root : string) (expand : fs -> string -> list string) (f : fs) (d : string) (ds : list string) (s c : string) :
  tree f -> stands f root -> means d ds -> clear f root ds -> passable root ds f ->
  has_magic s = false -> os_lstat cwd f s = Some (NFile c) -> name (basename s) ->
  (f !! below root (ds ++ [basename s]) = None \/ exists c', f !! below root (ds ++ [basename s]) = Some (NFile c')) ->
  result (insinto cwd root false expand d s "") f = Ok tt /\
  exists g, with_dirs root ds f g /\ final (insinto cwd root false expand d s "") f = <[below root (ds ++ [basename s]) := NFile c]> g.
Proof. exact (insinto_file cwd root expand f d ds s c). Qed.
Print Assumptions C77_insinto_exact.
Theorem C77_dobin_exact (cwd root src : string) (expand : fs -> string -> list string) (runs : string -> fs -> bool) (f : fs) (s d : string) (ds : list string) (c : string) :
  tree f -> stands f root -> means d ds -> clear f root ds -> passable root ds f ->
  has_magic (join_path2 src s) = false -> os_lstat cwd f (join_path2 src s) = Some (NFile c) -> (forall p g, runs p g = true) ->
  name (basename (join_path2 src s)) -> f !! below root (ds ++ [basename (join_path2 src s)]) <> Some NDir ->
  result (dobin cwd root src false expand runs s d) f = Ok tt /\
  exists g, with_dirs root ds f g /\ final (dobin cwd root src false expand runs s d) f = <[below root (ds ++ [basename (join_path2 src s)]) := NFile c]> g.
Proof. exact (dobin_file cwd root src expand runs f s d ds c). Qed.
Print Assumptions C77_dobin_exact.

(** But dobin reports success also if there is no such file, or if install fails: only the way to
    the directory matters. *)
Theorem C77_dobin_never_complains (cwd root src : string) (expand : fs -> string -> list string) (runs : string -> fs -> bool) (f : fs) (s d : string) (ds : list string) :
  tree f -> stands f root -> means d ds -> clear f root ds ->
  (result (dobin cwd root src false expand runs s d) f = Ok tt <-> passable_to root ds f).
Proof. exact (dobin_result cwd root src expand runs f s d ds). Qed.
Print Assumptions C77_dobin_never_complains.
(** dolib of a symbolic link (libz.so) never works. *)
Theorem C77_dolib_link_fails (cwd root : string) (runs : string -> fs -> bool) (f : fs) (s d : string) (ds : list string) (t : string) :
  tree f -> stands f root -> means d ds -> clear f root ds -> passable_to root ds f ->
  py_startswith cwd "/" = true -> os_lstat cwd f (join_path2 cwd s) = Some (NLink t) ->
  result (dolib cwd root false runs s d) f = Err EOS.
Proof. exact (dolib_link cwd root runs f s d ds t). Qed.
Print Assumptions C77_dolib_link_fails.

(** ** A small build *)
Definition build_root : fs :=
  {[ "/r" := NDir; "/r/usr" := NDir; "/r/usr/bin" := NDir; "/r/usr/bin/bash" := NFile "sh"; "/r/usr/bin/old" := NDir; "/r/usr/bin/old/sh" := NLink "bash";
     "/usr" := NDir; "/usr/lib" := NDir; "/w" := NDir; "/w/a.conf" := NFile "x"; "/w/libz.so" := NLink "libz.so.1"; "/w/libz.so.1" := NFile "z"; "/w/foo.1.gz" := NFile "m" ]}.
Definition no_wild : fs -> string -> list string := fun _ _ => [].
Definition all_runs : string -> fs -> bool := fun _ _ => true.
Lemma build_stands : stands build_root "/r". Proof. apply (stands_b_ok build_root ["r"]). vm_compute. reflexivity. Qed.
Lemma build_tree : tree build_root. Proof. apply tree_check_ok. vm_compute. reflexivity. Qed.

(** A link to an absolute directory leads out: what the script then puts there changes the host. *)
Theorem C77_contained_refuted :
  exists f g, stands f "/r" /\ tree f /\
    final (dosym "/w" "/r" false "/usr/lib" "/lib64") f = g /\ result (dosym "/w" "/r" false "/usr/lib" "/lib64") f = Ok tt /\
    result (insinto "/w" "/r" false no_wild "/lib64" "a.conf" "") g = Ok tt /\
    f !! "/usr/lib/a.conf" = None /\ final (insinto "/w" "/r" false no_wild "/lib64" "a.conf" "") g !! "/usr/lib/a.conf" = Some (NFile "x").
Proof.
  exists build_root. eexists. split; [exact build_stands|]. split; [exact build_tree|]. split; [reflexivity|]. repeat split; vm_compute; reflexivity.
Qed.
Print Assumptions C77_contained_refuted.
(** The example in the documentation of domove does not give /bin/bash. *)
Theorem C77_domove_example_refuted :
  let g := final (domove "/w" "/r" false no_wild "/usr/bin/bash" "/bin/bash" "") build_root in
  g !! "/r/bin/bash" = Some NDir /\ g !! "/r/bin/bash/bash" = Some (NFile "sh") /\ g !! "/r/usr/bin/bash" = None.
Proof. vm_compute. repeat split. Qed.
Print Assumptions C77_domove_example_refuted.
(** The section of a manual page is what follows the last dot, also for a compressed page. *)
Theorem C77_doman_compressed_refuted :
  let g := final (doman "/w" "/r" false no_wild all_runs ["foo.1.gz"]) build_root in
  g !! "/r/usr/share/man/mangz/foo.1.gz" = Some (NFile "m") /\ g !! "/r/usr/share/man/man1/foo.1.gz" = None.
Proof. vm_compute. repeat split. Qed.
Print Assumptions C77_doman_compressed_refuted.

(** The hypotheses are met, and the functions do something. *)
Example C77_nontrivial :
  stands build_root "/r" /\ tree build_root /\ means "/usr/sbin" ["usr"; "sbin"] /\ clear build_root "/r" ["usr"; "sbin"] /\ passable "/r" ["usr"; "sbin"] build_root /\
  found "/r" build_root "/r/usr/bin/bash" /\
  final (insinto "/w" "/r" false no_wild "/usr/sbin" "a.conf" "") build_root !! "/r/usr/sbin/a.conf" = Some (NFile "x") /\
  final (dobin "/w" "/r" "/w" false no_wild all_runs "a.conf" "/usr/sbin") build_root !! "/r/usr/sbin/a.conf" = Some (NFile "x") /\
  final (rename "/w" "/r" false "/usr/bin/bash" "bash.old") build_root !! "/r/usr/bin/bash.old" = Some (NFile "sh") /\
  final (remove "/w" "/r" no_wild "/usr/bin/bash") build_root !! "/r/usr/bin/bash" = None /\
  final (removeDir "/w" "/r" false no_wild "/usr/bin/old") build_root !! "/r/usr/bin/old/sh" = None /\
  final (domove "/w" "/r" false no_wild "/usr/bin/bash" "/bin" "") build_root !! "/r/bin/bash" = Some (NFile "sh") /\
  final (rename "/w" "/r" false "/usr/bin/old" "new") build_root !! "/r/usr/bin/new/sh" = Some (NLink "bash") /\
  result (rename "/w" "/r" false "/usr/bin/bash" "old") build_root = Err EError /\
  final (domove "/w" "/r" false no_wild "/usr/bin/old" "/bin" "sub") build_root !! "/r/bin/sub/sh" = Some (NLink "bash") /\
  result (domove "/w" "/r" false no_wild "/usr/bin/old" "/usr/bin/old/x" "") build_root = Err EError /\
  result (dolib "/w" "/r" false all_runs "libz.so" "/usr/lib") build_root = Err EOS /\
  final (dolib "/w" "/r" false all_runs "libz.so.1" "/usr/lib") build_root !! "/r/usr/lib/libz.so.1" = Some (NFile "z") /\
  result (dodir "/w" "/r" false "/usr/bin/bash/x") build_root = Err EError.
Proof.
  split; [exact build_stands|]. split; [exact build_tree|]. split; [apply (means_b "/" ["usr"; "sbin"]); [reflexivity|now right]|]. split; [apply clear_b_ok; vm_compute; reflexivity|]. split; [apply passable_b_ok; vm_compute; reflexivity|].
  split; [exists ["usr"; "bin"], "bash"; split; [apply names_b; reflexivity|]; split; [reflexivity|apply clear_b_ok; vm_compute; reflexivity]|].
  repeat split; vm_compute; reflexivity.
Qed.
