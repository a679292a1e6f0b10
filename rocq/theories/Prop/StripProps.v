(** * C94: what was installed is stripped, except what the action script exempts, and nothing else *)
From Coq Require Import String Ascii ZArith List Bool Lia.
From stdpp Require Import gmap strings.
From Verif Require Import Model.Py Model.Path Model.Strip Spec.PathSpec Spec.StripSpec Proof.PyFacts Proof.StripFacts Proof.StripWhole.
Import ListNotations.
Open Scope string_scope.

Section any_tools.
  Context (cwd : string) (file_says : string -> string) (strip_tool : string -> string -> option string)
          (keep_debug : string -> option string) (add_link : string -> string -> string -> option string)
          (sed_libs sed_dirs : string -> string) (generatedebug : bool) (walk : string -> gmap string string -> list string).
  Local Notation strip_install_dir := (strip_install_dir cwd file_says strip_tool keep_debug add_link sed_libs sed_dirs generatedebug walk).
  Local Notation prepare_packages := (prepare_packages cwd file_says strip_tool keep_debug add_link sed_libs sed_dirs generatedebug walk).
  Local Notation done_to := (done_to file_says strip_tool keep_debug add_link sed_libs sed_dirs generatedebug).

  (** Missing in the general statement, and false of the code: names with blanks, and NoStrip
      written as action scripts write it. *)
  Theorem C94_strip_partial base nostrip fs :
    walks walk -> build_place base -> proper fs -> unbroken_below fs (base ++ "/install") ->
    let places := match nostrip with Some l => l | None => [] end in
    let fs' := strip_install_dir base nostrip fs in
    (forall r c, fs !! (base ++ "/install/" ++ r) = Some c -> done_to base places fs fs' r c) /\
    (forall g, ~ within (base ++ "/install") g ->
               (forall r, g = base ++ "/debug/" ++ r ++ ".debug" -> ~ has_file fs (base ++ "/install") r) -> fs' !! g = fs !! g).
  Proof. exact (strip_whole cwd file_says strip_tool keep_debug add_link sed_libs sed_dirs generatedebug walk base nostrip fs). Qed.

  (** Places written as "/usr/lib" have no effect whatever. *)
  Theorem C94_nostrip_ignored base l fs :
    walks walk -> proper fs -> (forall e, In e l -> written_place e) ->
    strip_install_dir base (Some l) fs = strip_install_dir base None fs.
  Proof. exact (nostrip_ignored cwd file_says strip_tool keep_debug add_link sed_libs sed_dirs generatedebug walk base l fs). Qed.

  (** The packages are come to if nothing is to be collected in packages of its own. *)
  Theorem C94_prepared_partial base static nostrip fs :
    walks walk ->
    let fs' := strip_install_dir base nostrip fs in
    (static = true -> forall f c, within (base ++ "/install") f -> (exists n, f = n ++ ".a") -> fs' !! f = Some c -> ~ mentions "!<arch>" c) ->
    (generatedebug = true -> forall f, within (base ++ "/debug") f -> (exists n, f = n ++ ".debug") -> fs' !! f = None) ->
    prepare_packages base static nostrip fs = (fs', Ok tt).
  Proof.
    intros W fs' A B. destruct (prepared cwd file_says strip_tool keep_debug add_link sed_libs sed_dirs generatedebug walk base static nostrip fs) as (F & I & _).
    apply injective_projections; [exact F|]. apply I. split; intros E.
    - apply static_ok; [exact W|exact (A E)].
    - apply debug_ok; [exact W|exact (B E)].
  Qed.

  (** With --create-static, an archive of object code in the package ends the build. *)
  Theorem C94_static_package_refuted base nostrip fs n c :
    walks walk -> strip_install_dir base nostrip fs !! (base ++ "/install/" ++ n ++ ".a") = Some ("!<arch>" ++ String newline c) ->
    snd (prepare_packages base true nostrip fs) = Err EAttribute.
  Proof.
    intros W L. destruct (prepared cwd file_says strip_tool keep_debug add_link sed_libs sed_dirs generatedebug walk base true nostrip fs) as (_ & I & [K|K]); [|exact K].
    apply I in K as [K _]. specialize (K eq_refl). rewrite static_fails in K; [discriminate|exact W|]. now exists n, c.
  Qed.
End any_tools.
Print Assumptions C94_strip_partial.
Print Assumptions C94_nostrip_ignored.
Print Assumptions C94_prepared_partial.
Print Assumptions C94_static_package_refuted.

(** With generatedebug, a program whose debug information could be had ends the build. *)
Theorem C94_debug_package_refuted cwd file_says strip_tool keep_debug add_link sed_libs sed_dirs walk base static nostrip fs r c c1 d :
  walks walk -> build_place base -> proper fs -> unbroken_below fs (base ++ "/install") ->
  fs !! (base ++ "/install/" ++ r) = Some c -> repaired sed_libs sed_dirs (base ++ "/install/" ++ r) c c1 ->
  is_a file_says c1 Program \/ is_a file_says c1 Library -> keep_debug c1 = Some d ->
  ~ spared (match nostrip with Some l => l | None => [] end) r ->
  snd (prepare_packages cwd file_says strip_tool keep_debug add_link sed_libs sed_dirs true walk base static nostrip fs) = Err EAttribute.
Proof. exact (debug_never cwd file_says strip_tool keep_debug add_link sed_libs sed_dirs walk base static nostrip fs r c c1 d). Qed.
Print Assumptions C94_debug_package_refuted.

(** ** Cases *)
Definition says_what (c : string) : string :=
  if py_startswith c "X" then "ELF 64-bit LSB executable, not stripped"
  else if py_startswith c "S" then "ELF 64-bit LSB shared object, not stripped"
  else if py_startswith c "!<arch>" then "current ar archive"
  else "ASCII text".
Definition strips (flags c : string) : option string := Some ("strip" ++ flags ++ "(" ++ c ++ ")").
Definition keeps_debug (c : string) : option string := if py_startswith c "X" then Some ("debug of " ++ c) else None.
Definition adds_link (name d c : string) : option string := Some (c ++ " see " ++ name ++ " with " ++ d).
Definition sed1 (c : string) : string := "sed1(" ++ c ++ ")".
Definition sed2 (c : string) : string := "sed2(" ++ c ++ ")".
Definition walk_it (d : string) (fs : gmap string string) : list string := List.filter (fun f => py_startswith f (d ++ "/")) (map_to_list fs).*1.

Lemma walk_walks : walks walk_it.
Proof.
  intros d fs. split.
  - unfold walk_it. apply List.NoDup_filter. apply NoDup_ListNoDup. apply NoDup_fst_map_to_list.
  - intros f. unfold walk_it. rewrite List.filter_In, startswith_iff, <- elem_of_list_In, elem_of_list_fmap. unfold within. split.
    + intros [([f' c] & -> & K) [r H]]. apply elem_of_map_to_list in K. cbn [fst] in *. split; [rewrite K; now eexists|]. exists r. now rewrite H, str_app_assoc.
    + intros [[c K] [r H]]. split; [|exists r; now rewrite H, str_app_assoc]. exists (f, c). split; [reflexivity|]. now apply elem_of_map_to_list.
Qed.

Definition place : string := "/var/tmp/pisi/zip-1-1".
Definition built : gmap string string :=
  <["/var/tmp/pisi/zip-1-1/install/usr/bin/zip" := "X1"]> (<["/var/tmp/pisi/zip-1-1/install/usr/lib/libz.so" := "S1"]>
  (<["/var/tmp/pisi/zip-1-1/install/usr/lib/libz.a" := "!<arch>"]> (<["/var/tmp/pisi/zip-1-1/install/usr/lib/libz.la" := "dir"]>
  (<["/var/tmp/pisi/zip-1-1/install/usr/doc/la" := "text"]> (<["/usr/bin/ls" := "X0"]> ∅))))).
Definition with_ (dbg : bool) (l : option (list string)) (fs : gmap string string) : gmap string string :=
  strip_install_dir "/root" says_what strips keeps_debug adds_link sed1 sed2 dbg walk_it place l fs.

Example C94_nontrivial :
  map (fun f => with_ true None built !! f)
    ["/var/tmp/pisi/zip-1-1/install/usr/bin/zip"; "/var/tmp/pisi/zip-1-1/debug/usr/bin/zip.debug"; "/var/tmp/pisi/zip-1-1/install/usr/lib/libz.so";
     "/var/tmp/pisi/zip-1-1/debug/usr/lib/libz.so.debug"; "/var/tmp/pisi/zip-1-1/install/usr/lib/libz.a"; "/var/tmp/pisi/zip-1-1/install/usr/lib/libz.la";
     "/var/tmp/pisi/zip-1-1/install/usr/doc/la"; "/usr/bin/ls"] =
  [Some "strip(X1 see /var/tmp/pisi/zip-1-1/debug/usr/bin/zip.debug with debug of X1)"; Some "debug of X1"; Some "strip--strip-unneeded(S1)";
   None; Some "strip-g(!<arch>)"; Some "sed2(sed1(dir))"; Some "text"; Some "X0"] /\
  with_ true (Some ["/"]) built !! "/var/tmp/pisi/zip-1-1/install/usr/bin/zip" = Some "X1" /\
  with_ true (Some ["/"]) built !! "/var/tmp/pisi/zip-1-1/install/usr/lib/libz.la" = Some "sed2(sed1(dir))".
Proof. vm_compute. repeat split. Qed.

Lemma place_ok : build_place place.
Proof.
  split; [now exists "var/tmp/pisi/zip-1-1"|]. split.
  - intros [t K]. assert (py_endswith place "/" = true) as E by (apply endswith_iff; now exists t). vm_compute in E. discriminate.
  - split; unfold free_of; vm_compute; intuition discriminate.
Qed.
Lemma built_ok : proper built /\ unbroken_below built (place ++ "/install").
Proof.
  assert (forallb (fun f => py_startswith f "/" && negb (contains "//" f) && negb (char_in " " f) && negb (char_in (ascii_of_nat 9) f)) (map_to_list built).*1 = true) as E by (vm_compute; reflexivity).
  rewrite forallb_forall in E.
  assert (forall f, is_Some (built !! f) -> (py_startswith f "/" && negb (contains "//" f) && negb (char_in " " f) && negb (char_in (ascii_of_nat 9) f)) = true) as E'.
  { generalize dependent built. intros b E f [c K]. apply E. apply elem_of_list_In, elem_of_list_fmap. exists (f, c). split; [reflexivity|]. now apply elem_of_map_to_list. }
  clear E. generalize dependent built. intros b E. split.
  - intros f S. specialize (E f S). rewrite !andb_true_iff, !negb_true_iff in E. destruct E as [[[A B] _] _]. split; [now apply startswith_iff|now apply contains_not].
  - intros r S. unfold has_file in S. specialize (E _ S). rewrite !andb_true_iff, !negb_true_iff in E. destruct E as [[_ B] C].
    assert (unbroken ((place ++ "/install") ++ "/" ++ r)) as U; [|now apply unbroken_app in U as [_ U]; apply unbroken_app in U as [_ U]].
    split; unfold free_of; rewrite <- char_in_iff; congruence.
Qed.

(** The full claim about NoStrip: what it names keeps its contents (libtool archives aside). *)
Theorem C94_nostrip_refuted :
  ~ (forall file_says strip_tool keep_debug add_link sed_libs sed_dirs generatedebug walk base l fs r c,
       walks walk -> build_place base -> proper fs -> unbroken_below fs (base ++ "/install") ->
       (forall e, In e l -> written_place e) -> named_by l ("/" ++ r) -> ~ libtool r ->
       fs !! (base ++ "/install/" ++ r) = Some c ->
       strip_install_dir "/root" file_says strip_tool keep_debug add_link sed_libs sed_dirs generatedebug walk base (Some l) fs !! (base ++ "/install/" ++ r) = Some c).
Proof.
  intros H. specialize (H says_what strips keeps_debug adds_link sed1 sed2 false walk_it place ["/usr/lib"] built "usr/lib/libz.so" "S1" walk_walks place_ok (proj1 built_ok) (proj2 built_ok)).
  assert (forall e, In e ["/usr/lib"] -> written_place e) as W.
  { intros e [<-|[]]. exists "usr/lib". split; [reflexivity|]. apply (rel_under "usr" "lib"); [discriminate|unfold free_of; vm_compute; intuition discriminate|].
    apply rel_name; [discriminate|unfold free_of; vm_compute; intuition discriminate]. }
  specialize (H W). assert (named_by ["/usr/lib"] ("/" ++ "usr/lib/libz.so")) as N by (exists "/usr/lib"; split; [now left|right; now exists "libz.so"]).
  specialize (H N). assert (~ libtool "usr/lib/libz.so") as L by (rewrite <- extension_la; vm_compute; discriminate).
  specialize (H L). assert (built !! (place ++ "/install/" ++ "usr/lib/libz.so") = Some "S1") as B by (vm_compute; reflexivity).
  specialize (H B). apply (f_equal (fun o => match o with Some c => String.eqb c "S1" | None => false end)) in H.
  match type of H with ?x = ?y => assert (x = false) as E1 by (vm_compute; reflexivity); assert (y = true) as E2 by (vm_compute; reflexivity) end. rewrite E1, E2 in H. discriminate H.
Qed.
Print Assumptions C94_nostrip_refuted.

(** The full claim that only what was built is changed: a directory "a " with usr/bin/ls in it. *)
Definition hostile : gmap string string :=
  <["/var/tmp/pisi/zip-1-1/install/a /usr/bin/ls" := "X1"]> (<["/usr/bin/ls" := "X0"]> ∅).
Theorem C94_only_there_refuted :
  ~ (forall file_says strip_tool keep_debug add_link sed_libs sed_dirs generatedebug walk base l fs g,
       walks walk -> build_place base -> proper fs -> ~ within base g ->
       strip_install_dir "/root" file_says strip_tool keep_debug add_link sed_libs sed_dirs generatedebug walk base l fs !! g = fs !! g).
Proof.
  intros H. specialize (H says_what strips keeps_debug adds_link sed1 sed2 false walk_it place None hostile "/usr/bin/ls" walk_walks place_ok).
  assert (proper hostile) as P.
  { intros f K. unfold hostile in K. rewrite !lookup_insert_is_Some in K. destruct K as [<-|[_ [<-|[_ [x K]]]]].
    - split; [now eexists|]. rewrite <- contains_not. vm_compute. reflexivity.
    - split; [now eexists|]. rewrite <- contains_not. vm_compute. reflexivity.
    - rewrite lookup_empty in K. discriminate. }
  specialize (H P). assert (~ within place "/usr/bin/ls") as W by (intros [r K]; discriminate).
  specialize (H W). apply (f_equal (fun o => match o with Some c => String.eqb c "X0" | None => false end)) in H.
  match type of H with ?x = ?y => assert (x = false) as E1 by (vm_compute; reflexivity); assert (y = true) as E2 by (vm_compute; reflexivity) end. rewrite E1, E2 in H. discriminate H.
Qed.
Print Assumptions C94_only_there_refuted.

(** The hypotheses of the theorems above on the packages are met. *)
Example C94_packages_nontrivial :
  snd (prepare_packages "/root" says_what strips keeps_debug adds_link sed1 sed2 false walk_it place false None built) = Ok tt /\
  snd (prepare_packages "/root" says_what strips keeps_debug adds_link sed1 sed2 true walk_it place false None built) = Err EAttribute /\
  snd (prepare_packages "/root" says_what (fun _ c => Some c) keeps_debug adds_link sed1 sed2 false walk_it place true None
         (<["/var/tmp/pisi/zip-1-1/install/usr/lib/libz.a" := "!<arch>" ++ String newline "x"]> built)) = Err EAttribute.
Proof. vm_compute. repeat split. Qed.
