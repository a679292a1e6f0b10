(** * C102: search-file *)
From Coq Require Import String Ascii ZArith List.
From stdpp Require Import gmap strings.
From Verif Require Import Spec.PathSpec Spec.ContentsSpec Model.Py Model.Package Model.InstallDB Model.Fs Model.System Model.SearchFile
  Spec.SystemSpec Spec.SearchFileSpec Proof.RevDepFacts Proof.SystemFacts Proof.SearchFileFacts.
Open Scope string_scope.

(** search-file answers for each argument, in order: the installed package that owns the place it
    asks about, with the entry of that package's list, or that no package does. *)
Theorem C102_told s f cwd long args : system s -> args <> [] -> (forall a, In a args -> exists p, addressed cwd a p) ->
  exists answers, search_file f cwd (y_files s) false long args = Ok (concat answers) /\ Forall2 (tells s f cwd long) args answers.
Proof. exact (told s f cwd long args). Qed.
Print Assumptions C102_told.
(** Where no path is listed by two packages, it names exactly the package that lists the place. *)
Theorem C102_found_partial s f cwd long a q : lived no_shared_paths s -> asked f cwd a q ->
  exists ls, search_file f cwd (y_files s) false long [a] = Ok ls /\
    (forall n p, In (Has n p) ls <-> p = q /\ lists s n p) /\ (forall p, In (Nobody p) ls <-> p = q /\ forall n, ~ lists s n p).
Proof. exact (found s f cwd long a q). Qed.
Print Assumptions C102_found_partial.
(** With --fuzzy the argument is a pattern, and all places that fit it are told, once each. *)
Theorem C102_fuzzy s f cwd long a pat ps : asked f cwd a pat -> written ps pat ->
  exists ls, search_file f cwd (y_files s) true long [a] = Ok ls /\
    (forall n q, In (Has n q) ls <-> owner s q n /\ fits ps q) /\ List.NoDup (places ls) /\
    (forall p, In (Nobody p) ls <-> p = pat /\ forall n q, owner s q n -> ~ fits ps q).
Proof. exact (fuzzy s f cwd long a pat ps). Qed.
Print Assumptions C102_fuzzy.

Definition lib_files : list finfo := [mkFile "usr/lib/l.so" "library" None None; mkFile "usr/lib/l.so.1" "library" (Some "1234") None].
Definition with_lib : sys := apply_all [YInstall (pkg "a" []) lib_files false].
Lemma with_lib_lived : lived no_shared_paths with_lib.
Proof.
  eapply (lived_step _ empty_sys (YInstall (pkg "a" []) lib_files false)); [constructor|discriminate| |vm_compute; reflexivity].
  intros e n _ [I _]. discriminate I.
Qed.
(** A link is never asked about, only what it leads to: a link that a package installed may belong
    to nobody. *)
Theorem C102_link_refuted : ~ forall s f n q, lived no_shared_paths s -> lists s n q ->
  exists ls, search_file f "/" (y_files s) false false [append "/" q] = Ok ls /\ In (Has n q) ls.
Proof.
  intros H. set (f := {["/usr/lib/l.so" := NLink "/opt/l.so.1"; "/opt/l.so.1" := NFile "x"]} : fs).
  assert (L : lists with_lib "a" "usr/lib/l.so").
  { split; [vm_compute; reflexivity|]. exists lib_files. split; [vm_compute; reflexivity|now left]. }
  destruct (H with_lib f "a" "usr/lib/l.so" with_lib_lived L) as (ls & E & I).
  assert (K : search_file f "/" (y_files with_lib) false false ["/usr/lib/l.so"] = Ok [Searching "/usr/lib/l.so"; Nobody "opt/l.so.1"]) by (vm_compute; reflexivity).
  change (append "/" "usr/lib/l.so") with "/usr/lib/l.so" in E. rewrite K in E. injection E as <-. destruct I as [I|[I|[]]]; discriminate I.
Qed.
Print Assumptions C102_link_refuted.
(** A pattern with a range from a greater to a smaller character ends the command. *)
Theorem C102_range_refuted : ~ forall s f cwd a p, system s -> addressed cwd a p -> exists ls, search_file f cwd (y_files s) true false [a] = Ok ls.
Proof.
  intros H. destruct (H with_lib ∅ "/" "/[z-a]" "/[z-a]") as [ls E].
  - apply apply_all_system. intros d [I|[]]. discriminate I.
  - exists ["[z-a]"], ["[z-a]"]. split; [repeat constructor|]. split; [discriminate|]. split; [|left; split; reflexivity]. constructor; [|constructor]. split; [|split; discriminate]. split; [discriminate|].
    intros I. vm_compute in I. repeat destruct I as [I|I]; try discriminate I; exact I.
  - assert (K : search_file ∅ "/" (y_files with_lib) true false ["/[z-a]"] = Err EValue) by (vm_compute; reflexivity). rewrite K in E. discriminate E.
Qed.
Print Assumptions C102_range_refuted.

(** Asking through a link of another place, by a relative name, by a pattern, and for nothing. *)
Definition linked : fs := {["/usr/local/l" := NLink "/usr/lib/l.so.1"; "/usr/lib/l.so.1" := NFile "x"]}.
Example C102_nontrivial : lived no_shared_paths with_lib /\
  search_file linked "/usr" (y_files with_lib) false true ["./local/./l"; "/etc/passwd"] =
    Ok [Searching "./local/./l"; Has "a" "usr/lib/l.so.1"; Details "library" (Some "1234"); Searching "/etc/passwd"; Nobody "etc/passwd"] /\
  asked linked "/usr" "./local/./l" "usr/lib/l.so.1" /\
  search_file linked "/" (y_files with_lib) true false ["/usr/*.so.[!0a-z]"] = Ok [Searching "/usr/*.so.[!0a-z]"; Has "a" "usr/lib/l.so.1"] /\
  written (map Is ["u"; "s"; "r"; "/"]%char ++ [Anything; Is "."; Is "s"; Is "o"; Is "."; OneOf true [("0", "0"); ("a", "z")]%char])%list "usr/*.so.[!0a-z]".
Proof.
  split; [exact with_lib_lived|]. split; [vm_compute; reflexivity|]. split; [|split; [vm_compute; reflexivity|]].
  - exists "/usr/local/l". split.
    + exists ["."; "local"; "."; "l"], ["local"; "l"]. split; [repeat constructor|]. split; [discriminate|].
      assert (G : forall n, n = "local" \/ n = "l" \/ n = "usr" -> good_name n /\ n <> "." /\ n <> "..").
      { intros n [-> | [-> | ->]]; (split; [split; [discriminate|]|split; discriminate]); intros I; vm_compute in I; repeat destruct I as [I|I]; try discriminate I; exact I. }
      split; [constructor; [now apply G; auto|constructor; [now apply G; auto|constructor]]|]. right. split; [reflexivity|].
      exists ["usr"]. split; [constructor; [now apply G; auto|constructor]|]. split; [left; split; [discriminate|reflexivity]|reflexivity].
    + left. exists "/usr/lib/l.so.1". split.
      * exists 1. split; [lia|]. split; [|vm_compute; discriminate]. apply (leads_on _ 0 _ "/usr/lib/l.so.1"); [vm_compute; reflexivity|]. constructor. intros t. vm_compute. discriminate.
      * exists "/". split; [|split; [reflexivity|discriminate]]. intros c [<-|[]]. reflexivity.
  - cbn [map app]. repeat (constructor; [discriminate|discriminate|discriminate|]). constructor. repeat (constructor; [discriminate|discriminate|discriminate|]).
    change "[!0a-z]" with ("[!" ++ items_text [("0", "0"); ("a", "z")]%char ++ "]" ++ "")%string. constructor; [|constructor].
    repeat constructor; try discriminate.
Qed.

