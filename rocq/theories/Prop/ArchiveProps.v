(** * C79: archives *)
From Coq Require Import String Ascii ZArith NArith List Bool Lia.
From stdpp Require Import gmap strings.
From Verif Require Import Model.Py Model.Path Model.InstallDB Model.Fs Model.Trace Model.Actions Model.Index Model.Archive Spec.PathSpec Spec.FsSpec Spec.ActionsSpec Spec.ArchiveSpec.
From Verif Require Import Proof.PyFacts Proof.PathFacts Proof.ActionsTop Proof.ActionsExact Proof.ArchiveFacts Proof.ArchiveZip Proof.ArchiveZipTop Proof.ArchiveTop Proof.ArchiveTar Proof.ArchiveStay.
Import ListNotations.
Open Scope string_scope.

(** ** Packing

    Files, directories and links of the current directory can be packed, however deep the
    directories are and in whatever order they are listed. *)
Theorem C79_zip_packs (d : disk) (C : string) (order : string -> list string -> list string) (n : nat) (xs : list string) :
  stands (nodes d) C -> real (nodes d) -> any_listing order -> to_pack d C xs -> paths_shorter d n ->
  exists As, Py.mapM (fun x => add_to_archive C order n d x "") xs = Ok As.
Proof. intros SC Rd Or Tp. exact (pack_all d C SC Rd order Or n xs Tp). Qed.
Print Assumptions C79_zip_packs.

Theorem C79_tar_packs (d : disk) (C : string) (order : string -> list string -> list string) (n : nat) (xs : list string) :
  stands (nodes d) C -> real (nodes d) -> any_listing order -> to_pack d C xs -> paths_shorter d n ->
  exists As, Py.mapM (fun x => tar_add_to_archive C order n d x "") xs = Ok As.
Proof. intros SC Rd Or Tp. exact (tar_pack_all d C SC Rd order Or n xs Tp). Qed.
Print Assumptions C79_tar_packs.

(** ** Packing and unpacking

    What was packed is in the new directory, and nothing else; elsewhere nothing has changed. *)
Theorem C79_zip_round_trip_partial (d : disk) (C : string) (order : string -> list string -> list string) (n : nat) (xs : list string) (As : list (list member)) (cwd : string) (umask : N) (e : disk) (T : string) (clean : bool) :
  stands (nodes d) C -> real (nodes d) -> any_listing order -> to_pack d C xs ->
  Py.mapM (fun x => add_to_archive C order n d x "") xs = Ok As ->
  (forall x, In x xs -> tidy d (C ++ "/" ++ x)) -> ~ ends_blank T -> placed (nodes e) T ->
  nothing_at e T \/ (clean = true /\ nodes e !! T = Some NDir) ->
  exists e', final (unpack_zip cwd umask (concat As) T clean) e = e' /\ result (unpack_zip cwd umask (concat As) T clean) e = Ok tt /\
    all_copied zip_file_keeps zip_dir_keeps d e' C T xs /\ new_directory e e' T xs.
Proof.
  intros SC Rd Or Tp Q Td Tb Pl K. destruct (zip_round_trip d C SC Rd order Or n xs Tp As Q Td cwd umask e T Tb clean Pl K) as [A B]. eexists. now split.
Qed.
Print Assumptions C79_zip_round_trip_partial.

(** For tar files all the twelve bits are kept, and white space in names makes no difference. *)
Theorem C79_tar_round_trip (d : disk) (C : string) (order : string -> list string -> list string) (n : nat) (xs : list string) (As : list (list tmember)) (cwd : string) (umask : N) (e : disk) (T : string) (clean : bool) :
  stands (nodes d) C -> real (nodes d) -> any_listing order -> to_pack d C xs ->
  Py.mapM (fun x => tar_add_to_archive C order n d x "") xs = Ok As ->
  placed (nodes e) T -> nothing_at e T \/ (clean = true /\ nodes e !! T = Some NDir) ->
  exists e', final (unpack_tar cwd umask (concat As) T clean) e = e' /\ result (unpack_tar cwd umask (concat As) T clean) e = Ok tt /\
    all_copied all_bits all_bits d e' C T xs /\ new_directory e e' T xs.
Proof.
  intros SC Rd Or Tp Q Pl K. destruct (tar_round_trip d C SC Rd order Or n xs Tp As Q cwd umask e T clean Pl K) as [A B]. eexists. now split.
Qed.
Print Assumptions C79_tar_round_trip.

(** Without clean_dir an existing target is refused, and nothing is changed. *)
Theorem C79_existing_target_zip (ms : list member) (cwd : string) (umask : N) (e : disk) (T : string) :
  placed (nodes e) T -> nodes e !! T <> None -> unpack_zip cwd umask ms T false e = ([], Err EOS).
Proof. intros Pl K. unfold unpack_zip, andthen. now rewrite (prepare_exists cwd umask e T Pl K). Qed.
Print Assumptions C79_existing_target_zip.
Theorem C79_existing_target_tar (ms : list tmember) (cwd : string) (umask : N) (e : disk) (T : string) :
  placed (nodes e) T -> nodes e !! T <> None -> unpack_tar cwd umask ms T false e = ([], Err EOS).
Proof. intros Pl K. unfold unpack_tar, andthen. now rewrite (prepare_exists cwd umask e T Pl K). Qed.
Print Assumptions C79_existing_target_tar.

(** ** Extracting into a directory that is there: Package.extract, extract_dir, extract_files and
    extract_dir_flat *)
Section extracting.
  Context (d : disk) (C : string) (order : string -> list string -> list string) (n : nat) (xs : list string) (As : list (list member)).
  Context (cwd : string) (umask : N) (e : disk) (T : string).

  Theorem C79_extract_partial :
    stands (nodes d) C -> real (nodes d) -> any_listing order -> to_pack d C xs ->
    Py.mapM (fun x => add_to_archive C order n d x "") xs = Ok As ->
    (forall x, In x xs -> tidy d (C ++ "/" ++ x)) -> ~ ends_blank T -> stands (nodes e) T ->
    (forall x, In x xs -> nothing_at e (T ++ "/" ++ x)) ->
    result (unpack_dir cwd umask "" (concat As) T) e = Ok tt /\
    all_copied zip_file_keeps zip_dir_keeps d (final (unpack_dir cwd umask "" (concat As) T) e) C T xs /\
    only_in e (final (unpack_dir cwd umask "" (concat As) T) e) T xs.
  Proof.
    intros SC Rd Or Tp Q Td Tb St E. pose proof (all_members d C SC Rd order Or n xs Tp As Q Td cwd umask T Tb e St E) as K.
    assert (X : unpack_dir cwd umask "" (concat As) T = unpack_file_cond cwd umask (fun _ => true) (concat As) T "").
    { unfold unpack_dir, unpack_file_cond. generalize (concat As) at 2 4. intros l. induction l as [|m l IH]; [reflexivity|]. cbn [each]. rewrite IH, subpath_nil. reflexivity. }
    rewrite X. exact K.
  Qed.

  Theorem C79_extract_dir_partial (x : string) :
    stands (nodes d) C -> real (nodes d) -> any_listing order -> to_pack d C xs ->
    Py.mapM (fun x => add_to_archive C order n d x "") xs = Ok As ->
    (forall x, In x xs -> tidy d (C ++ "/" ++ x)) -> ~ ends_blank T -> stands (nodes e) T ->
    In x xs -> nothing_at e (T ++ "/" ++ x) ->
    result (unpack_dir cwd umask x (concat As) T) e = Ok tt /\
    copied zip_file_keeps zip_dir_keeps d (final (unpack_dir cwd umask x (concat As) T) e) (C ++ "/" ++ x) (T ++ "/" ++ x) /\
    only_in e (final (unpack_dir cwd umask x (concat As) T) e) T [x].
  Proof. intros SC Rd Or Tp Q Td Tb. exact (zip_dir_only d C SC Rd order Or n xs Tp As Q Td cwd umask e T Tb x). Qed.

  Theorem C79_extract_files_partial (ps : list string) :
    stands (nodes d) C -> real (nodes d) -> any_listing order -> to_pack d C xs ->
    Py.mapM (fun x => add_to_archive C order n d x "") xs = Ok As ->
    (forall x, In x xs -> tidy d (C ++ "/" ++ x)) -> ~ ends_blank T -> stands (nodes e) T ->
    (forall x, In x ps -> name x) -> (forall x, In x ps -> In x xs -> nodes d !! (C ++ "/" ++ x) <> Some NDir /\ nothing_at e (T ++ "/" ++ x)) ->
    result (unpack_files cwd umask ps (concat As) T) e = Ok tt /\
    (forall x, In x ps -> In x xs -> copied zip_file_keeps zip_dir_keeps d (final (unpack_files cwd umask ps (concat As) T) e) (C ++ "/" ++ x) (T ++ "/" ++ x)) /\
    only_in e (final (unpack_files cwd umask ps (concat As) T) e) T (List.filter (fun x => existsb (String.eqb x) xs) ps).
  Proof. intros SC Rd Or Tp Q Td Tb. exact (zip_files d C SC Rd order Or n xs Tp As Q Td cwd umask e T Tb ps). Qed.

  (** The contents of the directory [x] of the archive go to [T] itself. *)
  Theorem C79_extract_flat_partial (x : string) (ys : list string) :
    stands (nodes d) C -> real (nodes d) -> any_listing order -> to_pack d C xs ->
    Py.mapM (fun x => add_to_archive C order n d x "") xs = Ok As ->
    (forall x, In x xs -> tidy d (C ++ "/" ++ x)) -> ~ ends_blank T -> stands (nodes e) T ->
    In x xs -> nodes d !! (C ++ "/" ++ x) = Some NDir -> content d (C ++ "/" ++ x) ys -> (forall y, In y ys -> nothing_at e (T ++ "/" ++ y)) ->
    result (unpack_dir_flat cwd umask x (concat As) T) e = Ok tt /\
    all_copied zip_file_keeps zip_dir_keeps d (final (unpack_dir_flat cwd umask x (concat As) T) e) (C ++ "/" ++ x) T ys /\
    only_in e (final (unpack_dir_flat cwd umask x (concat As) T) e) T ys.
  Proof. intros SC Rd Or Tp Q Td Tb. exact (zip_flat d C SC Rd order Or n xs Tp As Q Td cwd umask e T Tb x ys). Qed.
End extracting.
Print Assumptions C79_extract_partial.
Print Assumptions C79_extract_dir_partial.
Print Assumptions C79_extract_files_partial.
Print Assumptions C79_extract_flat_partial.

(** ** What is lost, and what gets out *)
Definition made (l : list (string * node * N)) : disk := mkDisk (list_to_map (map fst l)) (list_to_map (map (fun x => (fst (fst x), snd x)) l)).
Definition as_listed : string -> list string -> list string := fun _ l => l.
(** A directory to unpack in *)
Definition site : disk := made [("/w", NDir, 0x1ED%N); ("/etc", NDir, 0x1ED%N)].

(** A program that is setgid (rwxr-sr-x) *)
Definition game : disk := made [("/s", NDir, 0x1ED%N); ("/s/game", NFile "play", 0x5ED%N)].
Theorem C79_zip_setgid_refuted :
  let ms := add_to_archive "/s" as_listed 20 game "game" "" in
  ms = Ok [mkMember "game" 0x85ED0000 "play"] /\
  let e' := final (unpack_zip "/" 0x12 [mkMember "game" 0x85ED0000 "play"] "/w/t" false) site in
  nodes e' !! "/w/t/game" = Some (NFile "play") /\
  N.testbit (mode_of game "/s/game") setgid = true /\ N.testbit (mode_of e' "/w/t/game") setgid = false.
Proof. vm_compute. repeat split. Qed.
Print Assumptions C79_zip_setgid_refuted.

(** A directory whose name ends in a space: one without it is made as well. *)
Definition spaced : disk := made [("/s", NDir, 0x1ED%N); ("/s/a ", NDir, 0x1ED%N); ("/s/a /b", NFile "text", 0x1A4%N)].
Theorem C79_zip_spaces_refuted :
  exists ms, add_to_archive "/s" as_listed 20 spaced "a " "" = Ok ms /\
  let e' := final (unpack_zip "/" 0x12 ms "/w/t" false) site in
  nodes e' !! "/w/t/a /b" = Some (NFile "text") /\ nodes e' !! "/w/t/a" = Some NDir /\ nodes spaced !! "/s/a" = None.
Proof. eexists. split; [vm_compute; reflexivity|]. vm_compute. repeat split. Qed.
Print Assumptions C79_zip_spaces_refuted.

(** Archives can write outside the directory they are unpacked to: with "..", with an absolute
    name, and through a link of their own. *)
Theorem C79_zip_escapes_refuted :
  (forall m, In m [[mkMember "../x" 0x81A40000 "data"]; [mkMember "/w/x" 0x81A40000 "data"]; [mkMember "l" symmagic "/w"; mkMember "l/x" 0x81A40000 "data"]] ->
    nodes (final (unpack_zip "/" 0x12 m "/w/t" false) site) !! "/w/x" = Some (NFile "data")) /\
  nodes site !! "/w/x" = None /\ ~ at_or_in "/w/t" "/w/x".
Proof.
  split; [intros m [<-|[<-|[<-|[]]]]; vm_compute; reflexivity|]. split; [vm_compute; reflexivity|]. intros [E|[r E]]; discriminate E.
Qed.
Print Assumptions C79_zip_escapes_refuted.
Theorem C79_tar_escapes_refuted :
  (forall m, In m [[mkTar "../x" 0x1A4 (AFile "data")]; [mkTar "/w/x" 0x1A4 (AFile "data")]; [mkTar "l" 0x1FF (ALink "/w"); mkTar "l/x" 0x1A4 (AFile "data")]; [mkTar "l" 0x1FF (ALink "/w/x"); mkTar "l" 0x1A4 (AFile "data")]] ->
    nodes (final (unpack_tar "/" 0x12 m "/w/t" false) site) !! "/w/x" = Some (NFile "data")) /\
  nodes site !! "/w/x" = None /\ ~ at_or_in "/w/t" "/w/x".
Proof.
  split; [intros m [<-|[<-|[<-|[<-|[]]]]]; vm_compute; reflexivity|]. split; [vm_compute; reflexivity|]. intros [E|[r E]]; discriminate E.
Qed.
Print Assumptions C79_tar_escapes_refuted.

(** A file that is not an archive is copied into the new directory, with the permissions of a new
    file. *)
Theorem C79_binary (cwd : string) (umask : N) (e : disk) (T : string) (clean : bool) (P n c : string) :
  placed (nodes e) T -> nothing_at e T \/ (clean = true /\ nodes e !! T = Some NDir) ->
  stands (nodes e) P -> name n -> nodes e !! (P ++ "/" ++ n) = Some (NFile c) -> ~ at_or_in T (P ++ "/" ++ n) ->
  exists e', final (unpack_binary cwd umask (P ++ "/" ++ n) T clean) e = e' /\ result (unpack_binary cwd umask (P ++ "/" ++ n) T clean) e = Ok tt /\
    nodes e' !! (T ++ "/" ++ n) = Some (NFile c) /\ mode_of e' (T ++ "/" ++ n) = N.ldiff 0x1B6 umask /\ new_directory e e' T [n].
Proof. intros Pl K SP Nn F Out. destruct (binary_copied cwd umask e T clean Pl K P n c SP Nn F Out) as [A B]. eexists. now split. Qed.
Print Assumptions C79_binary.

(** Links packed by other tools are not links here unless their permissions are 0755: with the usual
    0777 a file is made that holds the target. *)
Theorem C79_foreign_links_refuted :
  nodes (final (unpack_zip "/" 0x12 [mkMember "l" 0xA1FF0000 "target"] "/w/t" false) site) !! "/w/t/l" = Some (NFile "target") /\
  nodes (final (unpack_zip "/" 0x12 [mkMember "l" 0xA1ED0000 "target"] "/w/t" false) site) !! "/w/t/l" = Some (NLink "target").
Proof. split; vm_compute; reflexivity. Qed.
Print Assumptions C79_foreign_links_refuted.

(** Names in zip files are made plain for files, not for directories and links; a name of slashes
    only is an error. *)
Definition up : disk := made [("/w", NDir, 0x1ED%N); ("/w/a", NDir, 0x1ED%N); ("/w/b", NFile "B", 0x1A4%N); ("/w/l", NLink "b", 0x1FF%N); ("/w/c", NDir, 0x1ED%N); ("/w/c/x", NFile "X", 0x1A4%N)].
Theorem C79_names_in_zip :
  add_to_archive "/w" as_listed 5 up "a/../b" "" = Ok [mkMember "b" 0x81A40000 "B"] /\
  add_to_archive "/w/a" as_listed 5 up "../b" "" = Ok [mkMember "../b" 0x81A40000 "B"] /\
  add_to_archive "/w" as_listed 5 up "/w//./b" "" = Ok [mkMember "w/b" 0x81A40000 "B"] /\
  add_to_archive "/w" as_listed 5 up "a/../l" "" = Ok [mkMember "a/../l" symmagic "b"] /\
  add_to_archive "/w" as_listed 5 up "a/../c" "" = Ok [mkMember "a/../c/" 0x1ED0000 ""; mkMember "c/x" 0x81A40000 "X"] /\
  add_to_archive "/w" as_listed 5 up "b" "//" = Err EIndex.
Proof. vm_compute. repeat split; reflexivity. Qed.
Print Assumptions C79_names_in_zip.

(** ** A package: files, links and directories, listed in two orders *)
Definition package : disk :=
  made [("/s", NDir, 0x1ED%N); ("/s/metadata.xml", NFile "<PISI/>", 0x1A4%N); ("/s/install", NDir, 0x1ED%N); ("/s/install/usr", NDir, 0x3FF%N);
        ("/s/install/usr/a", NFile "A", 0x9ED%N); ("/s/install/usr/b", NLink "a", 0x1FF%N)].
Lemma package_stands : stands (nodes package) "/s".
Proof. change "/s" with (below "/" ["s"]). apply stands_b_ok. vm_compute. reflexivity. Qed.
Lemma site_stands : stands (nodes site) "/w".
Proof. change "/w" with (below "/" ["w"]). apply stands_b_ok. vm_compute. reflexivity. Qed.
Lemma site_placed : placed (nodes site) "/w/t".
Proof. exists "/w", "t". split; [exact site_stands|]. split; [|reflexivity]. split; [discriminate|]. split; [discriminate|]. split; [discriminate|]. intros [E|[]]. discriminate E. Qed.
Definition real_b (d : disk) (ls : list (list string)) : bool :=
  forallb (fun ns => match ns with [] => false | _ => true end && names_check ns && forallb (fun k => match nodes d !! below "/" (List.firstn k ns) with Some NDir => true | _ => false end) (seq 1 (List.length ns - 1))) ls.
Lemma real_b_ok (l : list (string * node * N)) ls : map (fun x => fst (fst x)) l = map (below "/") ls -> real_b (made l) ls = true -> real (nodes (made l)).
Proof.
  intros E B p x L. unfold real_b in B. rewrite forallb_forall in B. assert (I : In p (map (below "/") ls)).
  { rewrite <- E. unfold made in L. cbn [nodes] in L. apply elem_of_list_to_map_2, elem_of_list_In in L. apply in_map_iff in L as (y & Ey & Iy). apply in_map_iff. exists y. split; [now rewrite Ey|exact Iy]. }
  apply in_map_iff in I as (ns & Ep & I). specialize (B ns I). apply andb_true_iff in B as [B1 B2]. apply andb_true_iff in B1 as [B0 B1]. exists ns. split; [now destruct ns|]. split; [now apply names_b|]. split; [now symmetry|].
  intros a b Ea Na Nb. rewrite forallb_forall in B2. assert (Le : List.length a < List.length ns) by (rewrite Ea, app_length; destruct b; [congruence|cbn; lia]). specialize (B2 (List.length a)).
  assert (F : List.firstn (List.length a) ns = a) by (rewrite Ea, List.firstn_app, Nat.sub_diag, List.firstn_all, List.firstn_O; apply app_nil_r). rewrite F in B2.
  destruct (nodes (made l) !! below "/" a) as [[]|]; try reflexivity; (assert (X : false = true); [apply B2; apply in_seq; destruct a; [congruence|cbn in *; lia]|discriminate X]).
Qed.
Lemma in_made l q : nodes (made l) !! q <> None -> In q (map (fun x => fst (fst x)) l).
Proof.
  intros N. destruct (nodes (made l) !! q) as [x|] eqn:L; [|congruence]. cbn [nodes made] in L. apply elem_of_list_to_map_2, elem_of_list_In, in_map_iff in L as (y & Ey & Iy). apply in_map_iff. exists y. split; [now rewrite Ey|exact Iy].
Qed.
Lemma name_ok n : names_check [n] = true -> name n.
Proof. intros B. apply (names_b [n] B). now left. Qed.

Lemma package_real : real (nodes package).
Proof. apply (real_b_ok _ [["s"]; ["s"; "metadata.xml"]; ["s"; "install"]; ["s"; "install"; "usr"]; ["s"; "install"; "usr"; "a"]; ["s"; "install"; "usr"; "b"]]); vm_compute; reflexivity. Qed.
Lemma package_to_pack : to_pack package "/s" ["metadata.xml"; "install"].
Proof.
  assert (A : forall q, nodes package !! q <> Some NOther).
  { intros q X. assert (I : In q (map (fun x => fst (fst x)) [("/s", NDir, 0x1ED%N); ("/s/metadata.xml", NFile "<PISI/>", 0x1A4%N); ("/s/install", NDir, 0x1ED%N); ("/s/install/usr", NDir, 0x3FF%N); ("/s/install/usr/a", NFile "A", 0x9ED%N); ("/s/install/usr/b", NLink "a", 0x1FF%N)])) by (apply in_made; unfold package in X; rewrite X; discriminate).
    repeat (destruct I as [<-|I]; [vm_compute in X; discriminate X|]). destruct I. }
  split; [repeat constructor; cbn; intuition discriminate|]. intros x I. split; [apply name_ok; destruct I as [<-|[<-|[]]]; vm_compute; reflexivity|]. split; [|intros q _; apply A]. destruct I as [<-|[<-|[]]]; vm_compute; discriminate.
Qed.
Lemma package_tidy x : tidy package ("/s/" ++ x).
Proof.
  intros q _ X (s & c & E & W). assert (I : In q ["/s"; "/s/metadata.xml"; "/s/install"; "/s/install/usr"; "/s/install/usr/a"; "/s/install/usr/b"]) by (apply (in_made [("/s", NDir, 0x1ED%N); ("/s/metadata.xml", NFile "<PISI/>", 0x1A4%N); ("/s/install", NDir, 0x1ED%N); ("/s/install/usr", NDir, 0x3FF%N); ("/s/install/usr/a", NFile "A", 0x9ED%N); ("/s/install/usr/b", NLink "a", 0x1FF%N)]); unfold package in X; rewrite X; discriminate).
  assert (L : is_space (List.last (list_ascii_of_string q) " "%char) = true).
  { rewrite E, (los_app s (String c "")). cbn [list_ascii_of_string]. now rewrite List.last_last. }
  clear E. repeat (destruct I as [<-|I]; [discriminate L|]). destruct I.
Qed.
Lemma site_new : nothing_at site "/w/t".
Proof.
  intros q A. destruct (nodes site !! q) eqn:X; [|reflexivity]. exfalso. assert (I : In q ["/w"; "/etc"]) by (apply (in_made [("/w", NDir, 0x1ED%N); ("/etc", NDir, 0x1ED%N)]); unfold site in X; rewrite X; discriminate).
  destruct A as [-> |[r ->]]; repeat (destruct I as [I|I]; [discriminate I|]); destruct I.
Qed.

Example C79_nontrivial :
  stands (nodes package) "/s" /\ real (nodes package) /\ any_listing as_listed /\ any_listing (fun _ l => rev l) /\ to_pack package "/s" ["metadata.xml"; "install"] /\
  (forall x, tidy package ("/s/" ++ x)) /\ ~ ends_blank "/w/t" /\ placed (nodes site) "/w/t" /\ nothing_at site "/w/t" /\
  Py.mapM (fun x => add_to_archive "/s" (fun _ l => rev l) 40 package x "") ["metadata.xml"; "install"] =
    Ok [[mkMember "metadata.xml" 0x81A40000 "<PISI/>"];
        [mkMember "install/" 0x1ED0000 ""; mkMember "install/usr/" 0x3FF0000 ""; mkMember "install/usr/a" 0x89ED0000 "A"; mkMember "install/usr/b" symmagic "a"]] /\
  nodes (final (unpack_dir_flat "/" 0x12 "install" [mkMember "install/" 0x1ED0000 ""; mkMember "install/usr/" 0x3FF0000 ""; mkMember "install/usr/b" symmagic "a"] "/w") site) !! "/w/usr/b" = Some (NLink "a").
Proof.
  split; [exact package_stands|]. split; [exact package_real|]. split; [intros q l; apply Permutation_refl|]. split; [intros q l; symmetry; apply Permutation_rev|]. split; [exact package_to_pack|]. split; [exact package_tidy|].
  split; [intros (s & c & E & W)|]. { destruct s as [|? [|? [|? [|? [|]]]]]; try discriminate E. injection E as <- <- <- <-. discriminate W. }
  split; [exact site_placed|]. split; [exact site_new|]. split; vm_compute; reflexivity.
Qed.

(** ** Archives that stay inside

    Members with proper names that are not reached through a link, one of the directory or one of
    the archive, change nothing outside the directory: not in the end, and not in between, if the
    unpacking fails or is interrupted. A file takes the place of a link in zip files; in tar files
    it is written through the link, so there must be none. *)
Theorem C79_zip_contained_partial cwd umask (sel : string -> bool) (ms : list member) (e : disk) (T : string) (pre : list string) :
  stands (nodes e) T -> (forall n, In n pre -> name n) ->
  (forall m, In m ms -> sel (m_name m) = true -> exists ns k, zip_at pre m ns k) ->
  way_free (zip_places pre (List.filter (fun m => sel (m_name m)) ms)) true (nodes e) T ->
  (forall a n k, zip_places pre (List.filter (fun m => sel (m_name m)) ms) (a ++ [n]) k -> k <> Directory -> ~ ends_blank (below T a)) ->
  forall e', In e' (states (unpack_file_cond cwd umask sel ms T (String.concat "/" pre)) e) -> unchanged_outside e e' T.
Proof. exact (zip_contained cwd umask sel ms e T pre). Qed.
Print Assumptions C79_zip_contained_partial.
Theorem C79_tar_contained_partial cwd umask inst (ms : list tmember) (e : disk) (T : string) :
  stands (nodes e) T -> (forall m, In m ms -> exists ns k, tar_at m ns k) -> way_free (tar_places ms) false (nodes e) T ->
  forall e', In e' (states (tar_unpack_dir cwd umask inst ms T) e) -> unchanged_outside e e' T.
Proof. exact (tar_contained cwd umask inst ms e T). Qed.
Print Assumptions C79_tar_contained_partial.

(** In the directory there is a link to a file outside where the package has a file. *)
Definition trap : disk := made [("/w", NDir, 0x1ED%N); ("/w/usr", NDir, 0x1ED%N); ("/w/usr/a", NLink "/passwd", 0x1FF%N); ("/passwd", NFile "root", 0x1A4%N)].
Definition payload : list member := [mkMember "metadata.xml" 0x81A40000 "<PISI/>"; mkMember "install/usr/" 0x1ED0000 ""; mkMember "install/usr/a" 0x81A40000 "A"; mkMember "install/usr/b" symmagic "a"].
Lemma zip_at_split pre m ns k : pre <> [] -> (forall n, In n pre -> name n) -> zip_at pre m ns k -> py_split "/" (py_rstrip "/" (m_name m)) = (pre ++ ns)%list.
Proof.
  intros N P [H K]. assert (N' : (pre ++ ns)%list <> []) by (destruct pre; [congruence|discriminate]). assert (H' : forall n, In n (pre ++ ns) -> name n) by (intros n I; apply in_app_iff in I as [I|I]; auto).
  assert (E : py_rstrip "/" (m_name m) = String.concat "/" (pre ++ ns)).
  { destruct k; [rewrite K|destruct K as (_ & -> & _); now apply rstrip_names|destruct K as (_ & -> & _); now apply rstrip_names].
    rewrite rstrip_app_in; [now apply rstrip_names|]. repeat constructor. }
  rewrite E. now apply split_names.
Qed.
Example C79_contained_nontrivial :
  let sel := subpath "install" in
  stands (nodes trap) "/w" /\ (forall n, In n ["install"] -> name n) /\
  (forall m, In m payload -> sel (m_name m) = true -> exists ns k, zip_at ["install"] m ns k) /\
  way_free (zip_places ["install"] (List.filter (fun m => sel (m_name m)) payload)) true (nodes trap) "/w" /\
  (forall a n k, zip_places ["install"] (List.filter (fun m => sel (m_name m)) payload) (a ++ [n]) k -> k <> Directory -> ~ ends_blank (below "/w" a)) /\
  let e' := final (unpack_dir_flat "/" 0x12 "install" payload "/w") trap in
  nodes e' !! "/w/usr/a" = Some (NFile "A") /\ nodes e' !! "/w/usr/b" = Some (NLink "a") /\ nodes e' !! "/passwd" = Some (NFile "root").
Proof.
  intros sel. assert (P : forall n, In n ["install"] -> name n) by (apply names_b; reflexivity).
  assert (L : List.filter (fun m => sel (m_name m)) payload = [mkMember "install/usr/" 0x1ED0000 ""; mkMember "install/usr/a" 0x81A40000 "A"; mkMember "install/usr/b" symmagic "a"]) by reflexivity. rewrite L. clear L.
  assert (Z : forall ns k, zip_places ["install"] [mkMember "install/usr/" 0x1ED0000 ""; mkMember "install/usr/a" 0x81A40000 "A"; mkMember "install/usr/b" symmagic "a"] ns k ->
    ns = ["usr"] /\ k = Directory \/ ns = ["usr"; "a"] \/ ns = ["usr"; "b"]).
  { intros ns k (m & I & A). assert (Nz : ["install"] <> []) by discriminate. pose proof (zip_at_split ["install"] m ns k Nz P A) as X. destruct I as [<-|[<-|[<-|[]]]].
    - left. vm_compute in X. injection X as <-. split; [reflexivity|]. destruct A as [_ A]. destruct k; [reflexivity|destruct A as (_ & A & _); discriminate A|destruct A as (_ & A & _); discriminate A].
    - right; left. vm_compute in X. now injection X as <-.
    - right; right. vm_compute in X. now injection X as <-. }
  split; [change "/w" with (below "/" ["w"]); apply stands_b_ok; vm_compute; reflexivity|]. split; [exact P|]. split; [|split; [|split; [|vm_compute; repeat split]]].
  - intros m [<-|[<-|[<-|[<-|[]]]]] E; [discriminate E|exists ["usr"], Directory|exists ["usr"; "a"], Regular|exists ["usr"; "b"], Symlink]; (split; [apply names_b; reflexivity|]); [reflexivity| |]; (split; [discriminate|]); (split; [reflexivity|]); [discriminate|reflexivity].
  - intros ns (N & b & k & A & B). assert (E : ns = ["usr"]).
    { assert (B' : b <> [] \/ k = Directory) by (destruct B as [B|[B|[_ B]]]; [now left|now right|discriminate B]). assert (NB : forall c, zip_places ["install"] [mkMember "install/usr/" 0x1ED0000 ""; mkMember "install/usr/a" 0x81A40000 "A"; mkMember "install/usr/b" symmagic "a"] ["usr"; c] Directory -> False).
      { intros c X. destruct (Z _ _ X) as [[Y _]|Y]; [discriminate Y|]. destruct X as (m & I & _ & X). cbn in X. destruct Y as [Y|Y]; injection Y as ->; destruct I as [<-|[<-|[<-|[]]]]; discriminate X. }
      destruct (Z _ _ A) as [[E ->]|[E|E]]; destruct ns as [|x [|y [|z r]]]; try congruence; cbn in E; try discriminate E.
      - now injection E as ->.
      - now injection E as ->.
      - exfalso. destruct b; [|discriminate E]. destruct B' as [B'|B']; [congruence|]. subst k. injection E as -> ->. exact (NB _ A).
      - now injection E as ->.
      - exfalso. destruct b; [|discriminate E]. destruct B' as [B'|B']; [congruence|]. subst k. injection E as -> ->. exact (NB _ A). }
    subst ns. split; [intros t X; vm_compute in X; discriminate X|]. intros X. destruct (Z _ _ X) as [[_ Y]|[Y|Y]]; discriminate Y.
  - intros a n k A K. destruct (Z _ _ A) as [[_ E]|[E|E]]; [congruence| |]; destruct a as [|x [|y [|z r]]]; cbn in E; try discriminate E; injection E as -> _; intros (s & c & E & W);
      (destruct s as [|? [|? [|? [|? [|? [|? [|? s]]]]]]]; cbn in E; try discriminate E; injection E; intros; subst; try discriminate W; destruct s; discriminate).
Qed.
