(** * C80: what was built is what is put on the system *)
From Coq Require Import String Ascii ZArith NArith List Bool Lia.
From stdpp Require Import gmap strings.
From Verif Require Import Model.Py Model.Path Model.InstallDB Model.Fs Model.Trace Model.Actions Model.Index Model.Archive Model.Deliver Spec.PathSpec Spec.FsSpec Spec.ActionsSpec Spec.ArchiveSpec Spec.DeliverSpec.
From Verif Require Import Proof.PyFacts Proof.PathFacts Proof.ActionsTop Proof.ActionsExact Proof.ArchiveFacts Proof.ArchiveZip Proof.ArchiveZipTop Proof.ArchiveTop Proof.ArchiveTar Proof.DeliverTop Proof.DeliverZip.
Require Import Verif.Prop.ArchiveProps.
Import ListNotations.
Open Scope string_scope.

(** ** Format 1.1

    [pkg] is the directory a package is built in, [ls] are the paths in its files.xml: files,
    links and empty directories.  They are packed, whatever the order directories are listed in,
    and unpacked to any destination, "/" too, where other files may be in the way.  Then each is
    at its place with its content or target and its twelve permission bits.  Nothing else has
    changed, except for new directories, which have the permissions the umask leaves. *)
Theorem C80_new_format (d e : disk) (pkg : string) (rs : list string) (umask : N) (cwd : string) (order : string -> list string -> list string) (ls : list (list string)) :
  stands (nodes d) pkg -> real (nodes d) -> any_listing order -> things d (below pkg ["install"]) ls ->
  real (nodes e) -> destined (nodes e) rs -> (forall ns, In ns ls -> welcome (nodes e) (below "/" rs) ns (nodes d !! below (below pkg ["install"]) ns)) ->
  exists ms e', (forall n, pack_tar order pkg (S n) d (map (String.concat "/") ls) = Ok ms) /\
    final (deliver_tar cwd umask ms (below "/" rs)) e = e' /\ result (deliver_tar cwd umask ms (below "/" rs)) e = Ok tt /\
    in_place all_bits all_bits d e' (below pkg ["install"]) (below "/" rs) ls /\ nothing_else umask e e' (below "/" rs) ls.
Proof.
  intros SP Rd Or Th Re De Wl. destruct (tar_delivered d e pkg rs umask cwd SP Rd order Or ls Th Re De Wl) as (ms & P & R & Q1 & Q2 & _). exists ms. eexists. split; [exact P|]. split; [reflexivity|]. now split.
Qed.
Print Assumptions C80_new_format.

(** ** Format 1.0

    The same for the old format, where [control] are metadata.xml, files.xml and scripts, which are not
    under install.  Of a file the bits setgid and sticky and the read bit of the owner are not kept
    (Spec/ArchiveSpec.v says which are), and directories that are there keep their permissions. *)
Theorem C80_old_format_partial (d e : disk) (pkg : string) (rs : list string) (umask : N) (cwd : string) (order : string -> list string -> list string) (ls : list (list string)) (control : list member) :
  stands (nodes d) pkg -> real (nodes d) -> any_listing order -> things d (below pkg ["install"]) ls ->
  (forall m, In m control -> subpath "install" (m_name m) = false) -> old_fits d (below pkg ["install"]) (below "/" rs) ls ->
  real (nodes e) -> destined (nodes e) rs -> (forall ns, In ns ls -> welcome (nodes e) (below "/" rs) ns (nodes d !! below (below pkg ["install"]) ns)) ->
  exists ms e', (forall n, pack_zip order pkg (S n) d control (map (String.concat "/") ls) = Ok ms) /\
    final (deliver_zip cwd umask ms (below "/" rs)) e = e' /\ result (deliver_zip cwd umask ms (below "/" rs)) e = Ok tt /\
    in_place zip_file_keeps (fun _ _ => True) d e' (below pkg ["install"]) (below "/" rs) ls /\ old_dirs d e e' (below pkg ["install"]) (below "/" rs) ls /\
    nothing_else umask e e' (below "/" rs) ls.
Proof.
  intros SP Rd Or Th Ctl Fit Re De Wl. destruct (zip_delivered d e pkg rs umask cwd SP Rd order Or ls Th control Ctl Fit Re De Wl) as (ms & P & R & Q1 & Q2 & Q3 & _). exists ms. eexists. split; [exact P|]. split; [reflexivity|]. split; [exact R|]. split; [exact Q1|]. now split.
Qed.
Print Assumptions C80_old_format_partial.

(** ** A build and a system *)
Definition built_list : list (string * node * N) :=
  [("/b", NDir, 0x1ED%N); ("/b/install", NDir, 0x1ED%N); ("/b/install/etc", NDir, 0x1ED%N); ("/b/install/etc/conf", NFile "new", 0x1A0%N);
   ("/b/install/usr", NDir, 0x1ED%N); ("/b/install/usr/bin", NDir, 0x1ED%N); ("/b/install/usr/bin/su", NFile "code", 0xDED%N); ("/b/install/usr/sh", NLink "bin/su", 0x1FF%N);
   ("/b/install/var", NDir, 0x1ED%N); ("/b/install/var/tmp", NDir, 0x3FF%N)].
Definition built : disk := made built_list.
Definition built_paths : list (list string) := [["etc"; "conf"]; ["usr"; "bin"; "su"]; ["usr"; "sh"]; ["var"; "tmp"]].
Definition running : disk := made [("/etc", NDir, 0x1C0%N); ("/etc/conf", NLink "/old", 0x1FF%N); ("/old", NFile "old", 0x1A4%N); ("/var", NDir, 0x1ED%N); ("/var/tmp", NDir, 0x1ED%N)].

(** In the new format all is as built; the old one leaves the directory that was there as it
    was and drops the setgid bit of the program. *)
Theorem C80_bits_refuted :
  exists ms zs, pack_tar as_listed "/b" 3 built (map (String.concat "/") built_paths) = Ok ms /\ pack_zip as_listed "/b" 3 built [mkMember "metadata.xml" 0x81A40000 ""] (map (String.concat "/") built_paths) = Ok zs /\
    (let e := final (deliver_tar "/" 0x12 ms "/") running in nodes e !! "/usr/bin/su" = Some (NFile "code") /\ mode_of e "/usr/bin/su" = 0xDED%N /\ mode_of e "/var/tmp" = 0x3FF%N) /\
    (let e := final (deliver_zip "/" 0x12 zs "/") running in nodes e !! "/usr/bin/su" = Some (NFile "code") /\ mode_of e "/usr/bin/su" = 0x9ED%N /\ mode_of e "/var/tmp" = 0x1ED%N).
Proof. do 2 eexists. split; [vm_compute; reflexivity|]. split; [vm_compute; reflexivity|]. vm_compute. repeat split; reflexivity. Qed.
Print Assumptions C80_bits_refuted.

(** A package of the old format with a file that belongs directly in "/" cannot be put there. *)
Theorem C80_old_format_top_refuted (cwd : string) (umask : N) (n c : string) (a : N) (zs : list member) (e : disk) :
  name n -> deliver_zip cwd umask (mkMember ("install/" ++ n) a c :: zs) "/" e = ([], Err EOS).
Proof.
  intros Nn. assert (H1 : forall x, In x [n] -> name x) by (intros x [<-|[]]; exact Nn). assert (Hi : forall x, In x ["install"] -> name x) by (intros x [<-|[]]; exact install_name).
  assert (M : "install/" ++ n = String.concat "/" (["install"] ++ [n]) \/ "install/" ++ n = String.concat "/" (["install"] ++ [n]) ++ "/") by now left.
  assert (H2 : forall x, In x (["install"] ++ [n]) -> name x) by (intros x [<-|J]; [exact install_name|now apply H1]).
  assert (S1 : subpath "install" ("install/" ++ n) = true) by (apply (subpath_concat ["install"] (["install"] ++ [n])); [discriminate|discriminate|exact Hi|exact H2|exact M|now exists [n]]).
  assert (O : out_path "install" ("install/" ++ n) = Some n).
  { unfold out_path. change (String.eqb "install" "") with false. cbv iota. rewrite S1. change "install" with (String.concat "/" ["install"]) at 1. now rewrite (removepathprefix_concat ["install"] [n] _ (fun X => nil_cons (eq_sym X)) Hi H1 M). }
  assert (E : py_endswith ("install/" ++ n) "/" = false) by exact (concat_endswith (["install"] ++ [n]) (fun X => nil_cons (eq_sym X)) H2).
  assert (J : os_join "/" n = "/" ++ n) by (unfold os_join; pose proof (concat_relative [n] H1) as R0; cbn [String.concat] in R0; rewrite R0; reflexivity).
  assert (D : dirname ("/" ++ n) = "/") by (destruct Nn as (N1 & _ & _ & F); now apply (dirname_top n)).
  unfold deliver_zip, unpack_dir_flat, unpack_file_cond. cbn [each m_name]. rewrite S1. unfold unpack_member. cbn [m_name]. rewrite O, E, J, D. reflexivity.
Qed.
Print Assumptions C80_old_format_top_refuted.
(** Where a directory is, a link of the package is not put in the new format, and what was unpacked
    before stays.  In the old format the directory is removed with all that is in it. *)
Definition furnished : disk := made [("/lib", NDir, 0x1ED%N); ("/lib/mine", NFile "data", 0x1A4%N)].
Theorem C80_directory_in_the_way_refuted :
  (let run := deliver_tar "/" 0x12 [mkTar "a" 0x1A4 (AFile "A"); mkTar "lib" 0x1FF (ALink "usr/lib")] "/" in
   result run furnished = Err EOS /\ nodes (final run furnished) !! "/a" = Some (NFile "A") /\ nodes (final run furnished) !! "/lib" = Some NDir) /\
  (let run := deliver_zip "/" 0x12 [mkMember "install/w/lib" symmagic "usr/lib"] "/" in
   let e := made [("/w", NDir, 0x1ED%N); ("/w/lib", NDir, 0x1ED%N); ("/w/lib/mine", NFile "data", 0x1A4%N)] in
   result run e = Ok tt /\ nodes (final run e) !! "/w/lib" = Some (NLink "usr/lib") /\ nodes (final run e) !! "/w/lib/mine" = None).
Proof. vm_compute. repeat split; reflexivity. Qed.
Print Assumptions C80_directory_in_the_way_refuted.

Definition welcome_b (f : fs) (T : string) (ns : list string) (x : option node) : bool :=
  forallb (fun k => match f !! below T (List.firstn k ns) with None | Some NDir => true | _ => false end) (seq 1 (List.length ns - 1)) &&
  match f !! below T ns, x with
  | None, _ | Some NDir, Some NDir => true
  | Some (NFile _), x | Some (NLink _), x => match x with Some NDir => false | _ => true end
  | _, _ => false
  end.
Lemma welcome_b_ok f T ns x : welcome_b f T ns x = true -> welcome f T ns x.
Proof.
  intros B. apply andb_true_iff in B as [B1 B2]. split.
  - intros a b Ea Na Nb. rewrite forallb_forall in B1. assert (Le : List.length a < List.length ns) by (rewrite Ea, app_length; destruct b; [congruence|cbn; lia]). specialize (B1 (List.length a)).
    assert (F : List.firstn (List.length a) ns = a) by (rewrite Ea, List.firstn_app, Nat.sub_diag, List.firstn_all, List.firstn_O; apply app_nil_r). rewrite F in B1.
    assert (Q : In (List.length a) (seq 1 (List.length ns - 1))) by (apply in_seq; destruct a; [congruence|cbn in *; lia]). specialize (B1 Q). destruct (f !! below T a) as [[]|]; auto; discriminate B1.
  - destruct (f !! below T ns) as [[]|]; [|destruct x as [[]|]; try discriminate B2; reflexivity| |discriminate B2|exact Logic.I]; intros ->; discriminate B2.
Qed.
Example C80_nontrivial :
  stands (nodes built) "/b" /\ real (nodes built) /\ any_listing as_listed /\ things built (below "/b" ["install"]) built_paths /\ real (nodes running) /\ destined (nodes running) [] /\
  (forall ns, In ns built_paths -> welcome (nodes running) (below "/" []) ns (nodes built !! below (below "/b" ["install"]) ns)) /\ old_fits built (below "/b" ["install"]) (below "/" []) built_paths.
Proof.
  split; [change "/b" with (below "/" ["b"]); apply stands_b_ok; vm_compute; reflexivity|].
  split; [apply (real_b_ok _ [["b"]; ["b"; "install"]; ["b"; "install"; "etc"]; ["b"; "install"; "etc"; "conf"]; ["b"; "install"; "usr"]; ["b"; "install"; "usr"; "bin"]; ["b"; "install"; "usr"; "bin"; "su"]; ["b"; "install"; "usr"; "sh"]; ["b"; "install"; "var"]; ["b"; "install"; "var"; "tmp"]]); vm_compute; reflexivity|].
  split; [intros q l; apply Permutation_refl|]. split.
  { split; [repeat constructor; cbn; intuition discriminate|]. intros ns J. unfold built_paths in J. repeat (destruct J as [<-|J]; [split; [discriminate|]; split; [apply names_b; vm_compute; reflexivity|]|]); [exact Logic.I|exact Logic.I|exact Logic.I| |destruct J].
    change (nodes built !! below (below "/b" ["install"]) ["var"; "tmp"]) with (Some NDir). cbv iota. intros n _. destruct (nodes built !! below (below "/b" ["install"]) (["var"; "tmp"] ++ [n])) eqn:X; [|reflexivity]. exfalso.
    assert (K : In (below (below "/b" ["install"]) (["var"; "tmp"] ++ [n])) (map (fun x => fst (fst x)) built_list)) by (apply in_made; unfold built in X; rewrite X; discriminate). cbn in K. repeat (destruct K as [K|K]; [discriminate K|]). destruct K. }
  split; [apply (real_b_ok _ [["etc"]; ["etc"; "conf"]; ["old"]; ["var"]; ["var"; "tmp"]]); vm_compute; reflexivity|].
  split; [split; [intros n []|]; intros a b E N; destruct a; [congruence|discriminate E]|]. split.
  { intros ns J. apply welcome_b_ok. unfold built_paths in J. repeat (destruct J as [<-|J]; [vm_compute; reflexivity|]). destruct J. }
  intros a n J _. assert (K : a = ["etc"] \/ a = ["usr"; "bin"] \/ a = ["usr"] \/ a = ["var"]).
  { unfold built_paths in J. repeat (destruct J as [E|J]; [assert (X := f_equal (@removelast string) E); rewrite removelast_last in X; cbn in X; subst a; tauto|]). destruct J. }
  assert (Z : below (below "/" []) a = "/etc" \/ below (below "/" []) a = "/usr/bin" \/ below (below "/" []) a = "/usr" \/ below (below "/" []) a = "/var") by (destruct K as [->|[->|[->| ->]]]; auto).
  assert (Bl : forall p, is_space (List.last (list_ascii_of_string p) "x"%char) = false -> ~ ends_blank p).
  { intros p L (s & c & E & W). rewrite E, (los_app s (String c "")) in L. cbn [list_ascii_of_string] in L. rewrite List.last_last in L. congruence. }
  destruct Z as [->|[->|[->| ->]]]; (split; [discriminate|apply Bl; vm_compute; reflexivity]).
Qed.
