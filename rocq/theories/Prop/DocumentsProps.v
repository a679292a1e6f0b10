(** * C103: files and pages put in their place by action scripts *)
From Coq Require Import String Ascii ZArith List Bool.
From stdpp Require Import gmap strings.
From Verif Require Import Model.Py Model.InstallDB Model.Path Model.Fs Model.Trace Model.Actions Model.Strip Model.Documents
  Spec.PathSpec Spec.FsSpec Spec.ActionsSpec Spec.DocumentsSpec Proof.FsChecks Proof.ActionsTop Proof.ActionsExact Proof.ActionsMove Proof.DocumentsFacts.
Import ListNotations.
Open Scope string_scope.

(** ** Any number of patterns with any number of matches *)
Theorem C103_dobin (cwd root src : string) (expand : fs -> string -> list string) (runs : string -> fs -> bool) (f : fs) (s d : string) (ds : list string) (r : list file) :
  (forall p g, runs p g = true) -> tree f -> stands f root -> means d ds -> clear f root ds -> passable root ds f ->
  source cwd root f expand (as_file cwd root f) (join_path2 src s) r -> room root ds r f ->
  result (dobin cwd root src false expand runs s d) f = Ok tt /\
  exists g, with_dirs root ds f g /\ filled root ds r g (final (dobin cwd root src false expand runs s d) f).
Proof. intros Rn Tr S. exact (dobin_files cwd root src expand runs f Rn Tr S s d ds r). Qed.
Print Assumptions C103_dobin.

Theorem C103_dodoc (cwd root src tag : string) (expand : fs -> string -> list string) (runs : string -> fs -> bool) (f : fs) (l : list string) (r : list file) :
  (forall p g, runs p g = true) -> tree f -> stands f root -> name tag ->
  clear f root ["usr"; "share"; "doc"; tag] -> passable root ["usr"; "share"; "doc"; tag] f -> l <> [] ->
  collected (fun s => source cwd root f expand (as_file cwd root f) (join_path2 src s)) l r -> room root ["usr"; "share"; "doc"; tag] r f ->
  result (dodoc cwd root src tag false expand runs l) f = Ok tt /\
  exists g, with_dirs root ["usr"; "share"; "doc"; tag] f g /\ filled root ["usr"; "share"; "doc"; tag] r g (final (dodoc cwd root src tag false expand runs l) f).
Proof. intros Rn Tr S. exact (dodoc_files cwd root src tag expand runs f Rn Tr S l r). Qed.
Print Assumptions C103_dodoc.

Theorem C103_doinfo (cwd root src : string) (expand : fs -> string -> list string) (runs : string -> fs -> bool) (f : fs) (l : list string) (r : list file) :
  (forall p g, runs p g = true) -> tree f -> stands f root ->
  clear f root ["usr"; "share"; "info"] -> passable root ["usr"; "share"; "info"] f -> l <> [] ->
  collected (fun s => source cwd root f expand (as_file cwd root f) (join_path2 src s)) l r -> room root ["usr"; "share"; "info"] r f ->
  result (doinfo cwd root src false expand runs l) f = Ok tt /\
  exists g, with_dirs root ["usr"; "share"; "info"] f g /\ filled root ["usr"; "share"; "info"] r g (final (doinfo cwd root src false expand runs l) f).
Proof. intros Rn Tr S. exact (doinfo_files cwd root src expand runs f Rn Tr S l r). Qed.
Print Assumptions C103_doinfo.

(** insinto, without a new name *)
Theorem C103_insinto_partial (cwd root : string) (expand : fs -> string -> list string) (f : fs) (d s : string) (ds : list string) (r : list file) :
  tree f -> stands f root -> means d ds -> clear f root ds -> passable root ds f ->
  source cwd root f expand (as_copy cwd root f) s r -> space root ds r f ->
  result (insinto cwd root false expand d s "") f = Ok tt /\
  exists g, with_dirs root ds f g /\ filled root ds r g (final (insinto cwd root false expand d s "") f).
Proof. exact (insinto_files cwd root expand f d ds s r). Qed.
Print Assumptions C103_insinto_partial.
(** A file that matched is not copied if its own name is a pattern that does not match it. *)
Definition numbered : fs := {[ "/r" := NDir; "/w" := NDir; "/w/a[1].txt" := NFile "a" ]}.
Definition numbered_match : fs -> string -> list string := fun _ p => if String.eqb p "a*" then ["a[1].txt"] else [].
Theorem C103_insinto_refuted :
  result (insinto "/w" "/r" false numbered_match "/doc" "a*" "") numbered = Ok tt /\
  final (insinto "/w" "/r" false numbered_match "/doc" "a*" "") numbered !! "/r/doc" = Some NDir /\
  final (insinto "/w" "/r" false numbered_match "/doc" "a*" "") numbered !! "/r/doc/a[1].txt" = None.
Proof. vm_compute. repeat split. Qed.
Print Assumptions C103_insinto_refuted.

(** ** dohtml *)
Theorem C103_dohtml_partial (cwd root tag : string) (expand walked : fs -> string -> list string) (runs : string -> fs -> bool) (f : fs) (l : list string) (r : list file) :
  (forall p g, runs p g = true) -> tree f -> stands f root -> name tag ->
  clear f root ["usr"; "share"; "doc"; tag; "html"] -> passable root ["usr"; "share"; "doc"; tag; "html"] f ->
  collected (source cwd root f expand (as_html cwd root f walked)) l r -> room root ["usr"; "share"; "doc"; tag; "html"] r f ->
  result (dohtml cwd root tag false expand runs walked l) f = Ok tt /\
  exists g, with_dirs root ["usr"; "share"; "doc"; tag; "html"] f g /\ filled root ["usr"; "share"; "doc"; tag; "html"] r g (final (dohtml cwd root tag false expand runs walked l) f).
Proof. intros Rn. exact (dohtml_files cwd root tag expand runs walked Rn f l r). Qed.
Print Assumptions C103_dohtml_partial.

(** Whatever the patterns match, whatever os.walk gives and whether install works or not *)
Theorem C103_dohtml_contained (cwd root tag : string) (ignore : bool) (expand walked : fs -> string -> list string) (runs : string -> fs -> bool) (f : fs) (l : list string) :
  stands f root -> name tag -> clear f root ["usr"; "share"; "doc"; tag; "html"] ->
  forall g, In g (states (dohtml cwd root tag ignore expand runs walked l) f) -> same_but (beneath root) f g.
Proof. exact (dohtml_stays cwd root tag ignore expand runs walked f l). Qed.
Print Assumptions C103_dohtml_contained.

(** ** A small build *)
Definition manual_sources : fs :=
  {[ "/r" := NDir; "/w" := NDir; "/w/a.txt" := NFile "a"; "/w/b.txt" := NFile "b"; "/w/d" := NDir; "/w/d/index.html" := NFile "top"; "/w/d/notes" := NFile "n";
     "/w/d/api" := NDir; "/w/d/api/index.html" := NFile "api"; "/w/d/api/x.png" := NFile "x"; "/w/d/CVS" := NDir; "/w/d/CVS/old.html" := NFile "old" ]}.
Definition manual : fs := <["/r/usr" := NDir]> manual_sources.
Definition matched : fs -> string -> list string := fun _ p =>
  if String.eqb p "/w/*.txt" then ["/w/a.txt"; "/w/b.txt"] else if String.eqb p "d/*" then ["d/index.html"; "d/notes"; "d/api"; "d/CVS"] else [].
Definition entries : fs -> string -> list string := fun _ p =>
  if String.eqb p "d" then ["d/index.html"; "d/notes"; "d/api/index.html"; "d/api/x.png"; "d/CVS/old.html"]
  else if String.eqb p "d/api" then ["d/api/index.html"; "d/api/x.png"] else [].
Definition works : string -> fs -> bool := fun _ _ => true.

(** Not every page that was meant is there: of two with the same name in two directories, one is
    lost; and directories named CVS inside a directory are not left out. *)
Theorem C103_same_name_refuted :
  result (dohtml "/w" "/r" "t" false matched works entries ["d/*"]) manual = Ok tt /\
  let g := final (dohtml "/w" "/r" "t" false matched works entries ["d/*"]) manual in
  g !! "/r/usr/share/doc/t/html/index.html" = Some (NFile "api") /\ g !! "/r/usr/share/doc/t/html/api/index.html" = None /\ g !! "/r/usr/share/doc/t/html/x.png" = Some (NFile "x") /\
  g !! "/r/usr/share/doc/t/html/notes" = None /\ g !! "/r/usr/share/doc/t/html/old.html" = None.
Proof. vm_compute. repeat split. Qed.
Print Assumptions C103_same_name_refuted.
Theorem C103_cvs_refuted :
  final (dohtml "/w" "/r" "t" false matched works entries ["d"]) manual !! "/r/usr/share/doc/t/html/old.html" = Some (NFile "old").
Proof. vm_compute. reflexivity. Qed.
Print Assumptions C103_cvs_refuted.

(** doexes never works: the directory is made, and nothing is put in it. *)
Theorem C103_doexes_refuted (cwd root : string) (f : fs) (l : list string) (d : string) (ds : list string) :
  tree f -> stands f root -> means d ds -> clear f root ds -> passable root ds f ->
  result (doexes cwd root false l d) f = Err EAttribute /\ with_dirs root ds f (final (doexes cwd root false l d) f).
Proof. exact (doexes_fails cwd root f l d ds). Qed.
Print Assumptions C103_doexes_refuted.

(** The hypotheses are met. *)
Lemma manual_stands : stands manual "/r". Proof. apply (stands_b_ok manual ["r"]). vm_compute. reflexivity. Qed.
Lemma manual_tree : tree manual. Proof. apply tree_check_ok. vm_compute. reflexivity. Qed.
Lemma manual_there g : same_but (beneath "/r") manual g -> forall x m, manual_sources !! x = Some m -> g !! x = Some m.
Proof.
  intros Sg x m X.
  assert (B : forallb (fun kv : string * node => negb (py_startswith kv.1 "/r/")) (map_to_list manual_sources) = true) by (vm_compute; reflexivity).
  rewrite forallb_forall in B. specialize (B (x, m)). rewrite <- elem_of_list_In, elem_of_map_to_list in B. specialize (B X). cbn [fst] in B.
  assert (N : ~ beneath "/r" x). { intros [r ->]. destruct r; discriminate B. }
  rewrite (Sg x N). unfold manual. rewrite lookup_insert_ne; [exact X|]. intros <-. discriminate B.
Qed.
Lemma manual_still p n : os_stat "/w" manual_sources p = Some n -> always "/r" manual (fun g => os_stat "/w" g p = Some n).
Proof.
  intros E g Sg. apply (stat_mono "/w" manual_sources g p n); [|exact E]. exact (manual_there g Sg).
Qed.
Lemma manual_still_l p n : os_lstat "/w" manual_sources p = Some n -> always "/r" manual (fun g => os_lstat "/w" g p = Some n).
Proof. intros E g Sg. apply (lstat_mono "/w" manual_sources g p n); [|exact E]. exact (manual_there g Sg). Qed.
Example C103_nontrivial :
  tree manual /\ stands manual "/r" /\ name "t" /\
  clear manual "/r" ["usr"; "share"; "doc"; "t"; "html"] /\ passable "/r" ["usr"; "share"; "doc"; "t"; "html"] manual /\
  collected (fun s => source "/w" "/r" manual matched (as_file "/w" "/r" manual) (join_path2 "/w" s)) ["*.txt"; "d"] [("/w/a.txt", "a"); ("/w/b.txt", "b")] /\
  room "/r" ["usr"; "share"; "doc"; "t"] [("/w/a.txt", "a"); ("/w/b.txt", "b")] manual /\
  collected (source "/w" "/r" manual matched (as_html "/w" "/r" manual entries)) ["d/*"] [("d/index.html", "top"); ("d/api/index.html", "api"); ("d/api/x.png", "x")] /\
  room "/r" ["usr"; "share"; "doc"; "t"; "html"] [("d/index.html", "top"); ("d/api/index.html", "api"); ("d/api/x.png", "x")] manual /\
  final (dodoc "/w" "/r" "/w" "t" false matched works ["*.txt"; "d"]) manual !! "/r/usr/share/doc/t/b.txt" = Some (NFile "b") /\
  means "/usr/sbin" ["usr"; "sbin"] /\ clear manual "/r" ["usr"; "sbin"] /\ passable "/r" ["usr"; "sbin"] manual /\
  source "/w" "/r" manual matched (as_copy "/w" "/r" manual) "/w/*.txt" [("/w/a.txt", "a"); ("/w/b.txt", "b")] /\ space "/r" ["usr"; "sbin"] [("/w/a.txt", "a"); ("/w/b.txt", "b")] manual /\
  final (insinto "/w" "/r" false matched "/usr/sbin" "/w/*.txt" "") manual !! "/r/usr/sbin/b.txt" = Some (NFile "b").
Proof.
  assert (Nm : forall n, In n ["a.txt"; "b.txt"; "index.html"; "x.png"; "t"] -> name n) by now apply names_b.
  split; [exact manual_tree|]. split; [exact manual_stands|]. split; [apply Nm; cbn; tauto|]. split; [apply clear_b_ok; vm_compute; reflexivity|]. split; [apply passable_b_ok; vm_compute; reflexivity|].
  split.
  { apply (col_cons _ "*.txt" ["d"] [("/w/a.txt", "a"); ("/w/b.txt", "b")] []).
    - exists ["/w/a.txt"; "/w/b.txt"]. split; [intros g _; reflexivity|]. apply (col_cons _ "/w/a.txt" _ [_] [_]); [apply is_file, manual_still; vm_compute; reflexivity|].
      apply (col_cons _ "/w/b.txt" _ [_] []); [apply is_file, manual_still; vm_compute; reflexivity|constructor].
    - apply (col_cons _ "d" [] [] []); [|constructor]. exists ["/w/d"]. assert (D : always "/r" manual (fun g => os_stat "/w" g "/w/d" = Some NDir)) by (apply manual_still; vm_compute; reflexivity).
      assert (L : forall g, same_but (beneath "/r") manual g -> os_lstat "/w" g "/w/d" = Some NDir).
      { intros g Sg. apply (lstat_mono "/w" manual_sources g "/w/d" NDir); [|vm_compute; reflexivity]. intros x m X. exact (manual_there g Sg x m X). }
      split; [intros g Sg; change (glob "/w" matched g "/w/d" = ["/w/d"]); unfold glob, e_lexists; change (has_magic "/w/d") with false; now rewrite (L g Sg)|]. apply (col_cons _ "/w/d" [] [] []); [|constructor]. apply no_file. intros g Sg c. rewrite (D g Sg). discriminate. }
  split; [intros p c [[= <- <-]|[[= <- <-]|[]]]; (split; [apply Nm; cbn; tauto|vm_compute; discriminate])|].
  assert (Pg : forall p, In p ["d/index.html"; "d/api/index.html"; "d/api/x.png"] -> page p) by (intros p I; apply allowed_iff; cbn in I; destruct I as [<-|[<-|[<-|[]]]]; reflexivity).
  split.
  { apply (col_cons _ "d/*" [] [_; _; _] []); [|constructor]. exists ["d/index.html"; "d/notes"; "d/api"; "d/CVS"]. split; [intros g _; reflexivity|].
    apply (col_cons _ "d/index.html" _ [_] [_; _]); [apply html_page; [apply manual_still; vm_compute; reflexivity|apply Pg; cbn; tauto]|].
    apply (col_cons _ "d/notes" _ [] [_; _]); [apply (html_other _ _ _ _ _ "n"); [apply manual_still; vm_compute; reflexivity|apply allowed_not; reflexivity]|].
    apply (col_cons _ "d/api" _ [_; _] []).
    - apply (html_tree _ _ _ _ _ [("d/api/index.html", "api"); ("d/api/x.png", "x")]); [apply manual_still; vm_compute; reflexivity|discriminate|intros g _; reflexivity| |].
      + intros q c [[= <- <-]|[[= <- <-]|[]]]; apply manual_still; vm_compute; reflexivity.
      + repeat (constructor; [apply Pg; cbn; tauto|]). constructor.
    - apply (col_cons _ "d/CVS" [] [] []); [|constructor]. apply html_cvs; [apply manual_still; vm_compute; reflexivity|reflexivity]. }
  split; [intros p c [[= <- <-]|[[= <- <-]|[[= <- <-]|[]]]]; (split; [apply Nm; cbn; tauto|vm_compute; discriminate])|].
  split; [vm_compute; reflexivity|]. split; [apply (means_b "/" ["usr"; "sbin"]); [reflexivity|now right]|]. split; [apply clear_b_ok; vm_compute; reflexivity|]. split; [apply passable_b_ok; vm_compute; reflexivity|].
  split.
  { exists ["/w/a.txt"; "/w/b.txt"]. split; [intros g _; reflexivity|]. apply (col_cons _ "/w/a.txt" _ [_] [_]); [apply is_copy; [reflexivity|apply manual_still_l; vm_compute; reflexivity]|].
    apply (col_cons _ "/w/b.txt" _ [_] []); [apply is_copy; [reflexivity|apply manual_still_l; vm_compute; reflexivity]|constructor]. }
  split; [intros p c [[= <- <-]|[[= <- <-]|[]]]; (split; [apply Nm; cbn; tauto|left; vm_compute; reflexivity])|]. vm_compute. reflexivity.
Qed.
