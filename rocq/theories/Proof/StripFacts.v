(** * Stripping: lemmas *)
From Coq Require Import String Ascii ZArith List Lia Bool.
From stdpp Require Import gmap strings.
From Verif Require Import Model.Py Model.Path Model.ArTimes Spec.PathSpec Proof.PyFacts Proof.PathFacts Model.Strip Spec.StripSpec.
Import ListNotations.
Open Scope string_scope.

(** ** [contains] *)
Lemma contains_iff p s : contains p s = true <-> mentions p s.
Proof.
  induction s as [|a s IH]; cbn [contains]; rewrite orb_true_iff, startswith_iff.
  - split.
    + intros [[r H]|H]; [|discriminate]. now exists "", r.
    + intros (u & v & H). left. destruct u; [now exists v|discriminate].
  - rewrite IH. split.
    + intros [[r H]|(u & v & H)]; [now exists "", r|]. exists (String a u), v. change (String a u ++ p ++ v) with (String a (u ++ p ++ v)). now rewrite H.
    + intros (u & v & H). destruct u as [|b u]; [left; now exists v|]. right. exists u, v. change (String b u ++ p ++ v) with (String b (u ++ p ++ v)) in H. now injection H.
Qed.
Lemma contains_not p s : contains p s = false <-> ~ mentions p s.
Proof. rewrite <- contains_iff. destruct (contains p s); split; congruence. Qed.

(** A phrase with a blank in it and without a colon is in what file says, not in the name *)
Lemma mentions_los p s : mentions p s <-> exists u v, los s = (u ++ los p ++ v)%list.
Proof.
  split.
  - intros (u & v & ->). exists (los u), (los v). now rewrite !los_app.
  - intros (u & v & H). exists (sol u), (sol v). apply los_inj. now rewrite H, !los_app, !list_ascii_of_string_of_list_ascii.
Qed.
Lemma mentions_after phrase f d : In " "%char (los phrase) -> ~ In ":"%char (los phrase) -> (forall r, phrase <> String " " r) ->
  unbroken f -> mentions phrase (f ++ ": " ++ d) <-> mentions phrase d.
Proof.
  intros B C N [F _]. split.
  - intros H. apply mentions_los in H as (u & v & H). apply mentions_los. rewrite !los_app in H. cbn [los list_ascii_of_string app] in H.
    apply app_eq_app in H as (l & [[H1 H2]|[H1 H2]]).
    + (* starts in the name *)
      apply app_eq_app in H2 as (k & [[H3 H4]|[H3 H4]]).
      * destruct k as [|x k].
        { exfalso. apply F. rewrite H1, app_nil_r in *. apply in_or_app. right. now rewrite <- H3. }
        injection H4 as <- H4. exfalso. apply C. rewrite H3. apply in_or_app. right. now left.
      * exfalso. apply F. rewrite H1, H3. rewrite !in_app_iff. tauto.
    + destruct l as [|x l]; [cbn in H2|].
      * destruct (los phrase) as [|y p] eqn:E; [destruct B|]. injection H2 as <- H2. exfalso. apply C. now left.
      * injection H2 as <- H2. destruct l as [|x l]; [cbn in H2|].
        { destruct (los phrase) as [|y p] eqn:E; [destruct B|]. injection H2 as <- H2. exfalso. apply (N (sol p)). apply los_inj. rewrite E. cbn. now rewrite list_ascii_of_string_of_list_ascii. }
        injection H2 as <- H2. now exists l, v.
  - intros (u & v & ->). exists (f ++ ": " ++ u), v. now rewrite !str_app_assoc.
Qed.
Ltac three := first [intros ?; discriminate | cbn; tauto | cbn; intuition discriminate].

(** ** Words *)
Lemma not_blank f : unbroken f -> List.Forall (fun c => is_blank c = false) (los f).
Proof.
  intros [A B]. apply List.Forall_forall. intros c I. unfold is_blank. apply orb_false_iff. split; apply Ascii.eqb_neq; intros ->; [now apply A|now apply B].
Qed.
Lemma words_skip a : forall cur s, List.Forall (fun c => is_blank c = false) (los a) -> words_after cur (a ++ s) = words_after (cur ++ a) s.
Proof.
  induction a as [|c a IH]; intros cur s F.
  - now rewrite str_app_nil_r.
  - change (String c a ++ s) with (String c (a ++ s)). cbn [words_after]. apply List.Forall_cons_iff in F as [B F]. rewrite B, IH by assumption.
    now rewrite str_app_assoc.
Qed.
Lemma word_one f : f <> "" -> word f = [f].
Proof. now destruct f. Qed.
Lemma words_one f : unbroken f -> f <> "" -> words f = [f].
Proof.
  intros U N. unfold words. rewrite <- (str_app_nil_r f) at 1. rewrite words_skip by now apply not_blank. cbn [words_after String.append].
  now apply word_one.
Qed.
Lemma words_two a b : unbroken a -> unbroken b -> a <> "" -> b <> "" -> words (a ++ " " ++ b) = [a; b].
Proof.
  intros U V N M. unfold words. rewrite words_skip by now apply not_blank. change ("" ++ a) with a.
  change (" " ++ b) with (String " " b). cbn [words_after]. change (is_blank " ") with true. cbn match. rewrite (word_one a N). cbn [app]. f_equal.
  exact (words_one b V M).
Qed.
Lemma unbroken_app a b : unbroken (a ++ b) <-> unbroken a /\ unbroken b.
Proof. unfold unbroken, free_of. rewrite !los_app, !in_app_iff. tauto. Qed.

(** ** The extension *)
Lemma all_dots_iff s : all_dots s = true <-> forall c, In c (los s) -> c = "."%char.
Proof.
  induction s as [|a s IH]; cbn [all_dots list_ascii_of_string]; [split; [intros _ c []|reflexivity]|].
  rewrite andb_true_iff, IH, Ascii.eqb_eq. split.
  - intros [-> H] c [<-|I]; auto.
  - intros H. split; [apply H; now left|intros c I; apply H; now right].
Qed.
Lemma basename_split f : exists d, f = d ++ basename f /\ (d = "" \/ ends_in_slash d) /\ free_of "/" (basename f).
Proof.
  unfold basename. destruct (py_rfind slash f) as [n|] eqn:R.
  - assert (exists a b, f = a ++ String slash b /\ ~ In slash (los b) /\ n = String.length a) as (a & b & -> & F & ->).
    { clear -R. revert n R. induction f as [|x f IH]; intros n R; cbn [py_rfind] in R; [discriminate|].
      destruct (py_rfind slash f) as [m|] eqn:E.
      - injection R as <-. destruct (IH m eq_refl) as (a & b & -> & F & ->). exists (String x a), b. auto.
      - destruct (Ascii.eqb_spec x slash) as [->|]; [|discriminate]. injection R as <-. exists "", f. split; [reflexivity|]. split; [now apply rfind_none|reflexivity]. }
    exists (a ++ "/"). change (a ++ String slash b) with (a ++ (String slash "" ++ b)). rewrite <- str_app_assoc.
    replace (S (String.length a)) with (String.length (a ++ String slash "")) by (rewrite str_app_length; cbn; lia). rewrite drop_app.
    split; [reflexivity|]. split; [right; now exists a|exact F].
  - exists "". split; [reflexivity|]. split; [now left|]. now apply rfind_none.
Qed.
Lemma basename_after d n : d = "" \/ ends_in_slash d -> free_of "/" n -> basename (d ++ n) = n.
Proof.
  intros [->|[e ->]] F.
  - change ("" ++ n) with n. unfold basename. now rewrite (proj2 (rfind_none slash n) F).
  - rewrite str_app_assoc. now apply basename_under.
Qed.
Lemma extension_la f : extension f = ".la" <-> libtool f.
Proof.
  unfold extension. split.
  - intros E. destruct (basename_split f) as (d & Hf & D & F). revert E Hf F. generalize (basename f) as b. intros b E Hf F.
    destruct (py_rfind "." b) as [n|] eqn:R; [|discriminate]. destruct (all_dots (py_take n b)) eqn:A; [discriminate|].
    assert (b = py_take n b ++ py_drop n b) as T.
    { clear. revert n. induction b as [|x b IH]; intros [|n]; try reflexivity. cbn [py_take py_drop]. change (String x (py_take n b) ++ py_drop n b) with (String x (py_take n b ++ py_drop n b)). now rewrite <- IH. }
    rewrite E in T. assert (exists c, In c (los (py_take n b)) /\ c <> "."%char) as (c & I & Nc).
    { clear -A. revert A. generalize (py_take n b) as t. induction t as [|x t IH]; [discriminate|]. cbn [all_dots list_ascii_of_string]. intros A.
      destruct (Ascii.eqb_spec x ".") as [->|Nx]; [|exists x; split; [now left|assumption]].
      destruct (IH A) as (c & I & Nc). exists c. split; [now right|assumption]. }
    exists d, (py_take n b), c. split; [now rewrite <- T|]. split; [assumption|]. split; [|auto].
    intros K. apply F. rewrite T, los_app. apply in_or_app. now left.
  - intros (d & n & c & -> & D & F & I & Nc). rewrite basename_after; [|assumption|].
    2:{ unfold free_of. rewrite los_app, in_app_iff. intros [K|K]; [now apply F|]. cbn in K. intuition discriminate. }
    change (n ++ ".la") with (n ++ String "." "la"). rewrite rfind_app by (cbn; intuition discriminate). rewrite take_app, drop_app.
    destruct (all_dots n) eqn:A; [|reflexivity]. exfalso. apply Nc. now apply (proj1 (all_dots_iff n) A).
Qed.

(** ** One file *)
Section one.
  Context (cwd : string) (file_says : string -> string) (strip_tool : string -> string -> option string)
          (keep_debug : string -> option string) (add_link : string -> string -> string -> option string)
          (sed_libs sed_dirs : string -> string) (generatedebug : bool).
  Local Notation strip_one := (strip_one cwd file_says strip_tool keep_debug add_link sed_libs sed_dirs generatedebug).
  Local Notation on_operands := (on_operands cwd).
  Local Notation is_a := (is_a file_says).
  Local Notation ran := (ran strip_tool).
  Local Notation debug_info := (debug_info keep_debug).
  Local Notation linked := (linked keep_debug add_link generatedebug).
  Local Notation stripped := (stripped file_says strip_tool keep_debug add_link generatedebug).
  Local Notation debugged := (debugged file_says keep_debug generatedebug).
  Local Notation repaired := (repaired sed_libs sed_dirs).

  Definition absolute (f : string) : Prop := exists r, f = "/" ++ r.
  Lemma resolve_abs f : absolute f -> resolve cwd f = f.
  Proof. intros [r ->]. unfold resolve. now rewrite (proj2 (startswith_iff _ _) (ex_intro _ r eq_refl)). Qed.
  Lemma abs_some f : absolute f -> f <> "".
  Proof. now intros [r ->]. Qed.

  Lemma on_one g f (fs : files) c : absolute f -> unbroken f -> fs !! f = Some c ->
    on_operands g f fs = <[f := match g c with Some c' => c' | None => c end]> fs.
  Proof.
    intros A U L. unfold Strip.on_operands. rewrite (words_one f U (abs_some f A)). cbn [fold_left]. rewrite (resolve_abs f A), L.
    destruct (g c); [reflexivity|]. now rewrite insert_id.
  Qed.

  Lemma save_one f o (fs : files) c : absolute f -> absolute o -> unbroken f -> unbroken o -> fs !! f = Some c -> f <> o ++ ".debug" ->
    exists fs', save_elf_debug cwd keep_debug add_link f o fs = fs' /\
      fs' !! f = Some (match debug_info (fs !! (o ++ ".debug")) c with
                       | Some d => match add_link (o ++ ".debug") d c with Some c' => c' | None => c end | None => c end) /\
      fs' !! (o ++ ".debug") = debug_info (fs !! (o ++ ".debug")) c /\
      forall g, g <> f -> g <> o ++ ".debug" -> fs' !! g = fs !! g.
  Proof.
    intros A [r R] U V L N. eexists. split; [reflexivity|]. unfold save_elf_debug. unfold debug_suffix in *.
    assert (absolute (o ++ ".debug")) as A' by (exists (r ++ ".debug"); rewrite R; now rewrite str_app_assoc).
    assert (unbroken (o ++ ".debug")) as V'. { apply unbroken_app. split; [assumption|]. split; unfold free_of; cbn; intuition discriminate. }
    replace (o ++ ".debug" ++ " " ++ f) with ((o ++ ".debug") ++ " " ++ f) by now rewrite str_app_assoc.
    revert N A' V'. generalize (o ++ ".debug") as b. intros b N A' V'.
    rewrite (words_two f b U V' (abs_some f A) (abs_some b A')), (words_two b f V' U (abs_some b A') (abs_some f A)).
    rewrite !(resolve_abs f A), !(resolve_abs b A'), L. unfold StripSpec.debug_info. destruct (keep_debug c) as [d|] eqn:K.
    - rewrite lookup_insert, lookup_insert_ne, L by congruence. destruct (add_link b d c) as [c'|] eqn:Al.
      + split; [now rewrite lookup_insert|]. split; [rewrite lookup_insert_ne by congruence; now rewrite lookup_insert|].
        intros g N1 N2. now rewrite !lookup_insert_ne by congruence.
      + split; [rewrite lookup_insert_ne by congruence; assumption|]. split; [now rewrite lookup_insert|].
        intros g N1 N2. now rewrite !lookup_insert_ne by congruence.
    - destruct (fs !! b) as [d|] eqn:B; rewrite ?L.
      + destruct (add_link b d c) as [c'|] eqn:Al.
        * split; [now rewrite lookup_insert|]. split; [rewrite lookup_insert_ne by congruence; assumption|]. intros g N1 N2. now rewrite !lookup_insert_ne by congruence.
        * auto.
      + auto.
  Qed.

  Lemma kinds f c : unbroken f ->
    exists k, is_a c k /\
      (if contains "current ar archive" (f ++ ": " ++ file_says c) then Ar
       else if contains "SB executable" (f ++ ": " ++ file_says c) then Program
       else if contains "SB shared object" (f ++ ": " ++ file_says c) then Library else Other) = k.
  Proof.
    intros U. pose proof (mentions_after "current ar archive" f (file_says c) ltac:(three) ltac:(three) ltac:(three) U) as M1.
    pose proof (mentions_after "SB executable" f (file_says c) ltac:(three) ltac:(three) ltac:(three) U) as M2.
    pose proof (mentions_after "SB shared object" f (file_says c) ltac:(three) ltac:(three) ltac:(three) U) as M3.
    eexists. split; [|reflexivity].
    destruct (contains "current ar archive" _) eqn:C1; [apply contains_iff in C1; apply is_ar; tauto|apply contains_not in C1].
    destruct (contains "SB executable" _) eqn:C2; [apply contains_iff in C2; apply is_program; tauto|apply contains_not in C2].
    destruct (contains "SB shared object" _) eqn:C3; [apply contains_iff in C3; apply is_library; tauto|apply contains_not in C3].
    apply is_other; tauto.
  Qed.

  Lemma strip_file_one f o (fs : files) c : absolute f -> absolute o -> unbroken f -> unbroken o -> fs !! f = Some c -> f <> o ++ ".debug" ->
    let fs' := strip_file cwd file_says strip_tool keep_debug add_link generatedebug f o fs in
    (exists c', stripped (o ++ ".debug") (fs !! (o ++ ".debug")) c c' /\ fs' !! f = Some c') /\
    debugged (fs !! (o ++ ".debug")) c (fs' !! (o ++ ".debug")) /\
    (forall g, g <> f -> g <> o ++ ".debug" -> fs' !! g = fs !! g).
  Proof.
    intros A Ao U Uo L N. cbn zeta. unfold strip_file. rewrite L. destruct (kinds f c U) as (k & K & E). revert E. cbn zeta.
    assert (forall flags k', k' = Program \/ k' = Library -> is_a c k' ->
      (k' = Program -> flags = "") -> (k' = Library -> flags = "--strip-unneeded") ->
      let fs' := run_strip cwd strip_tool f flags (if generatedebug then save_elf_debug cwd keep_debug add_link f o fs else fs) in
      (exists c', stripped (o ++ ".debug") (fs !! (o ++ ".debug")) c c' /\ fs' !! f = Some c') /\
      debugged (fs !! (o ++ ".debug")) c (fs' !! (o ++ ".debug")) /\
      (forall g, g <> f -> g <> o ++ ".debug" -> fs' !! g = fs !! g)) as P.
    { intros flags k' Ck K' F1 F2. cbn zeta. unfold run_strip.
      assert (exists fs1, (if generatedebug then save_elf_debug cwd keep_debug add_link f o fs else fs) = fs1 /\
                fs1 !! f = Some (linked (o ++ ".debug") (fs !! (o ++ ".debug")) c) /\
                fs1 !! (o ++ ".debug") = (if generatedebug then debug_info (fs !! (o ++ ".debug")) c else fs !! (o ++ ".debug")) /\
                forall g, g <> f -> g <> o ++ ".debug" -> fs1 !! g = fs !! g) as (fs1 & -> & L1 & B1 & O1).
      { unfold StripSpec.linked. destruct generatedebug.
        - destruct (save_one f o fs c A Ao U Uo L N) as (fs1 & E1 & X & Y & Z). exists fs1. auto.
        - exists fs. auto. }
      rewrite (on_one _ f fs1 _ A U L1).
      split; [|split].
      - eexists. split; [|apply lookup_insert]. destruct Ck as [->| ->].
        + rewrite (F1 eq_refl). now apply strip_program.
        + rewrite (F2 eq_refl). now apply strip_library.
      - rewrite lookup_insert_ne by congruence. rewrite B1. destruct generatedebug eqn:G.
        + apply deb_yes; [reflexivity|]. destruct Ck as [->| ->]; auto.
        + apply deb_no. now left.
      - intros g N1 N2. rewrite lookup_insert_ne by congruence. auto. }
    destruct (contains "current ar archive" _); [intros <-|destruct (contains "SB executable" _); [intros <-|destruct (contains "SB shared object" _); intros <-]].
    - unfold run_strip. rewrite (on_one _ f fs c A U L). split; [|split].
      + eexists. split; [|apply lookup_insert]. now apply strip_ar.
      + rewrite lookup_insert_ne by congruence. apply deb_no. tauto.
      + intros g N1 N2. now rewrite lookup_insert_ne by congruence.
    - apply (P "" Program); auto; discriminate.
    - apply (P "--strip-unneeded" Library); auto; discriminate.
    - split; [exists c; split; [now apply strip_other|assumption]|]. split; [apply deb_no; tauto|auto].
  Qed.

  Lemma repair_one f (fs : files) c : absolute f -> unbroken f -> fs !! f = Some c ->
    exists c', repaired f c c' /\
      (if String.eqb (extension f) ".la" then on_operands (fun c => Some (sed_dirs c)) f (on_operands (fun c => Some (sed_libs c)) f fs) else fs) = <[f := c']> fs.
  Proof.
    intros A U L. destruct (String.eqb_spec (extension f) ".la") as [E|E].
    - exists (sed_dirs (sed_libs c)). split; [apply rep_libtool; now apply extension_la|].
      rewrite (on_one _ f fs c A U L). rewrite (on_one _ f _ (sed_libs c) A U) by apply lookup_insert. now rewrite insert_insert.
    - exists c. split; [apply rep_other; now rewrite <- extension_la|]. now rewrite insert_id.
  Qed.

  (** [r]: below install.  The two slashes are those of fs.py 286. *)
  Definition exempted (l : list string) (r : string) : Prop := exists e t, In e l /\ "//" ++ r = e ++ t.
  Lemma strip_one_does base r l (fs : files) c :
    build_place base -> unbroken r -> (forall t, r <> "/" ++ t) -> fs !! (base ++ "/install/" ++ r) = Some c ->
    let f := base ++ "/install/" ++ r in
    let b := base ++ "/debug/" ++ r ++ ".debug" in
    let fs' := strip_one (base ++ "/install") l fs f in
    exists c1, repaired f c c1 /\
      (exempted l r /\ fs' !! f = Some c1 /\ fs' !! b = fs !! b \/
       ~ exempted l r /\ (exists c2, stripped b (fs !! b) c1 c2 /\ fs' !! f = Some c2) /\ debugged (fs !! b) c1 (fs' !! b)) /\
      forall g, g <> f -> g <> b -> fs' !! g = fs !! g.
  Proof.
    intros ([r0 R0] & NS & Ub) Ur Nr L. cbn zeta. set (f := base ++ "/install/" ++ r) in *. set (b := base ++ "/debug/" ++ r ++ ".debug").
    assert (absolute f) as A. { exists (r0 ++ "/install/" ++ r). unfold f. rewrite R0. now rewrite str_app_assoc. }
    assert (unbroken f) as U. { unfold f. rewrite !unbroken_app. repeat split; try assumption; unfold free_of; try (cbn; intuition discriminate); try apply Ub; try apply Ur. }
    assert (f <> b) as Nfb. { unfold f, b. intros K. apply (f_equal los) in K. rewrite !los_app in K. apply app_inv_head in K. cbn in K. discriminate. }
    destruct (repair_one f fs c A U L) as (c1 & Rep & E1). exists c1. split; [assumption|]. unfold Strip.strip_one.
    cbn zeta. rewrite E1. unfold from_top. assert (f = (base ++ "/install") ++ ("/" ++ r)) as Ef by (unfold f; now rewrite str_app_assoc).
    replace (py_drop (String.length (base ++ "/install")) f) with ("/" ++ r) by (rewrite Ef; now rewrite drop_app).
    change (base ++ "/install") with (base ++ "/" ++ "install").
    rewrite (dirname_under base "install"); [|rewrite R0; discriminate|assumption|unfold free_of; cbn; intuition discriminate].
    assert (join_path base [debug_dir; "/" ++ r] = base ++ "/debug/" ++ r) as J.
    { assert (py_endswith base "/" = false) as E0. { apply not_true_iff_false. rewrite endswith_iff. exact NS. }
      assert (String.eqb base "" = false) as E2 by (rewrite R0; reflexivity).
      assert (py_lstrip "/" ("/" ++ r) = r) as E3.
      { change ("/" ++ r) with (String "/" r). cbn [py_lstrip]. change (char_in "/" "/") with true. cbn match. destruct r as [|x r']; [reflexivity|].
        apply lstrip_stop. apply not_true_iff_false. rewrite char_in_iff. cbn. intros [<-|[]]. now apply (Nr r'). }
      assert (py_endswith (base ++ "/" ++ "debug") "/" = false) as E4.
      { apply not_true_iff_false. rewrite endswith_iff. intros [t K]. apply (f_equal los) in K. rewrite !los_app in K. cbn in K.
        apply (f_equal (@List.rev ascii)) in K. rewrite !rev_app_distr in K. cbn in K. discriminate. }
      assert (String.eqb (base ++ "/" ++ "debug") "" = false) as E5 by (rewrite R0; reflexivity).
      unfold join_path, debug_dir. cbn [fold_left]. unfold join_path2 at 2. rewrite E0, E2. change (py_lstrip "/" "/debug") with "debug". cbn [orb].
      unfold join_path2. rewrite E4, E5, E3. cbn [orb]. now rewrite !str_app_assoc. }
    rewrite J. assert (b = (base ++ "/debug/" ++ r) ++ ".debug") as Eb by (unfold b; now rewrite !str_app_assoc).
    change ("/" ++ "/" ++ r) with ("//" ++ r).
    destruct (existsb (fun exclude => py_startswith ("//" ++ r) exclude) l) eqn:X.
    - split.
      + left. split; [|split; [apply lookup_insert|now rewrite lookup_insert_ne by congruence]].
        apply existsb_exists in X as (e & I & X). apply startswith_iff in X as [t X]. now exists e, t.
      + intros g N1 N2. now rewrite lookup_insert_ne by congruence.
    - destruct (strip_file_one f (base ++ "/debug/" ++ r) (<[f:=c1]> fs) c1 A) as ((c2 & S1 & S2) & D & O).
      + exists (r0 ++ "/debug/" ++ r). rewrite R0. now rewrite str_app_assoc.
      + assumption.
      + rewrite !unbroken_app. repeat split; unfold free_of; try (cbn; intuition discriminate); try apply Ub; try apply Ur.
      + apply lookup_insert.
      + now rewrite <- Eb.
      + rewrite <- Eb in S1, D, O. rewrite lookup_insert_ne in S1, D by congruence. split.
        * right. split; [|split; [now exists c2|assumption]]. intros (e & t & I & H).
          assert (existsb (fun exclude => py_startswith ("//" ++ r) exclude) l = true) as Y; [|congruence].
          apply existsb_exists. exists e. split; [assumption|]. apply startswith_iff. now exists t.
        * intros g N1 N2. rewrite O by assumption. now rewrite lookup_insert_ne by congruence.
  Qed.
End one.
