(** * Stripping a directory: lemmas *)
From Coq Require Import String Ascii ZArith List Lia Bool.
From stdpp Require Import gmap strings.
From Verif Require Import Model.Py Model.Path Model.ArTimes Spec.PathSpec Proof.PyFacts Proof.PathFacts Model.Strip Spec.StripSpec Proof.StripFacts.
Import ListNotations.
Open Scope string_scope.

Lemma exempted_spared l r : exempted l r <-> spared l r.
Proof.
  split.
  - intros (e & t & I & H). exists e. split; [assumption|]. destruct e as [|a e]; [now left|]. right.
    change ("//" ++ r) with (String "/" (String "/" r)) in H. change (String a e ++ t) with (String a (e ++ t)) in H. injection H as <- H.
    destruct e as [|a e]; [now left|]. right. change (String a e ++ t) with (String a (e ++ t)) in H. injection H as <- H. now exists e, t.
  - intros (e & I & [->|[->|(p & t & -> & ->)]]).
    + exists "", ("//" ++ r). auto.
    + exists "/", ("/" ++ r). auto.
    + exists ("//" ++ p), t. split; [assumption|]. now rewrite str_app_assoc.
Qed.

Lemma app_head a b c : a ++ b = a ++ c -> b = c.
Proof. intros H. apply (f_equal los) in H. rewrite !los_app in H. apply app_inv_head in H. now apply los_inj. Qed.
Lemma app_tail a b c : b ++ a = c ++ a -> b = c.
Proof. intros H. apply (f_equal los) in H. rewrite !los_app in H. apply app_inv_tail in H. now apply los_inj. Qed.
Lemma install_debug base r q : base ++ "/install/" ++ r <> base ++ "/debug/" ++ q.
Proof. intros K. apply app_head in K. discriminate. Qed.
Lemma dir_file base d r : (base ++ d) ++ "/" ++ r = base ++ (d ++ "/" ++ r).
Proof. now rewrite !str_app_assoc. Qed.

Section left_over.
  Context (walk : string -> gmap string string -> list string).
  (** ** The packages made of what is left over *)
  Lemma readlines_first s : match readlines s with [] => s = [] | l :: _ => exists t, s = (l ++ t)%list end.
  Proof.
    induction s as [|c s IH]; [reflexivity|]. cbn [readlines]. destruct (Ascii.eqb c newline); [now exists s|].
    destruct (readlines s) as [|l ls]; [subst; now exists []|]. destruct IH as [t ->]. now exists t.
  Qed.
  Lemma ar_mentions c : is_ar_file (list_ascii_of_string c) = true -> mentions "!<arch>" c.
  Proof.
    unfold is_ar_file. intros H. apply String.eqb_eq in H. pose proof (readlines_first (list_ascii_of_string c)) as F.
    destruct (readlines (list_ascii_of_string c)) as [|l ls]; [discriminate|]. destruct F as [t F].
    unfold py_strip in H. destruct (rstrip_decomp whitespace_chars (py_lstrip whitespace_chars (string_of_list_ascii l))) as (p & R & _).
    destruct (lstrip_decomp whitespace_chars (string_of_list_ascii l)) as (q & L & _).
    apply mentions_los. rewrite R in L. rewrite H in L. apply (f_equal los) in L. rewrite !los_app, list_ascii_of_string_of_list_ascii in L. rewrite F, L.
    exists (los q), (los p ++ t)%list. now rewrite !app_assoc.
  Qed.
  Lemma ar_begins c : is_ar_file (list_ascii_of_string ("!<arch>" ++ String newline c)) = true.
  Proof. reflexivity. Qed.

  Lemma basename_ends f s : free_of "/" s -> py_endswith f s = py_endswith (basename f) s.
  Proof.
    intros F. destruct (basename_split f) as (d & Hf & D & Fb). revert Hf Fb. generalize (basename f) as b. intros b -> Fb.
    apply eq_iff_eq_true. rewrite !endswith_iff. split; intros [r H].
    - apply (f_equal los) in H. rewrite !los_app in H. apply app_eq_app in H as (k & [[H1 H2]|[H1 H2]]).
      + destruct D as [->|[e ->]].
        * exists "". apply los_inj. destruct (los r); [cbn in *; now subst k|discriminate].
        * destruct k as [|x k] using rev_ind; [exists ""; now apply los_inj|]. exfalso. clear IHk. rewrite los_app in H1. change (los "/") with ["/"%char] in H1.
          rewrite app_assoc in H1. apply app_inj_tail in H1 as [_ <-]. apply F. rewrite H2. rewrite !in_app_iff. left. right. now left.
      + exists (sol k). apply los_inj. now rewrite los_app, list_ascii_of_string_of_list_ascii.
    - exists (d ++ r). now rewrite H, str_app_assoc.
  Qed.
  Lemma basename_has f s : free_of "/" s -> py_endswith (basename f) s = true <-> exists n, f = n ++ s.
  Proof. intros F. rewrite <- basename_ends by assumption. apply endswith_iff. Qed.

  Lemma static_fails base fs : walks walk ->
    (exists n c, fs !! (base ++ "/install/" ++ n ++ ".a") = Some ("!<arch>" ++ String newline c)) ->
    generate_static_package_object walk base fs = Err EAttribute.
  Proof.
    intros W (n & c & L). unfold generate_static_package_object, pkg_install_dir. destruct (existsb _ _) eqn:X; [reflexivity|]. exfalso.
    apply not_true_iff_false in X. apply X. apply existsb_exists. exists (base ++ "/install/" ++ n ++ ".a"). split.
    - apply W. split; [rewrite L; now eexists|]. exists (n ++ ".a"). now rewrite dir_file.
    - rewrite L, ar_begins, andb_true_r. apply basename_has; [unfold free_of; cbn; intuition discriminate|]. exists (base ++ "/install/" ++ n). now rewrite !str_app_assoc.
  Qed.
  Lemma static_ok base fs : walks walk ->
    (forall f c, within (base ++ "/install") f -> (exists n, f = n ++ ".a") -> fs !! f = Some c -> ~ mentions "!<arch>" c) ->
    generate_static_package_object walk base fs = Ok false.
  Proof.
    intros W H. unfold generate_static_package_object, pkg_install_dir. destruct (existsb _ _) eqn:X; [|reflexivity]. exfalso.
    apply existsb_exists in X as (f & I & X). apply W in I as [_ I]. apply andb_true_iff in X as [X1 X2].
    apply basename_has in X1; [|unfold free_of; cbn; intuition discriminate]. destruct (fs !! f) as [c|] eqn:L; [|discriminate].
    apply (H f c I X1 L). now apply ar_mentions.
  Qed.
  Lemma debug_iff base fs : walks walk ->
    generate_debug_package_object walk base fs =
      if existsb (fun f => py_endswith f ".debug") (walk (base ++ "/debug") fs) then Err EAttribute else Ok false.
  Proof.
    intros W. unfold generate_debug_package_object, pkg_debug_dir, debug_dir, debug_suffix.
    assert (forall l, existsb (fun f => py_endswith (basename f) ".debug") l = existsb (fun f => py_endswith f ".debug") l) as ->; [|reflexivity].
    intros l. induction l as [|f l IH]; [reflexivity|]. cbn [existsb]. rewrite IH. f_equal. symmetry. apply basename_ends. unfold free_of; cbn; intuition discriminate.
  Qed.
  Lemma debug_fails base fs : walks walk -> (exists r, is_Some (fs !! (base ++ "/debug/" ++ r ++ ".debug"))) -> generate_debug_package_object walk base fs = Err EAttribute.
  Proof.
    intros W (r & L). rewrite debug_iff by assumption. destruct (existsb _ _) eqn:X; [reflexivity|]. exfalso.
    apply not_true_iff_false in X. apply X. apply existsb_exists. exists (base ++ "/debug/" ++ r ++ ".debug"). split.
    - apply W. split; [assumption|]. exists (r ++ ".debug"). now rewrite dir_file.
    - apply endswith_iff. exists (base ++ "/debug/" ++ r). now rewrite !str_app_assoc.
  Qed.
  Lemma debug_ok base fs : walks walk -> (forall f, within (base ++ "/debug") f -> (exists n, f = n ++ ".debug") -> fs !! f = None) -> generate_debug_package_object walk base fs = Ok false.
  Proof.
    intros W H. rewrite debug_iff by assumption. destruct (existsb _ _) eqn:X; [|reflexivity]. exfalso. apply existsb_exists in X as (f & I & X).
    apply W in I as [[c S] I]. apply endswith_iff in X. specialize (H f I X). congruence.
  Qed.
End left_over.

Section whole.
  Context (cwd : string) (file_says : string -> string) (strip_tool : string -> string -> option string)
          (keep_debug : string -> option string) (add_link : string -> string -> string -> option string)
          (sed_libs sed_dirs : string -> string) (generatedebug : bool) (walk : string -> gmap string string -> list string).
  Local Notation strip_one := (strip_one cwd file_says strip_tool keep_debug add_link sed_libs sed_dirs generatedebug).
  Local Notation strip_install_dir := (strip_install_dir cwd file_says strip_tool keep_debug add_link sed_libs sed_dirs generatedebug walk).
  Local Notation prepare_packages := (prepare_packages cwd file_says strip_tool keep_debug add_link sed_libs sed_dirs generatedebug walk).
  Local Notation stripped := (stripped file_says strip_tool keep_debug add_link generatedebug).
  Local Notation debugged := (debugged file_says keep_debug generatedebug).
  Local Notation repaired := (repaired sed_libs sed_dirs).

  Local Notation done_to := (done_to file_says strip_tool keep_debug add_link sed_libs sed_dirs generatedebug).
  Lemma fold_does base l : build_place base -> forall todo fs,
    List.NoDup todo -> (forall f, In f todo -> exists r, f = base ++ "/install/" ++ r /\ unbroken r /\ (forall t, r <> "/" ++ t) /\ is_Some (fs !! f)) ->
    let fs' := fold_left (strip_one (base ++ "/install") l) todo fs in
    (forall r c, In (base ++ "/install/" ++ r) todo -> fs !! (base ++ "/install/" ++ r) = Some c -> done_to base l fs fs' r c) /\
    (forall g, ~ In g todo -> (forall r, In (base ++ "/install/" ++ r) todo -> g <> base ++ "/debug/" ++ r ++ ".debug") -> fs' !! g = fs !! g).
  Proof.
    intros P todo. induction todo as [|f todo IH]; intros fs ND All; cbn [fold_left].
    - split; [intros r c []|]. auto.
    - apply List.NoDup_cons_iff in ND as [Nf ND]. destruct (All f (or_introl eq_refl)) as (r & -> & U & Nr & [c L]).
      pose proof (strip_one_does cwd file_says strip_tool keep_debug add_link sed_libs sed_dirs generatedebug base r l fs c P U Nr L) as S1.
      cbn zeta in S1. destruct S1 as (c1 & Rep & Out & Oth). set (fs1 := strip_one (base ++ "/install") l fs (base ++ "/install/" ++ r)) in *.
      assert (forall q, In (base ++ "/install/" ++ q) todo -> fs1 !! (base ++ "/install/" ++ q) = fs !! (base ++ "/install/" ++ q) /\
                 fs1 !! (base ++ "/debug/" ++ q ++ ".debug") = fs !! (base ++ "/debug/" ++ q ++ ".debug")) as Same.
      { intros q I. assert (q <> r) as Nq by (intros ->; contradiction). split; apply Oth.
        - intros K. apply app_head, app_head in K. congruence.
        - apply install_debug.
        - intros K. symmetry in K. now apply install_debug in K.
        - intros K. apply app_head, app_head, app_tail in K. congruence. }
      destruct (IH fs1 ND) as [D O].
      { intros f I. destruct (All f (or_intror I)) as (q & -> & Uq & Nq & S). exists q. repeat split; try assumption; try apply Uq.
        destruct (Same q I) as [-> _]. assumption. }
      cbn zeta in D, O |- *. split.
      + intros q cq [K|I] Lq.
        * apply app_head, app_head in K. subst q. assert (cq = c) as -> by congruence. exists c1. split; [assumption|].
          assert (~ In (base ++ "/debug/" ++ r ++ ".debug") todo) as Nb.
          { intros I. destruct (All _ (or_intror I)) as (q & K & _). symmetry in K. now apply install_debug in K. }
          rewrite (O (base ++ "/install/" ++ r) Nf), (O (base ++ "/debug/" ++ r ++ ".debug") Nb).
          -- rewrite <- exempted_spared. exact Out.
          -- intros q I K. apply app_head, app_head, app_tail in K. subst. contradiction.
          -- intros q I. apply install_debug.
        * destruct (Same q I) as [S1 S2]. rewrite <- S1 in Lq. unfold StripSpec.done_to in D |- *. cbn zeta in D |- *. destruct (D q cq I Lq) as (c' & R' & O'). exists c'.
          split; [assumption|]. rewrite <- S2. exact O'.
      + intros g Ng Nd. rewrite O.
        * apply Oth; [intros ->; apply Ng; now left|apply Nd; now left].
        * intros I. apply Ng. now right.
        * intros q I. apply Nd. now right.
  Qed.

  Lemma proper_rest fs base r : proper fs -> is_Some (fs !! (base ++ "/install/" ++ r)) -> forall t, r <> "/" ++ t.
  Proof.
    intros P S t ->. apply P in S as [_ S]. apply S. exists (base ++ "/install"), t. rewrite !str_app_assoc. reflexivity.
  Qed.

  Lemma walked base fs : walks walk -> build_place base -> proper fs -> unbroken_below fs (base ++ "/install") ->
    List.NoDup (walk (pkg_install_dir base) fs) /\
    (forall f, In f (walk (pkg_install_dir base) fs) -> exists r, f = base ++ "/install/" ++ r /\ unbroken r /\ (forall t, r <> "/" ++ t) /\ is_Some (fs !! f)) /\
    (forall r, In (base ++ "/install/" ++ r) (walk (pkg_install_dir base) fs) <-> has_file fs (base ++ "/install") r).
  Proof.
    intros W P Pr Ub. unfold pkg_install_dir. destruct (W (base ++ "/install") fs) as [ND I]. split; [exact ND|]. split.
    - intros f K. apply I in K as [S [r ->]]. exists r. rewrite dir_file in *. change ("/install" ++ "/" ++ r) with ("/install/" ++ r) in *.
      split; [reflexivity|]. split; [apply Ub; unfold has_file; rewrite dir_file; exact S|]. split; [|assumption]. now apply (proper_rest fs base).
    - intros r. rewrite I. unfold has_file. rewrite dir_file. change ("/install" ++ "/" ++ r) with ("/install/" ++ r). split; [tauto|].
      intros S. split; [assumption|]. exists r. rewrite dir_file. reflexivity.
  Qed.

  Definition as_list (nostrip : option (list string)) : list string := match nostrip with Some l => l | None => [] end.

  Lemma strip_whole base nostrip fs : walks walk -> build_place base -> proper fs -> unbroken_below fs (base ++ "/install") ->
    let fs' := strip_install_dir base nostrip fs in
    (forall r c, fs !! (base ++ "/install/" ++ r) = Some c -> done_to base (as_list nostrip) fs fs' r c) /\
    (forall g, ~ within (base ++ "/install") g ->
               (forall r, g = base ++ "/debug/" ++ r ++ ".debug" -> ~ has_file fs (base ++ "/install") r) -> fs' !! g = fs !! g).
  Proof.
    intros W P Pr Ub. destruct (walked base fs W P Pr Ub) as (ND & All & Has). cbn zeta. unfold Strip.strip_install_dir, strip_directory.
    destruct (fold_does base (as_list nostrip) P _ fs ND All) as [D O]. cbn zeta in D, O. split.
    - intros r c L. apply D; [|assumption]. apply Has. unfold has_file. rewrite dir_file. change ("/install" ++ "/" ++ r) with ("/install/" ++ r). rewrite L. now eexists.
    - intros g Ng Nd. apply O.
      + intros I. destruct (All g I) as (r & -> & _). apply Ng. exists r. now rewrite dir_file.
      + intros r I K. apply Has in I. now apply (Nd r K).
  Qed.

  (** ** NoStrip *)
  Lemma written_never e p : written_place e -> (forall t, p <> "/" ++ t) -> py_startswith ("//" ++ p) e = false.
  Proof.
    intros (q & -> & R) N. apply not_true_iff_false. rewrite startswith_iff. intros [t K]. change ("//" ++ p) with ("/" ++ ("/" ++ p)) in K.
    rewrite str_app_assoc in K. apply app_head in K. assert (q <> "" /\ forall t, q <> "/" ++ t) as [Q1 Q2].
    { clear -R. induction R as [n H F|n r H F R IH]; (split; [|intros u K]).
      - assumption.
      - apply F. rewrite K. now left.
      - destruct n; [congruence|discriminate].
      - destruct n as [|x n]; [congruence|]. injection K as -> K. apply F. now left. }
    destruct q as [|x q]; [congruence|]. injection K as <- K. now apply (Q2 q).
  Qed.
  Lemma strip_one_same base r l fs : (forall e, In e l -> written_place e) -> (forall t, r <> "/" ++ t) ->
    strip_one (base ++ "/install") l fs (base ++ "/install/" ++ r) = strip_one (base ++ "/install") [] fs (base ++ "/install/" ++ r).
  Proof.
    intros W N. unfold Strip.strip_one, from_top.
    replace (py_drop (String.length (base ++ "/install")) (base ++ "/install/" ++ r)) with ("/" ++ r)
      by (replace (base ++ "/install/" ++ r) with ((base ++ "/install") ++ ("/" ++ r)) by (now rewrite str_app_assoc); now rewrite drop_app).
    change ("/" ++ "/" ++ r) with ("//" ++ r). cbn zeta.
    assert (existsb (fun exclude => py_startswith ("//" ++ r) exclude) l = false) as ->; [|reflexivity].
    apply not_true_iff_false. rewrite existsb_exists. intros (e & I & K). rewrite (written_never e r) in K; [discriminate|auto|assumption].
  Qed.
  Lemma nostrip_ignored base l fs : walks walk -> proper fs -> (forall e, In e l -> written_place e) ->
    strip_install_dir base (Some l) fs = strip_install_dir base None fs.
  Proof.
    intros Wk Pr W. unfold Strip.strip_install_dir, strip_directory, pkg_install_dir. destruct (Wk (base ++ "/install") fs) as [_ I].
    assert (forall f, In f (walk (base ++ "/install") fs) -> exists r, f = base ++ "/install/" ++ r /\ forall t, r <> "/" ++ t) as All.
    { intros f K. apply I in K as [S [r ->]]. exists r. rewrite dir_file in *. split; [reflexivity|]. now apply (proper_rest fs base). }
    clear I. revert All. generalize (walk (base ++ "/install") fs) as todo. intros todo. revert fs Pr. induction todo as [|f todo IH]; intros fs Pr All; [reflexivity|].
    cbn [fold_left]. destruct (All f (or_introl eq_refl)) as (r & -> & N). rewrite (strip_one_same base r l fs W N).
    assert (forall X fs1, (forall f, In f X -> exists r, f = base ++ "/install/" ++ r /\ forall t, r <> "/" ++ t) ->
      fold_left (strip_one (base ++ "/install") l) X fs1 = fold_left (strip_one (base ++ "/install") []) X fs1) as G.
    { clear -W. induction X as [|f X IH]; intros fs1 All; [reflexivity|]. cbn [fold_left]. destruct (All f (or_introl eq_refl)) as (r & -> & N).
      rewrite (strip_one_same base r l fs1 W N). apply IH. intros g K. apply All. now right. }
    apply G. intros g K. apply All. now right.
  Qed.

  Lemma prepared base static nostrip fs :
    let fs' := strip_install_dir base nostrip fs in
    fst (prepare_packages base static nostrip fs) = fs' /\
    (snd (prepare_packages base static nostrip fs) = Ok tt <->
      (static = true -> generate_static_package_object walk base fs' = Ok false) /\ (generatedebug = true -> generate_debug_package_object walk base fs' = Ok false)) /\
    (snd (prepare_packages base static nostrip fs) = Ok tt \/ snd (prepare_packages base static nostrip fs) = Err EAttribute).
  Proof.
    cbn zeta. unfold Strip.prepare_packages. cbn zeta. split; [reflexivity|]. cbn [snd].
    assert (generate_static_package_object walk base (strip_install_dir base nostrip fs) = Ok false \/
            generate_static_package_object walk base (strip_install_dir base nostrip fs) = Err EAttribute) as [A|A]
      by (unfold generate_static_package_object; destruct (existsb _ _); auto);
    assert (generate_debug_package_object walk base (strip_install_dir base nostrip fs) = Ok false \/
            generate_debug_package_object walk base (strip_install_dir base nostrip fs) = Err EAttribute) as [B|B]
      by (unfold generate_debug_package_object; destruct (existsb _ _); auto);
    destruct static, generatedebug; rewrite ?A, ?B; cbn [bind]; (split; [|auto]); (split; intros H; [split; intros; congruence|destruct H as [H1 H2]; try specialize (H1 eq_refl); try specialize (H2 eq_refl); congruence]).
  Qed.
End whole.

Section extras.
  Context (cwd : string) (file_says : string -> string) (strip_tool : string -> string -> option string)
          (keep_debug : string -> option string) (add_link : string -> string -> string -> option string)
          (sed_libs sed_dirs : string -> string) (walk : string -> gmap string string -> list string).

  Lemma debug_never base static nostrip fs r c c1 d :
    walks walk -> build_place base -> proper fs -> unbroken_below fs (base ++ "/install") ->
    fs !! (base ++ "/install/" ++ r) = Some c -> repaired sed_libs sed_dirs (base ++ "/install/" ++ r) c c1 ->
    is_a file_says c1 Program \/ is_a file_says c1 Library -> keep_debug c1 = Some d -> ~ spared (as_list nostrip) r ->
    snd (prepare_packages cwd file_says strip_tool keep_debug add_link sed_libs sed_dirs true walk base static nostrip fs) = Err EAttribute.
  Proof.
    intros W P Pr Ub L R K D Sp.
    destruct (strip_whole cwd file_says strip_tool keep_debug add_link sed_libs sed_dirs true walk base nostrip fs W P Pr Ub) as [All _]. cbn zeta in All.
    destruct (All r c L) as (c1' & R' & Out). cbn zeta in R', Out.
    assert (c1' = c1) as -> by (inversion R; inversion R'; first [congruence|contradiction]).
    destruct (prepared cwd file_says strip_tool keep_debug add_link sed_libs sed_dirs true walk base static nostrip fs) as (_ & Iff & [Ok1|E]); [|assumption].
    exfalso. apply Iff in Ok1 as [_ B]. specialize (B eq_refl). rewrite (debug_fails walk base) in B; [discriminate|assumption|].
    exists r. destruct Out as [[S _]|(_ & _ & Dg)]; [contradiction|].
    assert (~ is_a file_says c1 Ar /\ ~ is_a file_says c1 Other) as [N1 N2].
    { split; intros X; destruct K as [K|K]; inversion X; inversion K; contradiction. }
    inversion Dg as [G Y EQ|[G|[Y|Y]] EQ]; try contradiction; try discriminate. unfold StripSpec.debug_info. rewrite D. now eexists.
  Qed.
End extras.
