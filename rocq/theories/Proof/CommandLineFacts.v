(** * Facts about Model/CommandLine.v *)
From Coq Require Import String Ascii ZArith List Bool Lia Arith.
From stdpp Require Import gmap strings.
From Verif Require Import Model.Py Model.CommandLine Spec.PathSpec Spec.CommandLineSpec Proof.PyFacts.
Import ListNotations.
Open Scope string_scope.

Lemma bare_iff w : bare w <-> py_startswith w "-" && negb (String.eqb w "-") = false.
Proof.
  unfold bare. rewrite andb_false_iff, negb_false_iff, String.eqb_eq. split.
  - intros [E|N]; [now right|]. left. destruct (py_startswith w "-") eqn:E; [|reflexivity]. apply startswith_iff in E. now destruct N.
  - intros [E|E]; [right|now left]. intros H. apply startswith_iff in H. congruence.
Qed.
Lemma not_bare_iff w : ~ bare w <-> py_startswith w "-" && negb (String.eqb w "-") = true.
Proof. rewrite bare_iff. destruct (_ && _); split; congruence. Qed.

Lemma cut_none s n : cut s = (n, None) <-> s = n /\ free_of "=" n.
Proof.
  revert n. induction s as [|c s IH]; intros n; cbn [cut].
  - split; [intros E; injection E as <-; split; [reflexivity|intros []]|]. now intros [<- _].
  - destruct (Ascii.eqb c "=") eqn:C.
    + apply Ascii.eqb_eq in C. subst c. split; [intros E; discriminate E|]. intros [<- F]. destruct F. now left.
    + apply Ascii.eqb_neq in C. destruct (cut s) as [m r]. cbn. split.
      * intros E. injection E as <- ->. destruct (proj1 (IH m) eq_refl) as [-> F]. split; [reflexivity|]. intros [K|K]; [congruence|now apply F].
      * intros [<- F]. assert (K : (m, r) = (s, None)). { apply IH. split; [reflexivity|]. intros K. apply F. now right. } now injection K as -> ->.
Qed.
Lemma cut_some s n x : cut s = (n, Some x) <-> s = n ++ "=" ++ x /\ free_of "=" n.
Proof.
  revert n. induction s as [|c s IH]; intros n; cbn [cut].
  - split; [intros E; discriminate E|]. intros [E _]. destruct n; discriminate E.
  - destruct (Ascii.eqb c "=") eqn:C.
    + apply Ascii.eqb_eq in C. subst c. split; [intros E; injection E as <- ->; split; [reflexivity|intros []]|].
      intros [E F]. destruct n as [|c n]; [injection E as ->; reflexivity|]. injection E as <- _. destruct F. now left.
    + apply Ascii.eqb_neq in C. destruct (cut s) as [m r]. cbn. split.
      * intros E. injection E as <- ->. destruct (proj1 (IH m) eq_refl) as [-> F]. split; [reflexivity|]. intros [K|K]; [congruence|now apply F].
      * intros [E F]. destruct n as [|c' n]; [injection E as -> _; congruence|]. injection E as <- E. assert (K : (m, r) = (n, Some x)). { apply IH. split; [exact E|]. intros K. apply F. now right. } now injection K as -> ->.
Qed.

Section table.
  Variable number : string -> option Z.
  Variable t : list opt.
  Hypothesis St : sound t.

  Lemma match_long_iff s o : match_long t s = Some o <-> calls t s o.
  Proof.
    destruct St as (L & _ & _ & ND). unfold match_long, calls. destruct (find _ t) as [a|] eqn:E.
    - apply find_some in E as [I E]. apply String.eqb_eq in E. split.
      + intros K. injection K as <-. split; [exact I|now left].
      + intros [Io [K|[K _]]]; [|now destruct (K a I)]. f_equal. apply L; congruence.
    - assert (N : forall o', In o' t -> opt_long o' <> s). { intros o' I K. pose proof (find_none _ _ E o' I) as F. cbn in F. apply String.eqb_neq in F. congruence. }
      assert (F : forall o', In o' (List.filter (fun o => py_startswith (opt_long o) s) t) <-> In o' t /\ exists r, opt_long o' = s ++ r).
      { intros o'. rewrite List.filter_In, startswith_iff. reflexivity. }
      assert (NF : List.NoDup (List.filter (fun o => py_startswith (opt_long o) s) t)) by now apply List.NoDup_filter.
      destruct (List.filter _ t) as [|a [|b l]]; cbn in F, NF |- *.
      + split; [intros K; discriminate K|]. intros [I [K|(_ & P & _)]]; [now destruct (N o I)|]. now destruct (proj2 (F o) (conj I P)).
      + split.
        * intros K. injection K as <-. destruct (proj1 (F a) (or_introl eq_refl)) as [I P]. split; [exact I|right]. split; [exact N|]. split; [exact P|]. intros o' r I' E'. destruct (proj2 (F o') (conj I' (ex_intro _ r E'))) as [->|[]]. reflexivity.
        * intros [I [K|(_ & P & _)]]; [now destruct (N o I)|]. destruct (proj2 (F o) (conj I P)) as [->|[]]. reflexivity.
      + split; [intros K; discriminate K|]. intros [I [K|(_ & P & U)]]; [now destruct (N o I)|]. exfalso.
        destruct (proj1 (F a) (or_introl eq_refl)) as [Ia [ra Pa]]. destruct (proj1 (F b) (or_intror (or_introl eq_refl))) as [Ib [rb Pb]]. rewrite <- (U a ra Ia Pa) in U. rewrite (U b rb Ib Pb) in NF. inversion NF as [|? ? X _]. apply X. now left.
  Qed.
  Lemma match_short_iff c o : match_short t c = Some o <-> letter t c o.
  Proof.
    destruct St as (_ & L & _ & _). unfold match_short, letter. destruct (find _ t) as [a|] eqn:E.
    - apply find_some in E as [I E]. assert (Ea : opt_short a = Some c). { unfold same_short in E. destruct (opt_short a); [|discriminate E]. apply Ascii.eqb_eq in E. now subst. } split.
      + intros K. injection K as <-. now split.
      + intros [Io K]. f_equal. now apply (L a o c).
    - split; [intros K; discriminate K|]. intros [I K]. pose proof (find_none _ _ E o I) as F. cbn in F. rewrite K in F. cbn in F. now rewrite Ascii.eqb_refl in F.
  Qed.
  Lemma convert_iff o x y : convert number o x = Some y <-> takes number o x y.
  Proof.
    unfold convert, takes. destruct (opt_kind o); try (split; [intros K; discriminate K|]; intros [[K _]|[K _]]; discriminate K).
    - split; [intros K; injection K as <-; left; now split|]. intros [[_ ->]|[K _]]; [reflexivity|discriminate K].
    - destruct (number x) as [z|]; split; try (intros K; discriminate K).
      + intros K. injection K as <-. right. split; [reflexivity|]. now exists z.
      + intros [[K _]|(_ & z' & E & ->)]; [discriminate K|]. now injection E as <-.
      + intros [[K _]|(_ & z' & E & ->)]; [discriminate K|discriminate E].
  Qed.
  Lemma takes_wants o x y : takes number o x y -> takes_value o = true.
  Proof. unfold takes_value. now intros [[-> _]|[-> _]]. Qed.
  Lemma flag_only o : opt_kind o = Flag -> takes_value o = false /\ shows o = false.
  Proof. unfold takes_value, shows. now intros ->. Qed.
  Lemma flag_if o : takes_value o = false -> shows o = false -> opt_kind o = Flag.
  Proof. unfold takes_value, shows. destruct (opt_kind o); congruence. Qed.
  Lemma shows_wants o : shows o = true -> takes_value o = false.
  Proof. unfold takes_value, shows. destruct (opt_kind o); congruence. Qed.

  (** ** Letters *)
  Lemma short_flags fs l cs v : flags t fs l -> short_opts number t (fs ++ cs) v = short_opts number t cs (set_all v l).
  Proof.
    intros F. revert v. induction F as [|c fs o l A K F IH]; intros v; [reflexivity|]. change (String c fs ++ cs) with (String c (fs ++ cs)). cbn [short_opts]. rewrite (proj2 (match_short_iff c o) A).
    destruct (flag_only o K) as [-> ->]. now rewrite IH.
  Qed.
  Inductive ways (cs : string) (v : settings) : letters -> Prop :=
  | way_bad : ways cs v LBad
  | way_flags l : flags t cs l -> ways cs v (LDone (set_all v l))
  | way_is fs l c x o y : cs = fs ++ String c x -> flags t fs l -> letter t c o -> x <> "" -> takes number o x y -> ways cs v (LDone (set_all v (l ++ [(dest o, y)])))
  | way_wants fs l c o : cs = fs ++ String c "" -> flags t fs l -> letter t c o -> takes_value o = true -> ways cs v (LWants o (set_all v l))
  | way_shown fs l c r o : cs = fs ++ String c r -> flags t fs l -> letter t c o -> shows o = true -> ways cs v LShown.
  Lemma short_ways cs v : ways cs v (short_opts number t cs v).
  Proof.
    revert v. induction cs as [|c cs IH]; intros v; [apply (way_flags "" v []); constructor|]. cbn [short_opts]. destruct (match_short t c) as [o|] eqn:E; [|apply way_bad].
    apply match_short_iff in E. destruct (takes_value o) eqn:T.
    - destruct cs as [|c' cs]; [now apply (way_wants _ v "" [] c o); [reflexivity|constructor|..]|]. destruct (convert number o (String c' cs)) as [y|] eqn:C; [|apply way_bad].
      apply convert_iff in C. now apply (way_is _ v "" [] c (String c' cs) o y); [reflexivity|constructor|..].
    - destruct (shows o) eqn:W; [now apply (way_shown _ v "" [] c cs o); [reflexivity|constructor|..]|]. pose proof (flag_if o T W) as K.
      specialize (IH (<[dest o:=VBool true]> v)). inversion IH as [H|l F H|fs l c' x o' y Ec F A N Tk H|fs l c' o' Ec F A Tk H|fs l c' r o' Ec F A Tk H].
      + apply way_bad.
      + apply (way_flags (String c cs) v ((dest o, VBool true) :: l)). now constructor.
      + subst cs. apply (way_is _ v (String c fs) ((dest o, VBool true) :: l) c' x o' y); auto. now constructor.
      + subst cs. apply (way_wants _ v (String c fs) ((dest o, VBool true) :: l) c' o'); auto. now constructor.
      + subst cs. apply (way_shown _ v (String c fs) ((dest o, VBool true) :: l) c' r o'); auto. now constructor.
  Qed.

  (** ** Words that begin with a letter of the table *)
  Lemma flags_head fs l c r : flags t fs l -> letter t c = letter t c -> (exists o, letter t c o) -> exists c' r', fs ++ String c r = String c' r' /\ c' <> "-"%char.
  Proof.
    intros F _ [o A]. destruct St as (_ & _ & D & _). destruct F as [|c' cs o' l A' K F].
    - exists c, r. split; [reflexivity|]. intros ->. destruct A as [I E]. now apply (D o I).
    - exists c', (cs ++ String c r). split; [reflexivity|]. intros ->. destruct A' as [I E]. now apply (D o' I).
  Qed.
  Lemma flags_head' fs l : flags t fs l -> fs <> "" -> exists c' r', fs = String c' r' /\ c' <> "-"%char.
  Proof.
    intros F N. destruct St as (_ & _ & D & _). destruct F as [|c' cs o' l A' K F]; [congruence|]. exists c', cs. split; [reflexivity|]. intros ->. destruct A' as [I E]. now apply (D o' I).
  Qed.
  Lemma parse_short c' r' rest v ws : c' <> "-"%char ->
    parse number t (("-" ++ String c' r') :: rest) v ws =
    match short_opts number t (String c' r') v with
    | LBad => Bad
    | LShown => Shown
    | LDone v => parse number t rest v ws
    | LWants o v => match rest with
                    | x :: rest => match convert number o x with Some y => parse number t rest (<[dest o:=y]> v) ws | None => Bad end
                    | [] => Bad
                    end
    end.
  Proof.
    intros N. cbn [parse]. replace (String.eqb ("-" ++ String c' r') "--") with false.
    - replace (py_startswith ("-" ++ String c' r') "--") with false.
      + reflexivity.
      + symmetry. destruct (py_startswith ("-" ++ String c' r') "--") eqn:E; [|reflexivity]. apply startswith_iff in E as [r E]. injection E as E _. congruence.
    - symmetry. apply String.eqb_neq. intros E. injection E as E _. congruence.
  Qed.
  Lemma parse_long n rest v ws : n <> "" ->
    parse number t (("--" ++ n) :: rest) v ws =
    match match_long t (fst (cut n)) with
    | None => Bad
    | Some o =>
        if takes_value o then
          match snd (cut n), rest with
          | Some x, _ => match convert number o x with Some y => parse number t rest (<[dest o:=y]> v) ws | None => Bad end
          | None, x :: rest => match convert number o x with Some y => parse number t rest (<[dest o:=y]> v) ws | None => Bad end
          | None, [] => Bad
          end
        else match snd (cut n) with
             | Some _ => Bad
             | None => if shows o then Shown else parse number t rest (<[dest o:=VBool true]> v) ws
             end
    end.
  Proof.
    intros N. destruct n as [|a n]; [congruence|]. reflexivity.
  Qed.

  Lemma set_all_app v l l' : set_all v (l ++ l') = set_all (set_all v l) l'.
  Proof. apply fold_left_app. Qed.

  (** ** One item after another *)
  Lemma parse_item i l rest v ws : means number t i l -> parse number t (spelled i ++ rest) v ws = parse number t rest (set_all v l) (ws ++ word i).
  Proof.
    intros M. destruct M as [w B|n o N F C K|n x o y F C T|n x o y N F C T|fs l N F|fs l c x o y F A N T|fs l c x o y F A T].
    - apply bare_iff in B as Bb. cbn [spelled app word set_all fold_left parse]. rewrite Bb. replace (String.eqb w "--") with false.
      + replace (py_startswith w "--") with false; [reflexivity|]. symmetry. destruct (py_startswith w "--") eqn:E; [|reflexivity]. apply startswith_iff in E as [r ->]. discriminate Bb.
      + symmetry. apply String.eqb_neq. intros ->. discriminate Bb.
    - cbn [spelled app word]. rewrite parse_long by exact N. rewrite (proj2 (cut_none n n) (conj eq_refl F)). cbn [fst snd]. rewrite (proj2 (match_long_iff n o) C). destruct (flag_only o K) as [-> ->]. rewrite app_nil_r. reflexivity.
    - cbn [spelled app word]. rewrite parse_long by (destruct n; discriminate). rewrite (proj2 (cut_some _ n x) (conj eq_refl F)). cbn [fst snd]. rewrite (proj2 (match_long_iff n o) C), (takes_wants o x y T), (proj2 (convert_iff o x y) T), app_nil_r. reflexivity.
    - cbn [spelled app word]. rewrite parse_long by exact N. rewrite (proj2 (cut_none n n) (conj eq_refl F)). cbn [fst snd]. rewrite (proj2 (match_long_iff n o) C), (takes_wants o x y T), (proj2 (convert_iff o x y) T), app_nil_r. reflexivity.
    - cbn [spelled app word]. destruct (flags_head' fs l F N) as (c' & r' & E & D). rewrite E, parse_short by exact D. rewrite <- E. rewrite <- (str_app_nil_r fs) at 1. rewrite (short_flags fs l "" v F). cbn [short_opts]. now rewrite app_nil_r.
    - cbn [spelled app word]. destruct (flags_head fs l c x F eq_refl (ex_intro _ o A)) as (c' & r' & E & D). rewrite E, parse_short by exact D. rewrite <- E, (short_flags fs l _ v F). cbn [short_opts].
      rewrite (proj2 (match_short_iff c o) A), (takes_wants o x y T). destruct x as [|a x]; [congruence|]. rewrite (proj2 (convert_iff o _ y) T), app_nil_r, set_all_app. reflexivity.
    - cbn [spelled app word]. destruct (flags_head fs l c "" F eq_refl (ex_intro _ o A)) as (c' & r' & E & D). rewrite E, parse_short by exact D. rewrite <- E, (short_flags fs l _ v F). cbn [short_opts].
      rewrite (proj2 (match_short_iff c o) A), (takes_wants o x y T), (proj2 (convert_iff o _ y) T), app_nil_r, set_all_app. reflexivity.
  Qed.
  Lemma parse_items is ls rest v ws : List.Forall2 (means number t) is ls ->
    parse number t (concat (map spelled is) ++ rest) v ws = parse number t rest (set_all v (concat ls)) (ws ++ concat (map word is)).
  Proof.
    intros F. revert v ws. induction F as [|i l is ls M F IH]; intros v ws; [cbn; now rewrite app_nil_r|]. cbn [map concat]. rewrite <- app_assoc, (parse_item i l _ v ws M), IH, set_all_app, <- app_assoc. reflexivity.
  Qed.

  (** What [parse] looks at first *)
  Inductive first_step (args : list string) (v : settings) (ws : list string) : outcome -> Prop :=
  | step_bad : first_step args v ws Bad
  | step_shown : asks t args -> first_step args v ws Shown
  | step_end tail : closing args tail -> first_step args v ws (Parsed v (ws ++ tail))
  | step_item i l rest : means number t i l -> args = (spelled i ++ rest)%list -> length rest < length args ->
      first_step args v ws (parse number t rest (set_all v l) (ws ++ word i)).
  Lemma step_quiet args v ws i l rest : word i = [] -> means number t i l -> args = (spelled i ++ rest)%list -> length rest < length args -> first_step args v ws (parse number t rest (set_all v l) ws).
  Proof. intros W M E L. pose proof (step_item args v ws i l rest M E L) as H. now rewrite W, app_nil_r in H. Qed.
  Lemma parse_first args v ws : first_step args v ws (parse number t args v ws).
  Proof.
    destruct args as [|a rest]; [cbn; rewrite <- (app_nil_r ws) at 2; apply step_end; now left|].
    destruct (String.eqb a "--") eqn:E1; [apply String.eqb_eq in E1; subst a; cbn [parse String.eqb]; apply step_end; now right|].
    destruct (py_startswith a "--") eqn:E2.
    - apply startswith_iff in E2 as [n ->]. assert (N : n <> "") by (intros ->; discriminate E1). rewrite parse_long by exact N.
      destruct (match_long t (fst (cut n))) as [o|] eqn:E; [|apply step_bad]. apply match_long_iff in E. destruct (cut n) as [m [x|]] eqn:C; cbn [fst snd] in *.
      + apply cut_some in C as [-> F]. destruct (takes_value o); [|apply step_bad]. destruct (convert number o x) as [y|] eqn:T; [|apply step_bad]. apply convert_iff in T.
        apply (step_quiet _ v ws (LongIs m x) [(dest o, y)] rest); [reflexivity|now apply (means_long_is _ _ m x o y)|reflexivity|cbn; lia].
      + apply cut_none in C as [-> F]. destruct (takes_value o) eqn:TV.
        * destruct rest as [|x rest]; [apply step_bad|]. destruct (convert number o x) as [y|] eqn:T; [|apply step_bad]. apply convert_iff in T.
          apply (step_quiet _ v ws (LongNext m x) [(dest o, y)] rest); [reflexivity|now apply (means_long_next _ _ m x o y)|reflexivity|cbn; lia].
        * destruct (shows o) eqn:W.
          -- apply step_shown. exists ("--" ++ m), rest, o. split; [reflexivity|]. split; [exact W|]. left. exists m. split; [exact N|]. split; [exact F|]. now split.
          -- apply (step_quiet _ v ws (Long m) [(dest o, VBool true)] rest); [reflexivity|now apply (means_long _ _ m o N F E), flag_if|reflexivity|cbn; lia].
    - destruct (py_startswith a "-" && negb (String.eqb a "-")) eqn:E3.
      + apply andb_true_iff in E3 as [E3 E4]. apply startswith_iff in E3 as [cs ->]. apply negb_true_iff, String.eqb_neq in E4. destruct cs as [|c cs]; [now destruct E4|].
        assert (D : c <> "-"%char) by (intros ->; destruct cs; discriminate E2). rewrite parse_short by exact D.
        pose proof (short_ways (String c cs) v) as H. remember (short_opts number t (String c cs) v) as r0 eqn:R0. clear R0. destruct H as [|l F|fs l c' x o' y Ec F A N Tk|fs l c' o' Ec F A Tk|fs l c' r o' Ec F A Tk].
        * apply step_bad.
        * apply (step_quiet _ v ws (Short (String c cs)) l rest); [reflexivity|now apply means_short|reflexivity|cbn; lia].
        * apply (step_quiet _ v ws (ShortIs fs c' x) (l ++ [(dest o', y)]) rest); [reflexivity|now apply means_short_is|cbn [spelled app]; now rewrite Ec|cbn; lia].
        * destruct rest as [|x rest]; [apply step_bad|]. destruct (convert number o' x) as [y|] eqn:T; [|apply step_bad]. apply convert_iff in T.
          replace (<[dest o':=y]> (set_all v l)) with (set_all v (l ++ [(dest o', y)])) by apply set_all_app. apply (step_quiet _ v ws (ShortNext fs c' x) (l ++ [(dest o', y)]) rest); [reflexivity|now apply means_short_next|cbn [spelled app]; now rewrite Ec|cbn; lia].
        * apply step_shown. exists ("-" ++ String c cs), rest, o'. split; [reflexivity|]. split; [exact Tk|]. right. exists fs, c', r, l. now rewrite Ec.
      + assert (B : bare a) by now apply bare_iff. cbn [parse]. rewrite E1, E2, E3. apply (step_item _ v ws (Word a) [] rest); [now constructor|reflexivity|cbn; lia].
  Qed.

  Lemma parse_end rest tail v ws : closing rest tail -> parse number t rest v ws = Parsed v (ws ++ tail).
  Proof. intros [[-> ->]| ->]; cbn; [now rewrite app_nil_r|reflexivity]. Qed.
  Lemma parse_asks args v ws : asks t args -> parse number t args v ws = Shown.
  Proof.
    intros (w & rest & o & -> & W & [(n & N & F & -> & C)|(fs & c & r & l & -> & F & A)]).
    - rewrite parse_long by exact N. rewrite (proj2 (cut_none n n) (conj eq_refl F)). cbn [fst snd]. now rewrite (proj2 (match_long_iff n o) C), (shows_wants o W), W.
    - destruct (flags_head fs l c r F eq_refl (ex_intro _ o A)) as (c' & r' & E & D). rewrite E, parse_short by exact D. rewrite <- E, (short_flags fs l _ v F). cbn [short_opts]. now rewrite (proj2 (match_short_iff c o) A), (shows_wants o W), W.
  Qed.

  Theorem parse_exact args v v' ws : parse number t args v [] = Parsed v' ws <->
    exists is tail l, says number t args is tail l /\ v' = set_all v l /\ ws = (concat (map word is) ++ tail)%list.
  Proof.
    split.
    - assert (G : forall n args v acc, length args <= n -> parse number t args v acc = Parsed v' ws ->
        exists is tail l, says number t args is tail l /\ v' = set_all v l /\ ws = (acc ++ concat (map word is) ++ tail)%list).
      { intros n. induction n as [n IH] using lt_wf_ind. intros args0 v0 acc Ln E. pose proof (parse_first args0 v0 acc) as H. rewrite E in H. inversion H as [K|A K|tail C K|i l rest M Ea Lt K].
        - exists [], tail, []. split; [split; [exists []; now split|exists args0; now split]|]. split; [now symmetry|now rewrite app_nil_l].
        - destruct (IH (length rest) ltac:(lia) rest (set_all v0 l) (acc ++ word i)%list (le_n _) K) as (is & tail & l' & [[ls [Fs ->]] (rest' & Er & C)] & Ev & Ew).
          exists (i :: is), tail, (l ++ concat ls)%list. split; [split|].
          + exists (l :: ls). split; [now constructor|reflexivity].
          + exists rest'. split; [|exact C]. cbn [map concat]. now rewrite Ea, Er, app_assoc.
          + split; [now rewrite set_all_app|]. rewrite Ew. cbn [map concat]. now rewrite <- !app_assoc. }
      intros E. exact (G (length args) args v [] (le_n _) E).
    - intros (is & tail & l & [[ls [Fs ->]] (rest & -> & C)] & -> & ->). rewrite (parse_items is ls rest v [] Fs). now apply parse_end.
  Qed.
  Theorem parse_shown args v : parse number t args v [] = Shown <->
    exists is l rest, meaning number t is l /\ args = (concat (map spelled is) ++ rest)%list /\ asks t rest.
  Proof.
    split.
    - assert (G : forall n args v acc, length args <= n -> parse number t args v acc = Shown ->
        exists is l rest, meaning number t is l /\ args = (concat (map spelled is) ++ rest)%list /\ asks t rest).
      { intros n. induction n as [n IH] using lt_wf_ind. intros args0 v0 acc Ln E. pose proof (parse_first args0 v0 acc) as H. rewrite E in H. inversion H as [K|A K|tail C K|i l rest M Ea Lt K].
        - exists [], [], args0. split; [exists []; now split|now split].
        - destruct (IH (length rest) ltac:(lia) rest (set_all v0 l) (acc ++ word i)%list (le_n _) K) as (is & l' & rest' & [ls [Fs ->]] & Er & A).
          exists (i :: is), (l ++ concat ls)%list, rest'. split; [exists (l :: ls); split; [now constructor|reflexivity]|]. split; [cbn [map concat]; now rewrite Ea, Er, app_assoc|exact A]. }
      intros E. exact (G (length args) args v [] (le_n _) E).
    - intros (is & l & rest & [ls [Fs ->]] & -> & A). rewrite (parse_items is ls rest v [] Fs). now apply parse_asks.
  Qed.
End table.
