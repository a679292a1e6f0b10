(** * Reading the configuration file *)
From Coq Require Import String Ascii ZArith List Bool Lia.
From stdpp Require Import gmap strings.
From Verif Require Import Model.Py Model.Path Model.Search Model.Config Model.Fs Spec.PathSpec Spec.FsSpec Spec.VersionSpec Spec.ConfigSpec Proof.PyFacts Proof.PathFacts Proof.VersionSyntax Proof.FsFacts.
Import ListNotations.
Open Scope string_scope.
Notation los := list_ascii_of_string.

(** ** Texts *)
Lemma los_app_ a b : los (a ++ b) = (los a ++ los b)%list.
Proof. induction a as [|c a IH]; [reflexivity|]. change (String c a ++ b) with (String c (a ++ b)). cbn. now rewrite IH. Qed.
Lemma spaces_ws s : spaces s -> List.Forall (fun c => char_in c whitespace_chars = true) (los s).
Proof. intros H. apply List.Forall_forall. intros c I. rewrite is_space_ws. now apply H. Qed.
Lemma lstrip_spaces s t : spaces s -> py_lstrip whitespace_chars (s ++ t) = py_lstrip whitespace_chars t.
Proof. intros H. apply lstrip_app_in. now apply spaces_ws. Qed.
Lemma rstrip_spaces s t : spaces s -> py_rstrip whitespace_chars (t ++ s) = py_rstrip whitespace_chars t.
Proof. intros H. apply rstrip_app_in. now apply spaces_ws. Qed.
Lemma lstrip_tight s t : tight s -> s <> "" -> py_lstrip whitespace_chars (s ++ t) = s ++ t.
Proof. intros [H _] N. destruct s as [|c s]; [congruence|]. change (String c s ++ t) with (String c (s ++ t)). apply lstrip_stop. rewrite is_space_ws. now apply (H c s). Qed.
Lemma rstrip_tight s : tight s -> py_rstrip whitespace_chars s = s.
Proof. intros [_ H]. destruct (str_snoc_cases s) as [->|(r & a & ->)]; [reflexivity|]. apply PyFacts.rstrip_stop. rewrite is_space_ws. now apply (H r a). Qed.
Lemma spaces_nil s : spaces s -> py_lstrip whitespace_chars s = "".
Proof. intros H. rewrite <- (str_app_nil_r s), lstrip_spaces by exact H. reflexivity. Qed.
Lemma strip_value a v e : spaces a -> spaces e -> tight v -> py_strip (a ++ v ++ e) = v.
Proof.
  intros A E T. unfold py_strip. rewrite lstrip_spaces by exact A. destruct v as [|c v].
  - change ("" ++ e) with e. rewrite (spaces_nil e E). reflexivity.
  - rewrite lstrip_tight by (exact T || discriminate). rewrite rstrip_spaces by exact E. now apply rstrip_tight.
Qed.
Lemma until_app stop s t : (forall c, In c (los s) -> stop c = false) -> until stop (s ++ t) = s ++ until stop t.
Proof. induction s as [|c s IH]; intros H; [reflexivity|]. change (String c s ++ t) with (String c (s ++ t)). cbn [until]. rewrite (H c) by now left. rewrite IH by (intros d I; apply H; now right). reflexivity. Qed.
Lemma until_free stop s : (forall c, In c (los s) -> stop c = false) -> until stop s = s.
Proof. intros H. rewrite <- (str_app_nil_r s) at 1. rewrite until_app by exact H. cbn. apply str_app_nil_r. Qed.
Lemma until_stop stop s c t : (forall d, In d (los s) -> stop d = false) -> stop c = true -> until stop (s ++ String c t) = s.
Proof. intros H K. rewrite until_app by exact H. cbn. rewrite K. apply str_app_nil_r. Qed.
Lemma drop_after s c t : py_drop (S (String.length s)) (s ++ String c t) = t.
Proof. induction s as [|d s IH]; [now destruct t|]. exact IH. Qed.
Lemma space_no_sign c : is_space c = true -> is_sign c = false.
Proof. destruct c as [[] [] [] [] [] [] [] []]; vm_compute; congruence. Qed.
Lemma space_no_semi c : is_space c = true -> is_semicolon c = false.
Proof. destruct c as [[] [] [] [] [] [] [] []]; vm_compute; congruence. Qed.
Lemma longer s c t : s <> s ++ String c t.
Proof. intros H. apply (f_equal String.length) in H. rewrite str_app_length in H. cbn in H. lia. Qed.
Lemma eqb_longer s c t : String.eqb s (s ++ String c t) = false.
Proof. apply String.eqb_neq, longer. Qed.

(** ** Lines *)
Lemma blank_ignored s : spaces s -> ignored_line s = true.
Proof. intros H. unfold ignored_line, py_strip. rewrite (spaces_nil s H). reflexivity. Qed.
Lemma comment_ignored c r : c = "#"%char \/ c = ";"%char -> ignored_line (String c r) = true.
Proof. intros [->| ->]; unfold ignored_line; cbn; now rewrite orb_true_r. Qed.
Lemma strip_not_empty c r : is_space c = false -> String.eqb (py_strip (String c r)) "" = false.
Proof.
  intros H. apply String.eqb_neq. unfold py_strip. rewrite lstrip_stop by now rewrite is_space_ws. unfold py_rstrip. intros K. apply (f_equal str_rev) in K. rewrite str_rev_involutive in K.
  change (str_rev "") with "" in K. change (String c r) with (String c "" ++ r) in K. rewrite str_rev_app_distr in K. change (str_rev (String c "")) with (String c "") in K.
  assert (G : forall s, py_lstrip whitespace_chars (s ++ String c "") <> "").
  { clear -H. induction s as [|d s IH]; [change ("" ++ String c "") with (String c ""); rewrite lstrip_stop by (now rewrite is_space_ws); discriminate|]. change (String d s ++ String c "") with (String d (s ++ String c "")). cbn [py_lstrip]. destruct (char_in d whitespace_chars); [exact IH|discriminate]. }
  exact (G _ K).
Qed.
Lemma lower_app s t : py_lower (s ++ t) = py_lower s ++ py_lower t.
Proof. unfold py_lower. induction s as [|c s IH]; [reflexivity|]. change (String c s ++ t) with (String c (s ++ t)). cbn [str_map]. now rewrite IH. Qed.
Lemma lower_len s : String.length (py_lower s) = String.length s.
Proof. unfold py_lower. induction s as [|c s IH]; [reflexivity|]. cbn. now rewrite IH. Qed.
Lemma until_prefix stop s : exists t, s = until stop s ++ t /\ (forall c r, t = String c r -> stop c = true).
Proof.
  induction s as [|c s (t & E & H)]; [exists ""; split; [reflexivity|discriminate]|]. cbn [until]. destruct (stop c) eqn:K.
  - exists (String c s). split; [reflexivity|]. now intros d r [= -> ->].
  - exists t. split; [change (String c (until stop s) ++ t) with (String c (until stop s ++ t)); now rewrite <- E|exact H].
Qed.
Lemma lower_space c : is_space c = true -> lower_char c = c.
Proof. destruct c as [[] [] [] [] [] [] [] []]; vm_compute; congruence. Qed.
Lemma char_in_app c s t : char_in c (s ++ String c t) = true.
Proof.
  induction s as [|d s IH].
  - change ("" ++ String c t) with (String c t). unfold char_in. cbn [list_ascii_of_string existsb]. now rewrite Ascii.eqb_refl.
  - change (String d s ++ String c t) with (String d (s ++ String c t)). unfold char_in in *. cbn [list_ascii_of_string existsb]. rewrite IH. apply orb_true_r.
Qed.
Lemma until_chars stop s c : In c (los (until stop s)) -> stop c = false.
Proof. induction s as [|d s IH]; [intros []|]. cbn [until]. destruct (stop d) eqn:Ed; [intros []|]. intros [<-|I]; [exact Ed|now apply IH]. Qed.
(** A line that begins with a good key is no remark *)
Lemma key_no_remark key b sign rest : good_key key -> spaces b -> sign = ":"%char \/ sign = "="%char ->
  String.eqb (py_lower (first_word (key ++ b ++ String sign rest))) "rem" = false.
Proof.
  intros (N & T & _ & _ & R & _) B S. apply String.eqb_neq. intros K. apply R. unfold first_word in K. rewrite lstrip_tight in K by assumption.
  destruct (until_prefix is_space key) as (t & E & H). destruct t as [|c t].
  - rewrite str_app_nil_r in E. assert (F : forall d, In d (los key) -> is_space d = false).
    { rewrite E. clear. induction key as [|d key IH]; intros c; [intros []|]. cbn [until]. destruct (is_space d) eqn:Ed; [intros []|]. intros [<-|I]; [exact Ed|now apply IH]. }
    rewrite until_app in K by exact F. destruct b as [|c b].
    + change ("" ++ String sign rest) with (String sign rest) in K. assert (Is : is_space sign = false) by (destruct S as [->| ->]; reflexivity). cbn [until] in K. rewrite Is in K.
      exfalso. rewrite lower_app in K. apply (f_equal str_rev) in K. rewrite lower_app in K || idtac.
      change (py_lower (String sign (until is_space rest))) with (String (lower_char sign) (py_lower (until is_space rest))) in K.
      apply (f_equal str_rev) in K. rewrite !str_rev_involutive in K.
      assert (G : char_in (lower_char sign) "rem" = true).
      { rewrite <- K. apply char_in_app. }
      destruct S as [->| ->]; discriminate G.
    + change (String c b ++ String sign rest) with (String c (b ++ String sign rest)) in K. cbn [until] in K. rewrite (B c) in K by now left. rewrite str_app_nil_r in K.
      exists "". split; [now rewrite K|discriminate].
  - rewrite E in K. rewrite str_app_assoc in K. change (String c t ++ b ++ String sign rest) with (String c (t ++ b ++ String sign rest)) in K.
    rewrite until_stop in K; [|intros d I; revert I|now apply (H c t)].
    + exists (py_lower (String c t)). split; [rewrite E at 1; now rewrite lower_app, K|]. intros d r' Ed. change (py_lower (String c t)) with (String (lower_char c) (py_lower t)) in Ed. injection Ed as <- _.
      rewrite lower_space by now apply (H c t). now apply (H c t).
    + clear. induction key as [|x key IH]; [intros []|]. cbn [until]. destruct (is_space x) eqn:Ex; [intros []|]. intros [<-|I]; [exact Ex|now apply IH].
Qed.

Lemma header_read name rest : name <> "" -> free_of "]" name -> ignored_line ("[" ++ name ++ "]" ++ rest) = false /\ head_is is_space ("[" ++ name ++ "]" ++ rest) = false /\ header_of ("[" ++ name ++ "]" ++ rest) = Some name.
Proof.
  intros N F. change ("[" ++ name ++ "]" ++ rest) with (String "[" (name ++ String "]" rest)). split; [|split].
  - unfold ignored_line. rewrite strip_not_empty by reflexivity. cbn. apply andb_false_r.
  - reflexivity.
  - cbn [header_of]. rewrite Ascii.eqb_refl. rewrite until_stop; [|intros d I; unfold is_close; destruct (Ascii.eqb_spec d "]"); [subst; contradiction|reflexivity]|reflexivity].
    rewrite (proj2 (String.eqb_neq _ _) N), eqb_longer. reflexivity.
Qed.

Lemma key_head key : good_key key -> exists c r, key = String c r /\ is_space c = false /\ is_sign c = false /\ c <> "#"%char /\ c <> ";"%char /\ c <> "["%char.
Proof.
  intros (N & T & F1 & F2 & _ & H). destruct key as [|c r]; [congruence|]. exists c, r. split; [reflexivity|]. split; [now apply (proj1 T c r)|]. split.
  - unfold is_sign. destruct (Ascii.eqb_spec c ":"); [subst; elim F1; now left|]. destruct (Ascii.eqb_spec c "="); [subst; elim F2; now left|]. reflexivity.
  - specialize (H c r eq_refl). cbn in H. repeat split; intros ->; apply H; tauto.
Qed.
Lemma entry_line key b sign rest : good_key key -> spaces b -> sign = ":"%char \/ sign = "="%char ->
  let line := key ++ b ++ String sign rest in
  ignored_line line = false /\ head_is is_space line = false /\ header_of line = None /\
  option_of line = Some (py_lower key, let optval := py_strip (cut_comment (py_lstrip whitespace_chars rest)) in if String.eqb optval """""" then "" else optval).
Proof.
  intros G B Sg line. destruct (key_head key G) as (c & r & E & H1 & H2 & H3 & H4 & H5). pose proof (key_no_remark key b sign rest G B Sg) as R. fold line in R.
  assert (L : line = String c (r ++ b ++ String sign rest)) by (unfold line; now rewrite E). split; [|split; [|split]].
  - unfold ignored_line. rewrite R, L, strip_not_empty by exact H1. cbn [head_is orb andb]. rewrite (proj2 (Ascii.eqb_neq _ _) H3), (proj2 (Ascii.eqb_neq _ _) H4). reflexivity.
  - rewrite L. exact H1.
  - rewrite L. cbn [header_of]. now rewrite (proj2 (Ascii.eqb_neq _ _) H5).
  - unfold option_of. replace (head_is (fun c => is_sign c || is_space c) line) with false by (rewrite L; cbn [head_is]; now rewrite H1, H2).
    assert (Fk : forall d, In d (los (key ++ b)) -> is_sign d = false).
    { intros d I. rewrite los_app_ in I. apply in_app_iff in I as [I|I].
      - destruct G as (_ & _ & F1 & F2 & _). unfold is_sign. destruct (Ascii.eqb_spec d ":"); [subst; contradiction|]. destruct (Ascii.eqb_spec d "="); [subst; contradiction|]. reflexivity.
      - apply space_no_sign. now apply B. }
    assert (U : until is_sign line = key ++ b) by (unfold line; rewrite <- str_app_assoc; apply until_stop; [exact Fk|destruct Sg as [->| ->]; reflexivity]).
    rewrite U. replace (String.eqb (key ++ b) "") with false by (rewrite E; reflexivity).
    replace (String.eqb (key ++ b) line) with false by (unfold line; rewrite <- str_app_assoc; now rewrite eqb_longer).
    cbn [orb]. replace (py_drop (S (String.length (key ++ b))) line) with rest by (unfold line; rewrite <- str_app_assoc; now rewrite drop_after).
    rewrite rstrip_spaces by exact B. rewrite rstrip_tight by apply G. reflexivity.
Qed.
Lemma value_read a value e : spaces a -> good_value value -> spaces e -> (let optval := py_strip (cut_comment (py_lstrip whitespace_chars (a ++ value ++ e))) in if String.eqb optval """""" then "" else optval) = value.
Proof.
  intros A (T & F & Q) E. cbv zeta. rewrite lstrip_spaces by exact A.
  assert (K : py_strip (cut_comment (py_lstrip whitespace_chars (value ++ e))) = value).
  { destruct value as [|c v]; [change ("" ++ e) with e; rewrite spaces_nil by exact E; reflexivity|]. rewrite lstrip_tight by (exact T || discriminate).
    assert (K : cut_comment (String c v ++ e) = String c v ++ e).
    { set (w := String c v) in *. unfold cut_comment. destruct (until_prefix is_semicolon w) as (t & Ew & Ht). destruct t as [|d t].
      - rewrite until_free, String.eqb_refl; [reflexivity|]. intros d I. rewrite los_app_ in I. apply in_app_iff in I as [I|I]; [|now apply space_no_semi, E].
        rewrite str_app_nil_r in Ew. rewrite Ew in I. now apply until_chars in I.
      - pose proof (Ht d t eq_refl) as Hd. unfold is_semicolon in Hd. apply Ascii.eqb_eq in Hd as ->. set (a0 := until is_semicolon w) in *.
        assert (Fa : forall d, In d (los a0) -> is_semicolon d = false) by (intros d I; now apply until_chars in I).
        assert (Fa' : free_of ";" a0) by (intros I; apply Fa in I; discriminate I).
        destruct (F a0 t Ew Fa') as (r & x & Ea & Hx). rewrite Ew, str_app_assoc. change (String ";" t ++ e) with (String ";" (t ++ e)).
        rewrite until_stop by (exact Fa || reflexivity). rewrite eqb_longer. replace (String.eqb a0 "") with false by (rewrite Ea; now destruct r).
        replace (last_is is_space a0) with false; [reflexivity|]. unfold last_is. rewrite Ea, str_rev_app_distr. symmetry. exact Hx. }
    rewrite K. exact (strip_value "" (String c v) e (fun c I => match I with end) E T). }
  rewrite K. now rewrite (proj2 (String.eqb_neq _ _) Q).
Qed.
Lemma value_read_comment a value e rest : spaces a -> good_value value -> free_of ";" value -> value <> "" -> spaces e -> e <> "" ->
  (let optval := py_strip (cut_comment (py_lstrip whitespace_chars (a ++ value ++ e ++ ";" ++ rest))) in if String.eqb optval """""" then "" else optval) = value.
Proof.
  intros A (T & _ & Q) F N E Ne. cbv zeta. rewrite lstrip_spaces by exact A. rewrite lstrip_tight by assumption.
  change (";" ++ rest) with (String ";" rest). unfold cut_comment.
  replace (value ++ e ++ String ";" rest) with ((value ++ e) ++ String ";" rest) by now rewrite str_app_assoc.
  rewrite until_stop; [|intros d I; rewrite los_app_ in I; apply in_app_iff in I as [I|I]; [unfold is_semicolon; destruct (Ascii.eqb_spec d ";"); [subst; contradiction|reflexivity]|now apply space_no_semi, E]|reflexivity].
  rewrite eqb_longer. replace (String.eqb (value ++ e) "") with false by (destruct value; [congruence|reflexivity]).
  replace (last_is is_space (value ++ e)) with true.
  - change (value ++ e) with ("" ++ value ++ e). rewrite (strip_value "" value e (fun c I => match I with end) E T). now rewrite (proj2 (String.eqb_neq _ _) Q).
  - symmetry. unfold last_is. destruct (str_snoc_cases e) as [->|(r & c & ->)]; [congruence|]. rewrite <- str_app_assoc, str_rev_app_distr. cbn. apply E. rewrite los_app_, in_app_iff. right. now left.
Qed.

(** ** The last value given *)
Lemma list_snoc_cases {A} (l : list A) : l = [] \/ exists r z, l = (r ++ [z])%list.
Proof. destruct l as [|x l] using rev_ind; [now left|right; now exists l, x]. Qed.
Lemma under_snoc items i s : under (items ++ [i])%list s <-> i = Section_ s \/ (under items s /\ forall s', i <> Section_ s').
Proof.
  split.
  - intros (a & b & E & H). destruct (list_snoc_cases b) as [->|(b' & z & ->)].
    + apply app_inj_tail in E as [-> ->]. now left.
    + rewrite app_comm_cons, app_assoc in E. apply app_inj_tail in E as [-> ->]. right. split.
      * exists a, b'. split; [reflexivity|]. intros s' I. apply (H s'), in_app_iff. now left.
      * intros s' ->. apply (H s'), in_app_iff. right. now left.
  - intros [->|((a & b & -> & H) & N)].
    + exists items, []. split; [reflexivity|]. intros s' [].
    + exists a, (b ++ [i])%list. split; [now rewrite <- app_assoc|]. intros s' I. apply in_app_iff in I as [I|[->|[]]]; [exact (H s' I)|exact (N s' eq_refl)].
Qed.

Definition sets (i : item) (items : list item) (sect key value : string) : Prop := exists k, i = Assign k value /\ py_lower k = key /\ under items sect.
Lemma final_snoc items i sect key v : final (items ++ [i])%list sect key v <->
  sets i items sect key v \/ (final items sect key v /\ forall v', ~ sets i items sect key v').
Proof.
  split.
  - intros (before & k & after & E & L & U & M). destruct (list_snoc_cases after) as [->|(after' & z & ->)].
    + apply app_inj_tail in E as [-> ->]. left. now exists k.
    + pose proof E as E0. rewrite app_comm_cons, app_assoc in E. apply app_inj_tail in E as [-> ->]. right. split.
      * exists before, k, after'. repeat split; try assumption. intros b' k' v' a' E' L' U'. apply (M b' k' v' (a' ++ [z])%list); try assumption. now rewrite E', <- app_assoc.
      * intros v' (k' & -> & L' & U'). specialize (M _ k' v' [] eq_refl L' U'). rewrite app_length in M. cbn in M. lia.
  - intros [(k & -> & L & U)|((before & k & after & -> & L & U & M) & N)].
    + exists items, k, []. repeat split; try assumption. intros b' k' v' a' E' _ _. apply (f_equal length) in E'. rewrite !app_length in E'. cbn in E'. lia.
    + exists before, k, (after ++ [i])%list. split; [now rewrite <- app_assoc|]. repeat split; try assumption. intros b' k' v' a' E' L' U'. destruct (list_snoc_cases a') as [->|(a2 & z & ->)].
      * rewrite app_comm_cons, app_assoc in E' || idtac. apply app_inj_tail in E' as [<- ->]. elim (N v'). now exists k'.
      * rewrite (app_comm_cons a2), app_assoc in E'. apply app_inj_tail in E' as [E' ->]. now apply (M b' k' v' a2).
Qed.
Lemma under_fun items s s' : under items s -> under items s' -> s = s'.
Proof.
  revert s s'. induction items as [|i items IH] using rev_ind; intros s s' H K.
  - destruct H as (a & b & E & _). now destruct a.
  - apply under_snoc in H as [->|[H N]]; apply under_snoc in K as [E|[K N']]; [congruence|now elim (N' s)|now elim (N s')|now apply IH].
Qed.
Lemma under_some items s : In (Section_ s) items -> exists s', under items s'.
Proof.
  induction items as [|i items IH] using rev_ind; [intros []|]. intros I. destruct i as [|n|k v].
  - apply in_app_iff in I as [I|[E|[]]]; [|discriminate]. destruct (IH I) as [s' U]. exists s'. apply under_snoc. right. split; [exact U|discriminate].
  - exists n. apply under_snoc. now left.
  - apply in_app_iff in I as [I|[E|[]]]; [|discriminate]. destruct (IH I) as [s' U]. exists s'. apply under_snoc. right. split; [exact U|discriminate].
Qed.
Lemma under_in items s : under items s -> In (Section_ s) items.
Proof. intros (a & b & -> & _). apply in_app_iff. right. now left. Qed.

Definition Inv (items : list item) (p : parser) : Prop :=
  p_bad p = false /\ (forall s, p_cur p = Some s <-> under items s) /\
  (forall s, s <> DEFAULT -> (exists d, p_sections p !! s = Some d) <-> In (Section_ s) items) /\
  (forall s k v, s <> DEFAULT -> (exists d, p_sections p !! s = Some d /\ d !! k = Some v) <-> final items s k v) /\
  (forall k v, p_defaults p !! k = Some v <-> final items DEFAULT k v).
Lemma inv_skip items i p : (forall s, i <> Section_ s) -> (forall k v, i <> Assign k v) -> Inv items p -> Inv (items ++ [i])%list p.
Proof.
  intros N1 N2 (B & C & S1 & S2 & D). split; [exact B|]. split; [|split; [|split]].
  - intros s. rewrite (C s), under_snoc. split; [now right|]. intros [E|[U _]]; [now elim (N1 s)|exact U].
  - intros s Hs. rewrite (S1 s Hs), in_app_iff. split; [now left|]. intros [I|[E|[]]]; [exact I|now elim (N1 s)].
  - intros s k v Hs. rewrite (S2 s k v Hs), final_snoc. split; [intros F; right; split; [exact F|]|].
    + intros v' (k' & E & _). now elim (N2 k' v').
    + intros [(k' & E & _)|[F _]]; [now elim (N2 k' v)|exact F].
  - intros k v. rewrite (D k v), final_snoc. split; [intros F; right; split; [exact F|]|].
    + intros v' (k' & E & _). now elim (N2 k' v').
    + intros [(k' & E & _)|[F _]]; [now elim (N2 k' v)|exact F].
Qed.
Lemma final_section items n s k v : final (items ++ [Section_ n])%list s k v <-> final items s k v.
Proof. rewrite final_snoc. split; [intros [(k' & E & _)|[F _]]; [discriminate|exact F]|]. intros F. right. split; [exact F|]. intros v' (k' & E & _). discriminate. Qed.
Lemma final_in items s k v : final items s k v -> In (Section_ s) items.
Proof. intros (b & k' & a & -> & _ & U & _). apply in_app_iff. left. now apply under_in. Qed.
Lemma inv_section items n p : Inv items p ->
  Inv (items ++ [Section_ n])%list (mkParser (if String.eqb n DEFAULT then p_sections p else match p_sections p !! n with Some _ => p_sections p | None => <[ n := ∅ ]> (p_sections p) end)
    (p_defaults p) (Some n) None (p_bad p)).
Proof.
  intros (B & C & S1 & S2 & D). unfold Inv. cbn [p_bad p_cur p_sections p_defaults]. split; [exact B|]. split; [|split; [|split]].
  - intros s. rewrite under_snoc. split; [intros [= ->]; now left|]. intros [[= ->]|[_ N]]; [reflexivity|now elim (N n)].
  - intros s Hs. rewrite in_app_iff. destruct (String.eqb_spec n DEFAULT) as [->|Hn].
    + rewrite (S1 s Hs). split; [now left|]. intros [I|[[= E]|[]]]; [exact I|now elim Hs].
    + destruct (p_sections p !! n) as [d|] eqn:En.
      * rewrite (S1 s Hs). split; [now left|]. intros [I|[[= <-]|[]]]; [exact I|apply (S1 n Hn); now exists d].
      * destruct (decide (n = s)) as [<-|Ns]; [rewrite lookup_insert; split; [intros _; right; now left|intros _; now exists ∅]|].
        rewrite lookup_insert_ne, (S1 s Hs) by exact Ns. split; [now left|]. intros [I|[[= <-]|[]]]; [exact I|congruence].
  - intros s k v Hs. rewrite final_section, <- (S2 s k v Hs). destruct (String.eqb_spec n DEFAULT) as [->|Hn]; [reflexivity|].
    destruct (p_sections p !! n) as [d|] eqn:En; [reflexivity|]. destruct (decide (n = s)) as [<-|Ns]; [|now rewrite lookup_insert_ne].
    rewrite lookup_insert. split; [intros (d & [= <-] & L); now rewrite lookup_empty in L|]. intros (d & L & _). congruence.
  - intros k v. now rewrite final_section.
Qed.
Lemma final_assign items sect key value s k v : under items sect ->
  final (items ++ [Assign key value])%list s k v <-> (s = sect /\ py_lower key = k /\ v = value) \/ (final items s k v /\ ~ (s = sect /\ py_lower key = k)).
Proof.
  intros U. rewrite final_snoc. split.
  - intros [(k' & [= <- <-] & L & U')|[F N]]; [left; repeat split; try assumption; now apply (under_fun items)|]. right. split; [exact F|]. intros [-> L]. apply (N value). exists key. repeat split; assumption.
  - intros [(-> & L & ->)|[F N]]; [left; exists key; repeat split; assumption|]. right. split; [exact F|]. intros v' (k' & [= <- <-] & L & U'). apply N. split; [now apply (under_fun items)|exact L].
Qed.
Lemma inv_assign items sect key value p : under items sect -> Inv items p ->
  Inv (items ++ [Assign key value])%list (assign_option p sect (py_lower key) value (p_bad p)).
Proof.
  intros U (B & C & S1 & S2 & D). set (q := assign_option p sect (py_lower key) value (p_bad p)).
  assert (Eb : p_bad q = false) by (unfold q, assign_option; destruct (String.eqb sect DEFAULT); exact B).
  assert (Ec : p_cur q = Some sect) by (unfold q, assign_option; destruct (String.eqb sect DEFAULT); reflexivity).
  split; [exact Eb|]. split; [|split; [|split]].
  - intros s. rewrite Ec, under_snoc. split; [intros [= ->]; right; split; [exact U|discriminate]|]. intros [E|[U' _]]; [discriminate|]. f_equal. now apply (under_fun items).
  - intros s Hs. rewrite in_app_iff. transitivity (In (Section_ s) items); [|split; [now left|]; intros [I|[E|[]]]; [exact I|discriminate]].
    unfold q, assign_option. destruct (String.eqb_spec sect DEFAULT) as [->|Hn]; cbn [p_sections]; [apply (S1 s Hs)|]. destruct (decide (sect = s)) as [<-|Ns]; [|rewrite lookup_insert_ne by exact Ns; apply (S1 s Hs)].
    rewrite lookup_insert. split; [intros _; now apply under_in|]. intros _. eexists. reflexivity.
  - intros s k v Hs. rewrite (final_assign items sect) by exact U. unfold q, assign_option. destruct (String.eqb_spec sect DEFAULT) as [->|Hn]; cbn [p_sections].
    + rewrite (S2 s k v Hs). split; [intros F; right; split; [exact F|]; intros [-> _]; now elim Hs|]. intros [(-> & _)|[F _]]; [now elim Hs|exact F].
    + destruct (decide (sect = s)) as [<-|Ns].
      * rewrite lookup_insert. assert (X : exists d0, p_sections p !! sect = Some d0) by (apply (S1 sect Hn); now apply under_in). destruct X as [d0 X]. rewrite X. cbn [default].
        change (id d0) with d0. split.
        -- intros (d & [= <-] & L). destruct (decide (py_lower key = k)) as [<-|Nk].
           ++ rewrite lookup_insert in L. injection L as <-. left. repeat split.
           ++ rewrite lookup_insert_ne in L by exact Nk. right. split; [apply (S2 sect k v Hn); now exists d0|]. intros [_ E]. contradiction.
        -- intros [(_ & <- & ->)|[F N]]; (eexists; split; [reflexivity|]); [apply lookup_insert|]. rewrite lookup_insert_ne by (intros E; apply N; now split).
           apply (S2 sect k v Hn) in F as (d & L & K). congruence.
      * rewrite lookup_insert_ne by exact Ns. rewrite (S2 s k v Hs). split; [intros F; right; split; [exact F|]; intros [-> _]; now elim Ns|]. intros [(-> & _)|[F _]]; [now elim Ns|exact F].
  - intros k v. rewrite (final_assign items sect) by exact U. unfold q, assign_option. destruct (String.eqb_spec sect DEFAULT) as [->|Hn]; cbn [p_defaults].
    + destruct (decide (py_lower key = k)) as [<-|Nk].
      * rewrite lookup_insert. split; [intros [= ->]; left; repeat split|]. intros [(_ & _ & ->)|[_ N]]; [reflexivity|elim N; now split].
      * rewrite lookup_insert_ne, (D k v) by exact Nk. split; [intros F; right; split; [exact F|]; intros [_ E]; contradiction|]. intros [(_ & E & _)|[F _]]; [contradiction|exact F].
    + rewrite (D k v). split; [intros F; right; split; [exact F|]; intros [E _]; congruence|]. intros [(E & _)|[F _]]; [congruence|exact F].
Qed.

Lemma line_step items line i p : reads_as line i -> (forall k v, i = Assign k v -> exists s, In (Section_ s) items) -> Inv items p ->
  exists q, read_line p line = Ok q /\ Inv (items ++ [i])%list q.
Proof.
  intros R H V. destruct R as [s Hs|c r Hc|name rest Nn Fn|key b sign a value e G Sb Hsign Sa Gv Se|key b sign a value e rest G Sb Hsign Sa Gv Fv Nv Se Ne].
  - exists p. unfold read_line. rewrite blank_ignored by exact Hs. split; [reflexivity|]. apply inv_skip; [discriminate|discriminate|exact V].
  - exists p. unfold read_line. rewrite comment_ignored by exact Hc. split; [reflexivity|]. apply inv_skip; [discriminate|discriminate|exact V].
  - unfold read_line. destruct (header_read name rest Nn Fn) as (A1 & A2 & A3). rewrite A1, A2, A3. eexists. split; [reflexivity|]. now apply inv_section.
  - destruct (H key value eq_refl) as [s Is]. destruct (under_some items s Is) as [sect U]. pose proof (proj2 (proj1 (proj2 V) sect) U) as Ec.
    destruct (entry_line key b sign (a ++ value ++ e) G Sb Hsign) as (A1 & A2 & A3 & A4). unfold read_line. rewrite A1, A2, A3, A4, Ec. rewrite value_read by assumption.
    eexists. split; [reflexivity|]. now apply inv_assign.
  - destruct (H key value eq_refl) as [s Is]. destruct (under_some items s Is) as [sect U]. pose proof (proj2 (proj1 (proj2 V) sect) U) as Ec.
    destruct (entry_line key b sign (a ++ value ++ e ++ ";" ++ rest) G Sb Hsign) as (A1 & A2 & A3 & A4). unfold read_line. rewrite A1, A2, A3, A4, Ec. rewrite value_read_comment by assumption.
    eexists. split; [reflexivity|]. now apply inv_assign.
Qed.

(** ** The file *)
Lemma inv_start : Inv [] (mkParser ∅ ∅ None None false).
Proof.
  assert (F : forall s k v, ~ final [] s k v) by (intros s k v (b & k' & a & E & _); now destruct b).
  split; [reflexivity|]. cbn. split; [|split; [|split]].
  - intros s. split; [discriminate|]. intros (a & b & E & _). now destruct a.
  - intros s _. split; [intros (d & L); now rewrite lookup_empty in L|intros []].
  - intros s k v _. split; [intros (d & L & _); now rewrite lookup_empty in L|]. intros H. now elim (F s k v).
  - intros k v. rewrite lookup_empty. split; [discriminate|]. intros H. now elim (F DEFAULT k v).
Qed.
Lemma foldM_snoc {A S} (f : S -> A -> res S) l x s : foldM f (l ++ [x])%list s = (t <- foldM f l s ;; f t x).
Proof. revert s. induction l as [|y l IH]; intros s; cbn; [now destruct (f s x)|]. destruct (f s y) as [t|e]; cbn; [apply IH|reflexivity]. Qed.
Lemma lines_read lines items : Forall2 reads_as lines items -> headed items ->
  exists p, foldM read_line lines (mkParser ∅ ∅ None None false) = Ok p /\ Inv items p.
Proof.
  revert items. induction lines as [|line lines IH] using rev_ind; intros items F H.
  - inversion F; subst. eexists. split; [reflexivity|apply inv_start].
  - apply Forall2_app_inv_l in F as (i1 & i2 & F1 & F2 & ->). apply Forall2_cons_inv_l in F2 as (i & i2' & R & F2 & ->). inversion F2; subst.
    destruct (IH i1 F1) as (p & Ep & V).
    { intros b k v a E. apply (H b k v (a ++ [i])%list). now rewrite E, <- app_assoc. }
    destruct (line_step i1 line i p R) as (q & Eq & W); [|exact V|].
    { intros k v ->. apply (H i1 k v []). reflexivity. }
    exists q. split; [|exact W]. rewrite foldM_snoc, Ep. exact Eq.
Qed.
Lemma final_fun items s k v v' : final items s k v -> final items s k v' -> v = v'.
Proof.
  intros (b & k1 & a & E & L & U & M) (b' & k1' & a' & E' & L' & U' & M'). specialize (M b' k1' v' a' E' L' U'). specialize (M' b k1 v a E L U).
  rewrite E in E'. assert (Q : b = b') by (clear -E' M M'; revert b' E' M M'; induction b as [|x b IH]; intros [|y b'] E' M M'; cbn in *; try lia; [reflexivity|]; injection E' as -> E'; f_equal; apply IH; [exact E'|lia|lia]).
  subst b'. apply app_inv_head in E'. congruence.
Qed.
Lemma parse_items lines items : Forall2 reads_as lines items -> headed items ->
  exists p, read_lines lines = Ok p /\ forall s k v, s <> "DEFAULT" -> k <> "__name__" -> items_of p s !! k = Some v <-> given items s k v.
Proof.
  intros F H. destruct (lines_read lines items F H) as (p & E & B & C & S1 & S2 & D). exists p. split; [unfold read_lines; rewrite E; cbn [bind]; now rewrite B|].
  intros s k v Hs Hk. unfold items_of, given. destruct (p_sections p !! s) as [d|] eqn:Es.
  - assert (I : In (Section_ s) items) by (apply (S1 s Hs); now exists d). rewrite lookup_delete_ne by congruence. rewrite lookup_union_Some_raw.
    assert (Q : forall v, d !! k = Some v <-> final items s k v).
    { intros w. rewrite <- (S2 s k w Hs). split; [intros L; now exists d|]. intros (d' & L & K). congruence. }
    rewrite Q. change (p_defaults p !! k = Some v) with (p_defaults p !! k = Some v). rewrite (D k v). split.
    + intros [X|[X Y]]; (split; [exact I|]); [now left|right]. split; [|exact Y]. intros w Hw. apply Q in Hw. congruence.
    + intros [_ [X|[X Y]]]; [now left|right]. split; [|exact Y]. destruct (d !! k) as [w|] eqn:Ed; [|reflexivity]. elim (X w). now apply Q.
  - rewrite lookup_empty. split; [discriminate|]. intros [I _]. apply (S1 s Hs) in I as (d & L). congruence.
Qed.
Lemma given_fun items s k v v' : given items s k v -> given items s k v' -> v = v'.
Proof. intros [_ [F|[N F]]] [_ [F'|[N' F']]]; [eapply final_fun; eassumption|now elim (N' v)|now elim (N v')|eapply final_fun; eassumption]. Qed.

(** ** Settings *)
Lemma setting_given env lines items p s k v : Forall2 reads_as lines items -> headed items -> read_lines lines = Ok p -> s <> "DEFAULT" -> k <> "__name__" ->
  given items s k v -> stands_for v (setting env p s k).
Proof.
  intros F H E Hs Hk G. destruct (parse_items lines items F H) as (q & E' & P). rewrite E in E'. injection E' as <-. apply P in G; try assumption. unfold setting. rewrite G.
  destruct (String.eqb_spec v "True") as [->|N1]; [constructor|]. destruct (String.eqb_spec v "False") as [->|N2]; constructor; assumption.
Qed.
Lemma setting_missing env lines items p s k : Forall2 reads_as lines items -> headed items -> read_lines lines = Ok p -> s <> "DEFAULT" -> k <> "__name__" ->
  (forall v, ~ given items s k v) -> setting env p s k = match attribute k (defaults_of env s) with Some v => v | None => CStr "" end.
Proof.
  intros F H E Hs Hk G. destruct (parse_items lines items F H) as (q & E' & P). rewrite E in E'. injection E' as <-. unfold setting. destruct (items_of p s !! k) as [v|] eqn:L; [|reflexivity]. elim (G v). now apply P.
Qed.
Lemma setting_standard env lines items p s k x : Forall2 reads_as lines items -> headed items -> read_lines lines = Ok p ->
  (forall v, ~ given items s k v) -> In (s, k, x) standard -> setting env p s k = x.
Proof.
  intros F H E G I. assert (X : s <> "DEFAULT" /\ k <> "__name__" /\ match attribute k (defaults_of env s) with Some v => v | None => CStr "" end = x).
  { clear -I. cbn in I. repeat (destruct I as [[= <- <- <-]|I]; [repeat split; discriminate|]). destruct I. }
  destruct X as (Hs & Hk & X). rewrite <- X. eapply setting_missing; eassumption.
Qed.
Lemma setting_environment env lines items p k var : Forall2 reads_as lines items -> headed items -> read_lines lines = Ok p ->
  (forall v, ~ given items "general" k v) -> In (k, var) [("http_proxy", "HTTP_PROXY"); ("https_proxy", "HTTPS_PROXY"); ("ftp_proxy", "FTP_PROXY")] ->
  (forall t, env var = Some t -> t <> "" -> setting env p "general" k = CStr t) /\ (env var = None \/ env var = Some "" -> setting env p "general" k = CNone).
Proof.
  intros F H E G I. assert (X : k <> "__name__" /\ match attribute k (defaults_of env "general") with Some v => v | None => CStr "" end = environment env var).
  { clear -I. cbn in I. repeat (destruct I as [[= <- <-]|I]; [split; [discriminate|reflexivity]|]). destruct I. }
  destruct X as (Hk & X). rewrite (setting_missing env lines items p "general" k F H E) by (assumption || discriminate). rewrite X. unfold environment. split.
  - intros t -> N. now rewrite (proj2 (String.eqb_neq _ _) N).
  - now intros [->| ->].
Qed.

(** ** Those who ask *)
Section consumers.
  Context (env : string -> option string) (lines : list string) (items : list item) (p : parser).
  Context (F : Forall2 reads_as lines items) (H : headed items) (E : read_lines lines = Ok p).
  Lemma given_or_not s k : s <> "DEFAULT" -> k <> "__name__" -> (exists v, given items s k v) \/ (forall v, ~ given items s k v).
  Proof.
    intros Hs Hk. destruct (parse_items lines items F H) as (q & E' & P). rewrite E in E'. injection E' as <-.
    destruct (items_of p s !! k) as [v|] eqn:L; [left; exists v; now apply P|]. right. intros v G. apply P in G; congruence.
  Qed.
  Lemma switch_iff s k : In (s, k) [("general", "xdelta"); ("build", "buildno"); ("build", "generatedebug")] ->
    switched_on (setting env p s k) = true <-> exists v, given items s k v /\ v <> "" /\ v <> "False".
  Proof.
    intros I. assert (X : s <> "DEFAULT" /\ k <> "__name__" /\ exists x, In (s, k, x) standard /\ truth x = false).
    { clear -I. cbn in I. destruct I as [[= <- <-]|[[= <- <-]|[[= <- <-]|[]]]]; (split; [discriminate|split; [discriminate|]]).
      - exists (CBool false). split; [cbn; tauto|reflexivity].
      - exists (CBool false). split; [cbn; tauto|reflexivity].
      - exists (CStr ""). split; [cbn; tauto|reflexivity]. }
    destruct X as (Hs & Hk & x & Ix & Tx). unfold switched_on. destruct (given_or_not s k Hs Hk) as [[v G]|N].
    - pose proof (setting_given env lines items p s k v F H E Hs Hk G) as St. assert (U : forall v', given items s k v' -> v' = v) by (intros v' G'; eapply given_fun; eassumption).
      inversion St as [Ev Et|Ev Et|t N1 N2 Ev Et]; subst; cbn [truth].
      + split; [intros _; exists "True"; split; [exact G|split; discriminate]|reflexivity].
      + split; [discriminate|]. intros (v' & G' & _ & K). elim K. now apply U.
      + split.
        * intros T. exists v. split; [exact G|split; [|exact N2]]. intros ->. discriminate T.
        * intros (v' & G' & K & _). apply U in G' as ->. now rewrite (proj2 (String.eqb_neq _ _) K).
    - rewrite (setting_standard env lines items p s k x F H E N Ix), Tx. split; [discriminate|]. intros (v & G & _). now elim (N v).
  Qed.
  Lemma autoclean_iff : autoclean (setting env p "general" "autoclean") = true <-> given items "general" "autoclean" "True".
  Proof.
    destruct (given_or_not "general" "autoclean" ltac:(discriminate) ltac:(discriminate)) as [[v G]|N].
    - pose proof (setting_given env lines items p "general" "autoclean" v F H E ltac:(discriminate) ltac:(discriminate) G) as St.
      assert (U : forall v', given items "general" "autoclean" v' -> v' = v) by (intros v' G'; eapply given_fun; eassumption).
      inversion St as [Ev Et|Ev Et|t N1 N2 Ev Et]; subst; cbn [autoclean].
      + split; [intros _; exact G|reflexivity].
      + split; [discriminate|]. intros G'. apply U in G'. discriminate.
      + split; [discriminate|]. intros G'. apply U in G'. congruence.
    - rewrite (setting_standard env lines items p "general" "autoclean" (CBool false) F H E N) by (cbn; tauto). split; [discriminate|]. intros G. now elim (N "True").
  Qed.
  Lemma lzma_missing : (forall v, ~ given items "build" "compressionlevel" v) -> lzma_command (setting env p "build" "compressionlevel") = Ok "lzma -z -7".
  Proof. intros N. rewrite (setting_standard env lines items p "build" "compressionlevel" (CInt 7) F H E N) by (cbn; tauto). reflexivity. Qed.
  Lemma lzma_given v : given items "build" "compressionlevel" v -> v <> "" -> v <> "True" -> v <> "False" ->
    lzma_command (setting env p "build" "compressionlevel") = Err EType.
  Proof.
    intros G N0 N1 N2. pose proof (setting_given env lines items p "build" "compressionlevel" v F H E ltac:(discriminate) ltac:(discriminate) G) as St.
    inversion St; subst; try congruence. unfold lzma_command. cbn [truth]. now rewrite (proj2 (String.eqb_neq _ _) N0).
  Qed.
  Lemma limit_option t n conf : number t n -> bandwidth_limit (CStr t) conf = Ok (1024 * n)%Z.
  Proof.
    intros D. unfold bandwidth_limit. cbn [truth]. apply py_int_iff in D. assert (N : t <> "") by (intros ->; discriminate D).
    rewrite (proj2 (String.eqb_neq _ _) N). cbn [negb truth]. rewrite (proj2 (String.eqb_neq _ _) N). cbn [negb andb]. destruct (String.eqb_spec t "0") as [->|K]; cbn [negb].
    - injection D as <-. reflexivity.
    - rewrite D. reflexivity.
  Qed.
  Lemma limit_conf opt conf : truth opt = false -> bandwidth_limit opt conf = bandwidth_limit conf conf.
  Proof. intros T. unfold bandwidth_limit. rewrite T. replace (if truth conf then conf else conf) with conf by now destruct (truth conf). reflexivity. Qed.
  Lemma limit_given t n : given items "general" "bandwidth_limit" t -> number t n -> bandwidth_limit (CInt 0) (setting env p "general" "bandwidth_limit") = Ok (1024 * n)%Z.
  Proof.
    intros G D. pose proof (setting_given env lines items p "general" "bandwidth_limit" t F H E ltac:(discriminate) ltac:(discriminate) G) as St.
    rewrite limit_conf by reflexivity. inversion St; subst; [apply py_int_iff in D; discriminate D|apply py_int_iff in D; discriminate D|]. now apply limit_option.
  Qed.
  Lemma limit_missing : (forall t, ~ given items "general" "bandwidth_limit" t) -> bandwidth_limit (CInt 0) (setting env p "general" "bandwidth_limit") = Ok 0%Z.
  Proof. intros N. rewrite (setting_standard env lines items p "general" "bandwidth_limit" (CInt 0) F H E N) by (cbn; tauto). reflexivity. Qed.
End consumers.

Lemma sub_dir_at dest conf path : destination dest -> relative_path path -> conf = path \/ conf = "/" ++ path -> sub_dir dest (CStr conf) = Ok (located dest path).
Proof.
  intros D R C. unfold sub_dir. f_equal. rewrite <- join_located by assumption. destruct C as [->| ->]; [reflexivity|].
  unfold join_path. cbn [fold_left]. unfold join_path2. replace (py_lstrip "/" ("/" ++ path)) with (py_lstrip "/" path) by reflexivity. reflexivity.
Qed.
Lemma dest_dir_at cwd opt conf : 
  (forall d, opt = Some d -> absolute d -> dest_dir cwd opt conf = CStr d) /\
  (forall d, opt = Some d -> absolute cwd -> relative_path d -> (forall c r, d = String c r -> is_space c = false) -> dest_dir cwd opt conf = CStr (located cwd d)) /\
  (opt = None \/ opt = Some "" -> dest_dir cwd opt conf = conf).
Proof.
  split; [|split].
  - intros d -> A. unfold dest_dir. destruct A as (r & _ & ->). change ("/" ++ r) with (String "/" r).
    change (String.eqb (String "/" r) "") with false. cbv iota. unfold py_strip. rewrite lstrip_stop by reflexivity.
    assert (G : exists q, py_rstrip whitespace_chars (String "/" r) = String "/" q) by exact (PathFacts.rstrip_stop whitespace_chars "" "/"%char r eq_refl). destruct G as [q ->]. change ("" ++ String "/" q) with (String "/" q).
    replace (py_startswith (String "/" q) "/") with true; [reflexivity|]. symmetry. apply startswith_iff. now exists q.
  - intros d -> A R S. unfold dest_dir. rewrite <- join_located by (assumption || now right). destruct d as [|c r]; [exfalso; inversion R as [n N _ Q|n q N _ _ Q]; [congruence|destruct n; [congruence|discriminate Q]]|].
    change (String.eqb (String c r) "") with false. cbv iota. replace (py_startswith (py_strip (String c r)) "/") with false; [reflexivity|]. symmetry.
    assert (Hc : c <> "/"%char). { intros ->. pose proof (rel_lstrip _ R) as L. apply (f_equal String.length) in L. cbn in L. destruct (lstrip_decomp "/" r) as (w & Ew & _). apply (f_equal String.length) in Ew. rewrite str_app_length in Ew. lia. }
    unfold py_strip. rewrite lstrip_stop by (rewrite is_space_ws; now apply (S c r)).
    destruct (py_rstrip whitespace_chars (String c r)) as [|c' q] eqn:Eq; [reflexivity|]. destruct (rstrip_decomp whitespace_chars (String c r)) as (post & Ed & _). rewrite Eq in Ed. injection Ed as -> _.
    destruct (py_startswith (String c' q) "/") eqn:K; [|reflexivity]. apply startswith_iff in K as [w K]. injection K as -> _. congruence.
  - now intros [->| ->].
Qed.
Lemma unheaded lines items p : Forall2 reads_as lines items -> p_cur p = None -> ~ headed items -> foldM read_line lines p = Err EError.
Proof.
  intros F. revert p. induction F as [|line i lines items R F IH]; intros p C N.
  - elim N. intros b k v a E. now destruct b.
  - cbn [foldM]. destruct R as [s Hs|c r Hc|name rest Nn Fn|key b sign a value e G Sb Hsign Sa Gv Se|key b sign a value e rest G Sb Hsign Sa Gv Fv Nv Se Ne].
    + unfold read_line. rewrite blank_ignored by exact Hs. cbn [bind]. apply IH; [exact C|]. intros Hh. apply N. intros [|x b'] k v a E; [discriminate E|]. injection E as <- E. destruct (Hh b' k v a E) as [s' I]. exists s'. now right.
    + unfold read_line. rewrite comment_ignored by exact Hc. cbn [bind]. apply IH; [exact C|]. intros Hh. apply N. intros [|x b'] k v a E; [discriminate E|]. injection E as <- E. destruct (Hh b' k v a E) as [s' I]. exists s'. now right.
    + elim N. intros [|x b'] k v a E; [discriminate E|]. injection E as <- E. exists name. now left.
    + destruct (entry_line key b sign (a ++ value ++ e) G Sb Hsign) as (A1 & A2 & A3 & A4). unfold read_line. now rewrite A1, A2, A3, C.
    + destruct (entry_line key b sign (a ++ value ++ e ++ ";" ++ rest) G Sb Hsign) as (A1 & A2 & A3 & A4). unfold read_line. now rewrite A1, A2, A3, C.
Qed.
Lemma no_header lines items : Forall2 reads_as lines items -> ~ headed items -> read_lines lines = Err EError.
Proof. intros F N. unfold read_lines. rewrite (unheaded lines items) by (assumption || reflexivity). reflexivity. Qed.

(** ** Checks *)
Definition tight_b (s : string) : bool := negb (head_is is_space s) && negb (head_is is_space (str_rev s)).
Lemma tight_b_ok s : tight_b s = true -> tight s.
Proof.
  unfold tight_b. intros H. apply andb_true_iff in H as [H1 H2]. apply negb_true_iff in H1, H2. split.
  - intros c r ->. exact H1.
  - intros r c ->. rewrite str_rev_app_distr in H2. exact H2.
Qed.
Lemma free_b_ok a s : char_in a s = false -> free_of a s.
Proof.
  intros H I. induction s as [|c s IH]; [destruct I|]. cbn [char_in] in H. apply orb_false_iff in H as [H1 H2]. apply Ascii.eqb_neq in H1. destruct I as [I|I]; [congruence|now apply IH].
Qed.
Definition key_b (k : string) : bool :=
  negb (String.eqb k "") && tight_b k && negb (char_in ":" k) && negb (char_in "=" k) && negb (py_startswith (py_lower k) "rem") && negb (head_is (fun c => char_in c "#;[") k).
Lemma key_b_ok k : key_b k = true -> good_key k.
Proof.
  unfold key_b. intros H. do 5 (apply andb_true_iff in H as [H ?]). repeat match goal with X : negb _ = true |- _ => apply negb_true_iff in X end.
  split; [now apply String.eqb_neq|]. split; [now apply tight_b_ok|]. split; [now apply free_b_ok|]. split; [now apply free_b_ok|]. split.
  - intros (r & E & _). assert (K : py_startswith (py_lower k) "rem" = true) by (apply startswith_iff; now exists r). congruence.
  - intros c r -> I. cbn [head_is] in *. destruct I as [<-|[<-|[<-|[]]]]; discriminate.
Qed.
Lemma spaces_b_ok s : forallb is_space (los s) = true -> spaces s.
Proof. intros H c I. exact (proj1 (forallb_forall _ _) H c I). Qed.
Definition value_b (v : string) : bool := tight_b v && negb (char_in ";" v) && negb (String.eqb v """""").
Lemma value_b_ok v : value_b v = true -> good_value v.
Proof.
  unfold value_b. intros H. do 2 (apply andb_true_iff in H as [H ?]). repeat match goal with X : negb _ = true |- _ => apply negb_true_iff in X end.
  split; [now apply tight_b_ok|]. split; [|now apply String.eqb_neq]. intros a b -> Fa.
  assert (K : char_in ";" (a ++ ";" ++ b) = true) by apply (char_in_app ";" a b). congruence.
Qed.
Lemma entry_ok key b sign a value e : key_b key = true -> forallb is_space (los b) = true -> is_sign sign = true -> forallb is_space (los a) = true -> value_b value = true -> forallb is_space (los e) = true ->
  reads_as (key ++ b ++ String sign (a ++ value ++ e)) (Assign key value).
Proof.
  intros. apply reads_entry; [now apply key_b_ok|now apply spaces_b_ok| |now apply spaces_b_ok|now apply value_b_ok|now apply spaces_b_ok].
  unfold is_sign in *. destruct (Ascii.eqb_spec sign ":"); [now left|]. destruct (Ascii.eqb_spec sign "="); [now right|discriminate].
Qed.
Lemma entry_comment_ok key b sign a value e rest : key_b key = true -> forallb is_space (los b) = true -> is_sign sign = true -> forallb is_space (los a) = true -> value_b value = true -> negb (String.eqb value "") = true ->
  forallb is_space (los e) = true -> negb (String.eqb e "") = true -> reads_as (key ++ b ++ String sign (a ++ value ++ e ++ ";" ++ rest)) (Assign key value).
Proof.
  intros K B Sg A V N E1 E2. apply reads_entry_comment; [now apply key_b_ok|now apply spaces_b_ok| |now apply spaces_b_ok|now apply value_b_ok| | |now apply spaces_b_ok|].
  - unfold is_sign in *. destruct (Ascii.eqb_spec sign ":"); [now left|]. destruct (Ascii.eqb_spec sign "="); [now right|discriminate].
  - unfold value_b in V. apply andb_true_iff in V as [V _]. apply andb_true_iff in V as [_ V]. apply negb_true_iff in V. now apply free_b_ok.
  - intros ->. discriminate N.
  - intros ->. discriminate E2.
Qed.
Lemma header_ok name rest : negb (String.eqb name "") = true -> char_in "]" name = false -> reads_as ("[" ++ name ++ "]" ++ rest) (Section_ name).
Proof. intros N F. apply reads_header; [intros ->; discriminate N|now apply free_b_ok]. Qed.
Definition is_header (i : item) : bool := match i with Section_ _ => true | _ => false end.
Fixpoint headed_b (items : list item) : bool :=
  match items with [] => true | Skip :: l => headed_b l | Section_ _ :: _ => true | Assign _ _ :: _ => false end.
Lemma headed_b_ok items : headed_b items = true -> headed items.
Proof.
  induction items as [|i items IH]; intros H [|x b] k v a E; try discriminate E; injection E as -> E; cbn in H; [discriminate H|].
  destruct x as [|n|k' v']; [destruct (IH H b k v a E) as [s I]; exists s; now right|exists n; now left|discriminate H].
Qed.
(** The value given, by computation *)
Fixpoint scan (items : list item) (cur : option string) (s k : string) (found : option string) : option string :=
  match items with
  | [] => found
  | Skip :: l => scan l cur s k found
  | Section_ n :: l => scan l (Some n) s k found
  | Assign k' v :: l => scan l cur s k (if String.eqb (py_lower k') k && match cur with Some n => String.eqb n s | None => false end then Some v else found)
  end.
Lemma scan_snoc_inv items s k : forall rest cur found, scan (items ++ rest) cur s k found = scan rest (fold_left (fun c i => match i with Section_ n => Some n | _ => c end) items cur) s k (scan items cur s k found).
Proof. induction items as [|i items IH]; intros rest cur found; [reflexivity|]. destruct i; cbn; apply IH. Qed.
Lemma cur_under items n : fold_left (fun c i => match i with Section_ n => Some n | _ => c end) items None = Some n <-> under items n.
Proof.
  induction items as [|i items IH] using rev_ind; [split; [discriminate|]; intros (a & b & E & _); now destruct a|]. rewrite fold_left_app, under_snoc. destruct i as [|m|k v]; cbn [fold_left].
  - rewrite IH. split; [intros U; right; split; [exact U|discriminate]|]. intros [X|[U _]]; [discriminate|exact U].
  - split; [intros [= ->]; now left|]. intros [[= ->]|[_ N]]; [reflexivity|now elim (N m)].
  - rewrite IH. split; [intros U; right; split; [exact U|discriminate]|]. intros [X|[U _]]; [discriminate|exact U].
Qed.
Lemma scan_final items s k v : scan items None s k None = Some v <-> final items s k v.
Proof.
  revert v. induction items as [|i items IH] using rev_ind; intros v.
  - split; [discriminate|]. intros (b & k' & a & E & _). now destruct b.
  - rewrite scan_snoc_inv, final_snoc. destruct i as [|m|k' v']; cbn [scan].
    + rewrite IH. split; [intros F; right; split; [exact F|]; intros w (q & X & _); discriminate X|]. intros [(q & X & _)|[F _]]; [discriminate X|exact F].
    + rewrite IH. split; [intros F; right; split; [exact F|]; intros w (q & X & _); discriminate X|]. intros [(q & X & _)|[F _]]; [discriminate X|exact F].
    + destruct (fold_left (fun c i => match i with Section_ n => Some n | _ => c end) items None) as [n|] eqn:C.
      * destruct (String.eqb_spec (py_lower k') k) as [L|L]; destruct (String.eqb_spec n s) as [M|M]; cbn [andb].
        -- subst n. apply cur_under in C. split; [intros [= ->]; left; now exists k'|]. intros [(q & [= <- <-] & _)|[_ N]]; [reflexivity|]. elim (N v'). now exists k'.
        -- rewrite IH. split; [intros F; right; split; [exact F|]|]; [intros w (q & _ & _ & U); apply cur_under in U; congruence|]. intros [(q & _ & _ & U)|[F _]]; [apply cur_under in U; congruence|exact F].
        -- rewrite IH. split; [intros F; right; split; [exact F|]|]; [intros w (q & [= <- <-] & X & _); congruence|]. intros [(q & [= <- <-] & X & _)|[F _]]; [congruence|exact F].
        -- rewrite IH. split; [intros F; right; split; [exact F|]|]; [intros w (q & [= <- <-] & X & _); congruence|]. intros [(q & [= <- <-] & X & _)|[F _]]; [congruence|exact F].
      * rewrite andb_false_r, IH. split; [intros F; right; split; [exact F|]|]; [intros w (q & _ & _ & U); apply cur_under in U; congruence|]. intros [(q & _ & _ & U)|[F _]]; [apply cur_under in U; congruence|exact F].
Qed.
Lemma in_header s items : existsb (fun i => match i with Section_ n => String.eqb n s | _ => false end) items = true -> In (Section_ s) items.
Proof. intros H. apply existsb_exists in H as (i & I & K). destruct i as [|n|]; try discriminate K. apply String.eqb_eq in K as ->. exact I. Qed.
Definition given_b (items : list item) (s k v : string) : bool :=
  existsb (fun i => match i with Section_ n => String.eqb n s | _ => false end) items &&
  match scan items None s k None with
  | Some w => String.eqb w v
  | None => match scan items None "DEFAULT" k None with Some w => String.eqb w v | None => false end
  end.
Lemma given_b_ok items s k v : given_b items s k v = true -> given items s k v.
Proof.
  unfold given_b. intros H. apply andb_true_iff in H as [I H]. split; [now apply in_header|]. destruct (scan items None s k None) as [w|] eqn:E1.
  - apply String.eqb_eq in H as ->. left. now apply scan_final.
  - destruct (scan items None "DEFAULT" k None) as [w|] eqn:E2; [|discriminate]. apply String.eqb_eq in H as ->. right. split; [|now apply scan_final]. intros w F. apply scan_final in F. congruence.
Qed.
Lemma not_given_b items s k : scan items None s k None = None -> scan items None "DEFAULT" k None = None -> forall v, ~ given items s k v.
Proof. intros E1 E2 v [_ [F|[_ F]]]; apply scan_final in F; congruence. Qed.
