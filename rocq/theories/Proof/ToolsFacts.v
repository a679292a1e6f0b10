(** * Facts about the build helpers *)
From Coq Require Import String Ascii ZArith List Lia.
From Verif Require Import Model.Py Model.Path Model.Tools Spec.ToolsSpec Proof.PyFacts.
Import ListNotations.
Open Scope string_scope.

(** ** Words *)
Lemma app_assoc_s (a b c : string) : (a ++ b) ++ c = a ++ b ++ c.
Proof. induction a as [|x a IH]; [reflexivity|]. cbn [append]. now rewrite IH. Qed.
Lemma app_nil_s (a : string) : a ++ "" = a.
Proof. induction a as [|x a IH]; [reflexivity|]. cbn [append]. now rewrite IH. Qed.
Definition solid (s : string) : Prop := Forall (fun c => is_space c = false) (list_ascii_of_string s).
Lemma solid_snoc w c : solid w -> is_space c = false -> solid (w ++ String c "").
Proof. unfold solid. induction w as [|x w IH]; intros H E; [constructor; [exact E|constructor]|]. cbn in *. apply Forall_cons_iff in H as [H1 H2]. constructor; auto. Qed.
Lemma blank_first c s l : is_space c = true -> words_of s l -> words_of (String c s) l.
Proof.
  intros E H. inversion H as [s' B|b w B W|b w c' s' l' B W E' H']; subst.
  - constructor. constructor; assumption.
  - apply (last_word (String c b)); [constructor; assumption|exact W].
  - apply (next_word (String c b)); [constructor; assumption|exact W|exact E'|exact H'].
Qed.
Lemma split_words s : forall w, solid w -> words_of (w ++ s) (split_from w s).
Proof.
  induction s as [|c s IH]; intros w W; cbn [split_from].
  - rewrite app_nil_s. unfold close. destruct (String.eqb_spec w "") as [->|N]; [constructor; constructor|]. apply (last_word "" w); [constructor|split; assumption].
  - destruct (is_space c) eqn:E.
    + unfold close. destruct (String.eqb_spec w "") as [->|N]; cbn [app]; [cbn [append]; apply blank_first; [exact E|]; apply (IH ""); constructor|].
      apply (next_word "" w c s); [constructor|split; assumption|exact E|]. apply (IH ""). constructor.
    + specialize (IH (w ++ String c "") (solid_snoc _ _ W E)). rewrite app_assoc_s in IH. exact IH.
Qed.
Lemma split_blank b s : all_blank b -> split_from "" (b ++ s) = split_from "" s.
Proof. unfold all_blank. induction b as [|c b IH]; intros H; [reflexivity|]. cbn in H. apply Forall_cons_iff in H as [H1 H2]. cbn [append split_from]. rewrite H1. cbn. now apply IH. Qed.
Lemma split_solid v : forall w s, solid v -> split_from w (v ++ s) = split_from (w ++ v) s.
Proof.
  unfold solid. induction v as [|c v IH]; intros w s H; [now rewrite app_nil_s|]. cbn in H. apply Forall_cons_iff in H as [H1 H2]. cbn [append split_from]. rewrite H1, IH by exact H2.
  f_equal. now rewrite app_assoc_s.
Qed.
Lemma close_word w : w <> "" -> close w = [w].
Proof. intros N. unfold close. destruct (String.eqb_spec w ""); [contradiction|reflexivity]. Qed.
Lemma words_split s l : words_of s l -> l = split_blanks s.
Proof.
  unfold split_blanks. induction 1 as [s B|b w B [N W]|b w c s l B [N W] E H IH].
  - rewrite <- (app_nil_s s), split_blank by exact B. reflexivity.
  - rewrite split_blank by exact B. rewrite <- (app_nil_s w) at 2. rewrite split_solid by exact W. cbn. now rewrite close_word.
  - rewrite split_blank by exact B. rewrite split_solid by exact W. cbn [append split_from]. rewrite E, close_word by exact N. cbn. now rewrite IH.
Qed.
Lemma spaced_iff text cmd : spaced text cmd <-> cmd = py_join " " (split_blanks text).
Proof.
  split.
  - intros (l & H & ->). now rewrite (words_split _ _ H).
  - intros ->. exists (split_blanks text). split; [|reflexivity]. apply (split_words text ""). constructor.
Qed.
Lemma split_sep a : forall w c b, is_space c = true -> split_from w (a ++ String c b) = (split_from w a ++ split_from "" b)%list.
Proof.
  induction a as [|x a IH]; intros w c b E; cbn [append split_from]; [now rewrite E|]. destruct (is_space x); [|now apply IH]. rewrite IH by exact E. now rewrite app_assoc.
Qed.

Definition alike (x y : string) : Prop := forall w, split_from w x = split_from w y.
Lemma alike_refl x : alike x x.
Proof. intros w. reflexivity. Qed.
Lemma alike_app a x y : alike x y -> alike (a ++ x) (a ++ y).
Proof. intros H. induction a as [|c a IH]; [exact H|]. intros w. cbn [append split_from]. destruct (is_space c); [f_equal|]; apply IH. Qed.
Lemma alike_gap x y : alike x y -> alike (gap ++ x) (" " ++ y).
Proof.
  intros H w. transitivity (close w ++ split_from "" ("                " ++ x))%list; [reflexivity|]. transitivity (close w ++ split_from "" y)%list; [|reflexivity]. f_equal.
  rewrite (split_blank "                " x); [apply H|]. unfold all_blank. cbn. repeat constructor.
Qed.
Lemma alike_words text' y text : alike text' y -> y = text -> split_blanks text = split_blanks text'.
Proof. intros H <-. unfold split_blanks. symmetry. apply H. Qed.
Ltac words := eapply alike_words; [repeat first [eapply alike_gap|eapply alike_app]; apply alike_refl|reflexivity].

(** ** Helpers stop at a failing command *)
Section facts.
  Context (h : site).
  Definition honest {A} (m : M A) : Prop := forall t t' r, m t = (t', r) -> exists new, t' = (t ++ new)%list /\
    (clean new \/ exists pre c z e, new = (pre ++ [Ran c z])%list /\ clean pre /\ z <> 0%Z /\ r = Err e).
  Lemma clean_nil : clean [].
  Proof. intros c z []. Qed.
  Lemma clean_app a b : clean a -> clean b -> clean (a ++ b).
  Proof. intros A B c z I. apply in_app_iff in I as [I|I]; eauto. Qed.
  Lemma honest_none {A} (m : M A) : (forall t, exists new r, m t = ((t ++ new)%list, r) /\ clean new) -> honest m.
  Proof. intros H t t' r E. destruct (H t) as (new & r' & E' & C). rewrite E' in E. injection E as <- <-. eauto. Qed.
  Lemma honest_ret {A} (a : A) : honest (ret a).
  Proof. apply honest_none. intros t. exists [], (Ok a). rewrite app_nil_r. split; [reflexivity|apply clean_nil]. Qed.
  Lemma honest_raise {A} e : honest (@raise A e).
  Proof. apply honest_none. intros t. exists [], (Err e). rewrite app_nil_r. split; [reflexivity|apply clean_nil]. Qed.
  Lemma honest_lift {A} (x : res A) : honest (lift x).
  Proof. apply honest_none. intros t. exists [], x. rewrite app_nil_r. split; [reflexivity|apply clean_nil]. Qed.
  Lemma honest_bind {A B} (m : M A) (f : A -> M B) : honest m -> (forall a, honest (f a)) -> honest (andthen m f).
  Proof.
    intros Hm Hf t t' r E. unfold andthen in E. destruct (m t) as [t1 [a|e]] eqn:Em.
    - destruct (Hm _ _ _ Em) as (n1 & -> & [C1|(pre & c & z & e & _ & _ & _ & X)]); [|discriminate X]. destruct (Hf a _ _ _ E) as (n2 & -> & [C2|(pre & c & z & e & -> & C2 & Z & X)]).
      + exists (n1 ++ n2)%list. split; [now rewrite app_assoc|]. left. now apply clean_app.
      + exists (n1 ++ pre ++ [Ran c z])%list. split; [now rewrite !app_assoc|]. right. exists (n1 ++ pre)%list, c, z, e. split; [now rewrite !app_assoc|]. split; [now apply clean_app|auto].
    - injection E as <- <-. destruct (Hm _ _ _ Em) as (n1 & -> & [C1|(pre & c & z & e' & -> & C2 & Z & X)]); eauto 12.
  Qed.
  Lemma honest_each {A} (f : A -> M unit) l : (forall x, honest (f x)) -> honest (eachM f l).
  Proof. intros H. induction l as [|x l IH]; [apply honest_ret|]. apply honest_bind; [apply H|]. intros _. exact IH. Qed.
  Lemma honest_access f : honest (can_access_file h f).
  Proof. apply honest_none. intros t. exists [], (Ok (s_access h t f)). rewrite app_nil_r. split; [reflexivity|apply clean_nil]. Qed.
  Lemma honest_dir f : honest (can_access_directory h f).
  Proof. apply honest_none. intros t. exists [], (Ok (s_dir h t f)). rewrite app_nil_r. split; [reflexivity|apply clean_nil]. Qed.
  Lemma honest_unlink f : honest (unlink h f).
  Proof.
    apply honest_none. intros t. unfold unlink. destruct (s_unlinkable h t f); [exists [Unlinked f], (Ok tt)|exists [], (Ok tt); rewrite app_nil_r]; (split; [reflexivity|]); [intros c z [K|[]]; discriminate|apply clean_nil].
  Qed.
  Lemma honest_copy b x y : honest (copy h b x y).
  Proof.
    apply honest_none. intros t. unfold copy, error. destruct b; cbn [negb]; [|exists [], (Ok tt); rewrite app_nil_r; split; [reflexivity|apply clean_nil]].
    destruct (s_copyable h t y); [exists [Copied x y], (Ok tt); split; [reflexivity|intros c z [K|[]]; discriminate]|].
    destruct (s_ignore h); [exists [], (Ok tt)|exists [], (Err EError)]; rewrite app_nil_r; (split; [reflexivity|apply clean_nil]).
  Qed.
  Lemma honest_effect k v : honest (effectM (Exported k v)).
  Proof. apply honest_none. intros t. exists [Exported k v], (Ok tt). split; [reflexivity|]. intros c z [K|[]]. discriminate. Qed.
  Lemma honest_system e c : honest (system_or h e c).
  Proof.
    intros t t' r E. unfold system_or, andthen, system in E. cbv zeta in E. set (x := py_join " " (split_blanks c)) in *. destruct (Z.eqb_spec (s_status h t x) 0) as [Z|Z]; injection E as <- <-; exists [Ran x (s_status h t x)]; (split; [reflexivity|]).
    - left. intros c' z [K|[]]. injection K as <- <-. exact Z.
    - right. exists [], x, (s_status h t x), e. split; [reflexivity|]. split; [apply clean_nil|auto].
  Qed.
  Lemma honest_any l : honest (any_file h l).
  Proof. induction l as [|f l IH]; [apply honest_ret|]. apply honest_bind; [apply honest_access|]. intros [|]; [apply honest_ret|exact IH]. Qed.
  Ltac hon := repeat (cbv zeta; first [apply honest_ret|apply honest_raise|apply honest_lift|apply honest_access|apply honest_dir|apply honest_unlink|apply honest_copy|apply honest_effect|apply honest_system|apply honest_any
    |apply honest_each; intros [[? ?] [|]]|apply honest_each; intros ?|apply honest_bind; [|intros ?]|match goal with |- honest (if ?b then _ else _) => destruct b end]).
  Lemma honest_gnuconfig : honest (gnuconfig_update h).
  Proof. unfold gnuconfig_update. hon. Qed.
  Lemma honest_info : honest (fix_info_dir h).
  Proof. unfold fix_info_dir. hon. Qed.
  Lemma honest_pod : honest (fix_local_pod h).
  Proof. unfold fix_local_pod. hon. Qed.
  Lemma perform_honest c : ~ is_compile c -> honest (perform h c).
  Proof.
    intros N. destruct c; cbn [perform].
    3: { destruct N. eexists. reflexivity. }
    all: unfold configure, raw_configure, make, install, raw_install, kde_configure, kde_install, perl_configure, perl_make, perl_install, python_compile, python_install, python_run, scons_make, scons_install, preplib, libtoolize;
      repeat (apply honest_gnuconfig || apply honest_info || apply honest_pod || hon).
  Qed.
  Lemma action_honest l : (forall c, In c l -> ~ is_compile c) -> honest (action h l).
  Proof.
    unfold action. induction l as [|c l IH]; intros N; [apply honest_ret|]. apply honest_bind; [apply perform_honest, N; now left|]. intros _. apply IH. intros x Hx. apply N. now right.
  Qed.
  Lemma action_stops l t t' r c z : (forall c, In c l -> ~ is_compile c) -> action h l t = (t', r) -> forall new, t' = (t ++ new)%list -> In (Ran c z) new -> z <> 0%Z ->
    (exists e, r = Err e) /\ exists pre, new = (pre ++ [Ran c z])%list /\ clean pre.
  Proof.
    intros N H new E I Z. destruct (action_honest l N _ _ _ H) as (new' & E' & K). rewrite E in E'. apply app_inv_head in E'. subst new'.
    destruct K as [C|(pre & c' & z' & e & -> & C & Z' & ->)]; [destruct (Z (C c z I))|]. split; [eauto|]. exists pre. split; [|exact C]. apply in_app_iff in I as [I|[I|[]]]; [destruct (Z (C c z I))|]. now rewrite I.
  Qed.

  (** ** The programs on the path *)
  Lemma found_iff b : exist_binary h b = true <-> found h b.
  Proof.
    unfold exist_binary, found. rewrite existsb_exists. split; intros (d & I & K); exists d; (split; [exact I|]).
    - unfold path_join in K. destruct (String.eqb_spec d "") as [->|N]; [left; auto|]. right. destruct (py_endswith d "/") eqn:E.
      + left. split; [now apply endswith_iff|exact K].
      + right. split; [split; [exact N|]|exact K]. intros X. apply endswith_iff in X. congruence.
    - unfold path_join. destruct K as [[-> K]|[[X K]|[[N X] K]]]; [exact K| |].
      + assert (d <> "") by (destruct X as [d' ->]; destruct d'; discriminate). destruct (String.eqb_spec d ""); [contradiction|]. apply endswith_iff in X. now rewrite X.
      + destruct (String.eqb_spec d ""); [contradiction|]. destruct (py_endswith d "/") eqn:E; [|exact K]. destruct X. now apply endswith_iff.
  Qed.
  Lemma found_not b : exist_binary h b = false <-> ~ found h b.
  Proof. rewrite <- found_iff. destruct (exist_binary h b); split; congruence. Qed.
  Lemma binutils_ok u b : binutils h u = Ok b <-> chosen h u b.
  Proof.
    unfold binutils, chosen. destruct (exist_binary h (s_host h ++ "-" ++ u)) eqn:E.
    - apply found_iff in E. split; [intros K; injection K as <-; auto|]. intros [[_ ->]|[N _]]; [reflexivity|contradiction].
    - apply found_not in E. destruct (exist_binary h u) eqn:F.
      + apply found_iff in F. split; [intros K; injection K as <-; auto|]. intros [[N _]|[_ [_ ->]]]; [contradiction|reflexivity].
      + apply found_not in F. split; [discriminate|]. intros [[N _]|[_ [N _]]]; contradiction.
  Qed.
  Lemma binutils_err u e : binutils h u = Err e <-> e = EError /\ ~ found h (s_host h ++ "-" ++ u) /\ ~ found h u.
  Proof.
    unfold binutils. destruct (exist_binary h (s_host h ++ "-" ++ u)) eqn:E.
    - apply found_iff in E. split; [discriminate|tauto].
    - apply found_not in E. destruct (exist_binary h u) eqn:F.
      + apply found_iff in F. split; [discriminate|tauto].
      + apply found_not in F. split; [intros K; injection K as <-; auto|]. intros [-> _]. reflexivity.
  Qed.

  (** ** Steps without commands *)
  Lemma commands_app a b : commands (a ++ b) = (commands a ++ commands b)%list.
  Proof. unfold commands. apply flat_map_app. Qed.
  Lemma no_command_clean t : no_command t -> clean t.
  Proof. unfold no_command. intros E c z I. assert (In (c, z) (commands t)) as X by (unfold commands; apply in_flat_map; exists (Ran c z); split; [exact I|now left]). rewrite E in X. destruct X. Qed.
  Lemma unlink_is f t : unlink h f t = ((t ++ (if s_unlinkable h t f then [Unlinked f] else []))%list, Ok tt).
  Proof. unfold unlink. destruct (s_unlinkable h t f); [reflexivity|now rewrite app_nil_r]. Qed.
  Lemma copy_is b x y t t' r : copy h b x y t = (t', r) ->
    exists new, t' = (t ++ new)%list /\ no_command new /\
      (r = Ok tt /\ (b = true -> s_ignore h = false -> In (Copied x y) new) \/
       r = Err EError /\ b = true /\ s_ignore h = false /\ new = [] /\ s_copyable h t y = false).
  Proof.
    unfold copy, error. destruct b; cbn [negb]; [|intros K; injection K as <- <-; exists []; rewrite app_nil_r; repeat split; left; split; [reflexivity|discriminate]].
    destruct (s_copyable h t y) eqn:E; [intros K; injection K as <- <-; exists [Copied x y]; repeat split; left; split; [reflexivity|intros _ _; now left]|].
    destruct (s_ignore h) eqn:G; intros K; injection K as <- <-; exists []; rewrite app_nil_r; repeat split; [left; split; [reflexivity|discriminate]|right; auto].
  Qed.
  Lemma gnuconfig_is t t' r : gnuconfig_update h t = (t', r) ->
    exists new, t' = (t ++ new)%list /\ no_command new /\
      (r = Ok tt /\ (s_ignore h = false -> forall d n k, In (d, n, k) (s_configs h) -> s_template h n = true -> In (Copied ("/usr/share/gnuconfig/" ++ n) (join_path d [n])) new) \/
       r = Err EError /\ s_ignore h = false /\ exists d n k, In (d, n, k) (s_configs h) /\ s_template h n = true /\ s_copyable h t' (join_path d [n]) = false).
  Proof.
    unfold gnuconfig_update. generalize (s_configs h) as l. intros l. revert t. induction l as [|[[d n] k] l IH]; intros t H.
    - injection H as <- <-. exists []. rewrite app_nil_r. repeat split. left. split; [reflexivity|]. intros _ d n k [].
    - cbn [eachM] in H. unfold andthen at 1 2 in H.
      assert (exists n0, no_command n0 /\ (if k then unlink h (join_path d [n]) else ret tt) t = ((t ++ n0)%list, Ok tt)) as (n0 & C0 & E0).
      { destruct k; [rewrite unlink_is; eexists; split; [|reflexivity]; now destruct (s_unlinkable h t (join_path d [n]))|exists []; rewrite app_nil_r; split; reflexivity]. }
      rewrite E0 in H. destruct (copy h (s_template h n) ("/usr/share/gnuconfig/" ++ n) (join_path d [n]) (t ++ n0)%list) as [t1 r1] eqn:E1.
      destruct (copy_is _ _ _ _ _ _ E1) as (n1 & -> & C1 & [[-> Y]|(-> & B & G & -> & X)]).
      + destruct (IH _ H) as (n2 & -> & C2 & K). exists (n0 ++ n1 ++ n2)%list. split; [now rewrite !app_assoc|]. split; [unfold no_command in *; now rewrite !commands_app, C0, C1, C2|].
        destruct K as [[-> K]|(-> & G & d' & n' & k' & I & T & X)].
        * left. split; [reflexivity|]. intros G d' n' k' [I|I] T; [injection I as <- <- <-; apply in_app_iff; right; apply in_app_iff; left; auto|]. apply in_app_iff. right. apply in_app_iff. right. eapply K; eassumption.
        * right. repeat split; [exact G|]. exists d', n', k'. repeat split; [now right|exact T|exact X].
      + injection H as <- <-. exists n0. rewrite !app_nil_r. repeat split; [exact C0|]. right. repeat split; [exact G|]. exists d, n, k. repeat split; [now left|exact B|exact X].
  Qed.
  Lemma info_is t : exists new, fix_info_dir h t = ((t ++ new)%list, Ok tt) /\
    new = (let f := s_install h ++ "/usr/share/info/dir" in if s_access h t f && s_unlinkable h t f then [Unlinked f] else [])%bool.
  Proof.
    unfold fix_info_dir, andthen, can_access_file. cbv zeta. eexists. split; [|reflexivity]. destruct (s_access h t _); cbn [andb]; [apply unlink_is|]. unfold ret. now rewrite app_nil_r.
  Qed.
  Lemma after_perl_none s : after_perl s = None <-> ~ exists a b, s = a ++ "perl" ++ b.
  Proof.
    induction s as [|c s IH]; cbn [after_perl].
    - split; [|reflexivity]. intros _ (a & b & E). destruct a; discriminate.
    - destruct (py_startswith (String c s) "perl") eqn:E.
      + split; [discriminate|]. intros N. destruct N. apply startswith_iff in E as [r ->]. now exists "", r.
      + rewrite IH. split; intros N (a & b & K); apply N.
        * destruct a as [|x a]; [|injection K as <- ->; now exists a, b]. assert (py_startswith (String c s) "perl" = true) by (apply startswith_iff; exists b; exact K). congruence.
        * exists (String c a), b. now rewrite K.
  Qed.
  Lemma pod_is t t' r : fix_local_pod h t = (t', r) -> exists new, t' = (t ++ new)%list /\ no_command new /\ (r = Ok tt \/ r = Err EIndex /\ ~ knows_perl h).
  Proof.
    unfold fix_local_pod, andthen at 1, lift, cur_perl, knows_perl. destruct (after_perl (s_perl h)) as [v|] eqn:E.
    - generalize [s_install h ++ "/usr/lib/perl5/vendor_perl/" ++ before_perl v ++ "/i686-linux/perllocal.pod"; s_install h ++ "/usr/lib/perl5/" ++ before_perl v ++ "/i686-linux/perllocal.pod";
        s_install h ++ "/usr/lib/perl5/site_perl/" ++ before_perl v ++ "/perllocal.pod"] as l. intros l. revert t. induction l as [|f l IH]; intros t H; cbn [eachM] in H.
      + injection H as <- <-. exists []. rewrite app_nil_r. repeat split. now left.
      + unfold andthen, can_access_file in H. destruct (s_access h t f); [|apply IH; exact H]. rewrite unlink_is in H. destruct (IH _ H) as (new & -> & C & K). eexists. rewrite <- app_assoc. split; [reflexivity|]. split; [|exact K].
        unfold no_command in *. rewrite commands_app, C. now destruct (s_unlinkable h t f).
    - intros K. injection K as <- <-. exists []. rewrite app_nil_r. repeat split. right. split; [reflexivity|]. now apply after_perl_none.
  Qed.
  Lemma chars_is l t t' r : eachM (fun c => let! there := can_access_file h (String c "") in if there : bool then raise EName else ret tt) l t = (t', r) ->
    t' = t /\ (r = Ok tt \/ r = Err EName /\ exists c, In c l /\ s_access h t (String c "") = true).
  Proof.
    induction l as [|c l IH]; intros H; cbn [eachM] in H; [injection H as <- <-; auto|]. unfold andthen, can_access_file in H. destruct (s_access h t (String c "")) eqn:E.
    - injection H as <- <-. split; [reflexivity|]. right. split; [reflexivity|]. exists c. split; [now left|exact E].
    - destruct (IH H) as (-> & [->|(-> & c' & I & X)]); (split; [reflexivity|]); [now left|]. right. split; [reflexivity|]. exists c'. split; [now right|exact X].
  Qed.
  Lemma any_is l t : exists b, any_file h l t = (t, Ok b) /\ (b = true <-> has_any (s_access h t) l).
  Proof.
    unfold has_any. induction l as [|f l IH]; cbn [any_file].
    - exists false. split; [reflexivity|]. split; [discriminate|]. intros (f & [] & _).
    - unfold andthen, can_access_file. destruct (s_access h t f) eqn:E.
      + exists true. split; [reflexivity|]. split; [|reflexivity]. intros _. exists f. split; [now left|exact E].
      + destruct IH as (b & -> & K). exists b. split; [reflexivity|]. rewrite K. split; intros (g & I & X); exists g; (split; [|exact X]); [now right|]. destruct I as [<-|I]; [congruence|exact I].
  Qed.
  Lemma system_or_is e c t : exists z, let cmd := py_join " " (split_blanks c) in
    system_or h e c t = ((t ++ [Ran cmd z])%list, if Z.eqb z 0 then Ok tt else Err e) /\ z = s_status h t cmd.
  Proof. cbv zeta. eexists. split; [|reflexivity]. unfold system_or, system, andthen. now destruct (Z.eqb _ 0). Qed.

  (** ** The command of each helper *)
  Definition told (there dir : string -> bool) (cc : string) (c : call) (new : list effect) (r : res unit) : Prop :=
    (exists text cmd z, documented h there dir cc c = Some text /\ spaced text cmd /\ commands new = [(cmd, z)] /\ (r = Ok tt -> z = 0%Z \/ is_compile c)) \/
    commands new = [] /\ (r = Ok tt -> documented h there dir cc c = None).
  Lemma told_one there dir cc c pre post r text text' z : documented h there dir cc c = Some text -> split_blanks text = split_blanks text' -> no_command pre -> no_command post -> (r = Ok tt -> z = 0%Z) ->
    told there dir cc c (pre ++ [Ran (py_join " " (split_blanks text')) z] ++ post) r.
  Proof.
    intros D E P Q R. left. exists text, (py_join " " (split_blanks text')), z. split; [exact D|]. split; [apply spaced_iff; now rewrite E|]. split; [|auto]. unfold no_command in *. now rewrite !commands_app, P, Q.
  Qed.
  Lemma told_none there dir cc c new e : no_command new -> told there dir cc c new (Err e).
  Proof. intros N. right. split; [exact N|discriminate]. Qed.
  Lemma done_one there dir cc c e text text' t t' r : documented h there dir cc c = Some text -> split_blanks text = split_blanks text' -> system_or h e text' t = (t', r) ->
    exists new, t' = (t ++ new)%list /\ told there dir cc c new r.
  Proof.
    intros D E H. destruct (system_or_is e text' t) as (z & K & _). cbv zeta in K. rewrite K in H. injection H as <- <-. eexists. split; [reflexivity|].
    apply (told_one there dir cc c [] [] _ text text' z D E); try reflexivity. destruct (Z.eqb_spec z 0); [auto|discriminate].
  Qed.
  Lemma done_after there dir cc c pre e text text' t t' r : documented h there dir cc c = Some text -> split_blanks text = split_blanks text' -> no_command pre -> system_or h e text' (t ++ pre)%list = (t', r) ->
    exists new, t' = (t ++ new)%list /\ told there dir cc c new r.
  Proof.
    intros D E P H. destruct (system_or_is e text' (t ++ pre)%list) as (z & K & _). cbv zeta in K. rewrite K in H. injection H as <- <-. eexists. rewrite <- app_assoc. split; [reflexivity|].
    apply (told_one there dir cc c pre [] _ text text' z D E P); try reflexivity. destruct (Z.eqb_spec z 0); [auto|discriminate].
  Qed.
  (** a command, and then a step without commands *)
  Lemma done_before there dir cc c (m : M unit) e text text' t t' r : documented h there dir cc c = Some text -> split_blanks text = split_blanks text' ->
    (forall t t' r, m t = (t', r) -> exists new, t' = (t ++ new)%list /\ no_command new) -> (do! system_or h e text' in m) t = (t', r) ->
    exists new, t' = (t ++ new)%list /\ told there dir cc c new r.
  Proof.
    intros D E Q H. unfold andthen in H. destruct (system_or_is e text' t) as (z & K & _). cbv zeta in K. rewrite K in H. destruct (Z.eqb_spec z 0) as [Z|Z].
    - destruct (Q _ _ _ H) as (new & -> & N). eexists. rewrite <- app_assoc. split; [reflexivity|]. apply (told_one there dir cc c [] new _ text text' z D E); [reflexivity|exact N|auto].
    - injection H as <- <-. eexists. split; [reflexivity|]. apply (told_one there dir cc c [] [] _ text text' z D E); [reflexivity|reflexivity|discriminate].
  Qed.
  Lemma info_quiet t t' r : fix_info_dir h t = (t', r) -> exists new, t' = (t ++ new)%list /\ no_command new.
  Proof. intros H. destruct (info_is t) as (new & E & N). rewrite E in H. injection H as <- <-. exists new. split; [reflexivity|]. subst new. cbv zeta. now destruct (_ && _)%bool. Qed.
  Lemma perform_told c t t' r cc : perform h c t = (t', r) -> (is_compile c -> chosen h "gcc" cc) ->
    exists new, t' = (t ++ new)%list /\ told (s_access h (at_first c t)) (s_dir h t) cc c new r.
  Proof.
    intros H CC. assert (forall e, (t, Err (A:=unit) e) = (t', r) -> exists new, t' = (t ++ new)%list /\ told (s_access h (at_first c t)) (s_dir h t) cc c new r) as stop.
    { intros e K. injection K as <- <-. exists []. rewrite app_nil_r. split; [reflexivity|]. now apply told_none. }
    destruct c; cbn [perform at_first] in *.
    - unfold configure, andthen at 1, can_access_file in H. destruct (s_access h t "configure"); [|eapply stop; exact H].
      unfold andthen in H. destruct (gnuconfig_update h t) as [t1 r1] eqn:G. destruct (gnuconfig_is _ _ _ G) as (pre & -> & P & [[-> _]|(-> & _)]).
      + eapply done_after; [reflexivity| |exact P|exact H]. words.
      + injection H as <- <-. exists pre. split; [reflexivity|]. now apply told_none.
    - unfold raw_configure, andthen at 1, can_access_file in H. destruct (s_access h t "configure"); [|eapply stop; exact H].
      unfold andthen in H. destruct (gnuconfig_update h t) as [t1 r1] eqn:G. destruct (gnuconfig_is _ _ _ G) as (pre & -> & P & [[-> _]|(-> & _)]).
      + eapply done_after; [reflexivity| |exact P|exact H]. words.
      + injection H as <- <-. exists pre. split; [reflexivity|]. now apply told_none.
    - specialize (CC (ex_intro _ p eq_refl)). apply binutils_ok in CC. unfold compile, andthen, lift, system in H. rewrite CC in H. injection H as <- <-. eexists. split; [reflexivity|].
      left. eexists _, _, _. split; [reflexivity|]. split; [apply spaced_iff; reflexivity|]. split; [reflexivity|]. intros _. right. now exists p.
    - eapply done_one; [reflexivity| |exact H]. words.
    - unfold install, andthen at 1 in H. destruct (any_is makefiles t) as (b & E & _). rewrite E in H. destruct b; [|eapply stop; exact H].
      eapply done_before; [reflexivity| |apply info_quiet|exact H]. words.
    - unfold raw_install, andthen at 1 in H. destruct (any_is makefiles t) as (b & E & _). rewrite E in H. destruct b; [|eapply stop; exact H].
      eapply done_before; [reflexivity| |apply info_quiet|exact H]. words.
    - destruct a; (eapply done_one; [reflexivity| |exact H]; reflexivity).
    - unfold kde_configure, andthen at 1, can_access_file in H. destruct (s_access h t "configure"); [|eapply stop; exact H]. eapply done_one; [reflexivity| |exact H]. words.
    - eapply done_one; [reflexivity| |exact H]. words.
    - unfold kde_install, andthen at 1, can_access_file in H. destruct (s_access h t "Makefile"); [|eapply stop; exact H]. eapply done_one; [reflexivity| |exact H]. words.
    - unfold perl_configure, andthen, effectM, can_access_file in H. destruct (s_access h _ "Build.PL") eqn:B in H;
        (eapply (done_after _ _ _ _ [Exported "PERL_MM_USE_DEFAULT" "1"]); [cbn [documented]; rewrite B; reflexivity| |reflexivity|exact H]; reflexivity).
    - unfold perl_make, andthen, can_access_file in H. destruct (s_access h t "Makefile") eqn:B;
        (eapply done_one; [cbn [documented]; rewrite B; reflexivity| |exact H]; reflexivity).
    - unfold perl_install, andthen at 1, can_access_file in H. destruct (s_access h t "Makefile") eqn:B;
        (eapply done_before; [cbn [documented]; rewrite B; reflexivity| | |exact H]; [reflexivity|]);
        intros t1 t2 r2 K; destruct (pod_is _ _ _ K) as (new & E & N & _); eauto.
    - eapply done_one; [reflexivity| |exact H]. reflexivity.
    - eapply done_before; [reflexivity| | |exact H]; [words|]. intros t1 t2 r2 K. apply chars_is in K as (-> & _). exists []. rewrite app_nil_r. split; reflexivity.
    - eapply done_one; [reflexivity| |exact H]. reflexivity.
    - eapply done_one; [reflexivity| |exact H]. reflexivity.
    - eapply done_one; [reflexivity| |exact H]. reflexivity.
    - unfold preplib, andthen, can_access_directory in H. destruct (s_dir h t (join_path (s_install h) [dir])) eqn:B.
      + eapply done_one; [cbn [documented]; rewrite B; reflexivity| |exact H]. reflexivity.
      + injection H as <- <-. exists []. rewrite app_nil_r. split; [reflexivity|]. right. split; [reflexivity|]. intros _. cbn [documented]. now rewrite B.
    - eapply done_one; [reflexivity| |exact H]. reflexivity.
    - destruct (gnuconfig_is _ _ _ H) as (pre & -> & P & _). exists pre. split; [reflexivity|]. right. split; [exact P|reflexivity].
  Qed.
  Lemma compile_needs p t t' : perform h (ACompile p) t = (t', Ok tt) -> exists cc, chosen h "gcc" cc.
  Proof. cbn. unfold compile, andthen, lift. destruct (binutils h "gcc") as [cc|e] eqn:E; [|discriminate]. intros _. exists cc. now apply binutils_ok. Qed.

  (** ** What is missing stops a helper before it does anything *)
  Lemma needs_stop c l t : needs c = Some l -> ~ has_any (s_access h t) l -> perform h c t = (t, Err EError).
  Proof.
    intros E N. assert (forall f, l = [f] -> s_access h t f = false) as one by (intros f ->; destruct (s_access h t f) eqn:K; [|reflexivity]; destruct N; exists f; split; [now left|exact K]).
    destruct c; try discriminate E; cbn in E; injection E as <-; cbn [perform]; unfold configure, raw_configure, install, raw_install, kde_configure, kde_install, andthen, can_access_file.
    1,2,5,6: now rewrite (one _ eq_refl).
    all: destruct (any_is makefiles t) as (b & -> & K); destruct b; [destruct N; now apply K|reflexivity].
  Qed.

  (** ** Every failure has its reason *)
  Lemma system_why c e text pre t t' : ~ is_compile c -> no_command pre -> (e = EError /\ (forall p, c <> PConfigure p) \/ e = EName /\ exists p, c = PConfigure p) ->
    forall e', system_or h e text (t ++ pre)%list = (t', Err e') -> exists new, t' = (t ++ new)%list /\ reason h t c new e'.
  Proof.
    intros N P K e' H. destruct (system_or_is e text (t ++ pre)%list) as (z & E & _). cbv zeta in E. rewrite E in H. destruct (Z.eqb_spec z 0) as [Z|Z]; [discriminate|]. injection H as <- <-.
    eexists. rewrite <- app_assoc. split; [reflexivity|]. destruct K as [[-> K]|[-> [p ->]]]; [apply command_failed|apply perl_failed]; auto using no_command_clean.
  Qed.
  Lemma system_why0 c text t t' : ~ is_compile c -> (forall p, c <> PConfigure p) ->
    forall e', system_or h EError text t = (t', Err e') -> exists new, t' = (t ++ new)%list /\ reason h t c new e'.
  Proof. intros N P e' H. apply (system_why c EError text [] t t'); auto; [reflexivity|]. now rewrite app_nil_r. Qed.
  Lemma not_compile c : (forall p, c <> ACompile p) -> ~ is_compile c.
  Proof. intros N [p ->]. now apply (N p). Qed.
  Lemma then_why c text (m : M unit) t t' e' : ~ is_compile c -> (forall p, c <> PConfigure p) ->
    (forall cmd t' , m (t ++ [Ran cmd 0%Z])%list = (t', Err e') -> exists new, t' = (t ++ new)%list /\ reason h t c new e') ->
    (do! system_or h EError text in m) t = (t', Err e') -> exists new, t' = (t ++ new)%list /\ reason h t c new e'.
  Proof.
    intros N P Q H. unfold andthen in H. destruct (system_or h EError text t) as [t1 [[]|e1]] eqn:E.
    - destruct (system_or_is EError text t) as (z & K & _). cbv zeta in K. rewrite K in E. destruct (Z.eqb_spec z 0) as [Z|Z]; [|discriminate]. rewrite Z in E. injection E as <-. eapply Q. exact H.
    - injection H as <- <-. eapply system_why0; eassumption.
  Qed.
  Lemma perform_why c t t' e : perform h c t = (t', Err e) -> exists new, t' = (t ++ new)%list /\ reason h t c new e.
  Proof.
    intros H. assert (forall l, needs c = Some l -> ~ has_any (s_access h t) l -> exists new, t' = (t ++ new)%list /\ reason h t c new e) as lacks.
    { intros l E N. rewrite (needs_stop c l t E N) in H. injection H as <- <-. exists []. rewrite app_nil_r. split; [reflexivity|]. now apply (no_file h t c l). }
    assert (forall f, s_access h t f = false -> ~ has_any (s_access h t) [f]) as one by (intros f E (g & [<-|[]] & K); congruence).
    assert (forall r1 t1, updates_config c -> gnuconfig_update h t = (t1, r1) -> (exists pre, t1 = (t ++ pre)%list /\ no_command pre /\ (r1 = Ok tt \/ r1 = Err EError /\ reason h t c pre EError))) as update.
    { intros r1 t1 U G. destruct (gnuconfig_is _ _ _ G) as (pre & -> & P & [[-> _]|(-> & I & d & n & k & A & B & X)]); exists pre; (split; [reflexivity|]); (split; [exact P|]); [now left|].
      right. split; [reflexivity|]. now apply (no_copy h t c pre d n k). }
    destruct c; cbn [perform] in H.
    - destruct (s_access h t "configure") eqn:A; [|eapply lacks; [reflexivity|auto]]. unfold configure, andthen, can_access_file in H. rewrite A in H.
      destruct (gnuconfig_update h t) as [t1 r1] eqn:G. destruct (update _ _ (or_introl (ex_intro _ p eq_refl)) eq_refl) as (pre & -> & P & [->|[-> R]]).
      + eapply system_why; [apply not_compile; discriminate|exact P|left; split; [reflexivity|discriminate]|exact H].
      + injection H as <- <-. eauto.
    - destruct (s_access h t "configure") eqn:A; [|eapply lacks; [reflexivity|auto]]. unfold raw_configure, andthen, can_access_file in H. rewrite A in H.
      destruct (gnuconfig_update h t) as [t1 r1] eqn:G. destruct (update _ _ (or_intror (or_introl (ex_intro _ p eq_refl))) eq_refl) as (pre & -> & P & [->|[-> R]]).
      + eapply system_why; [apply not_compile; discriminate|exact P|left; split; [reflexivity|discriminate]|exact H].
      + injection H as <- <-. eauto.
    - unfold compile, andthen, lift in H. destruct (binutils h "gcc") as [cc|e1] eqn:B; [discriminate|]. injection H as <- <-. apply binutils_err in B as (-> & N1 & N2).
      exists []. rewrite app_nil_r. split; [reflexivity|]. now apply no_compiler.
    - eapply system_why0; [apply not_compile; discriminate|discriminate|exact H].
    - destruct (any_is makefiles t) as (b & E & K). destruct b; [|eapply lacks; [reflexivity|]; intros X; apply K in X; discriminate]. unfold install, andthen at 1 in H. rewrite E in H.
      eapply then_why; [apply not_compile; discriminate|discriminate| |exact H]. intros cmd t1 X. destruct (info_is (t ++ [Ran cmd 0%Z])%list) as (n & Y & _). rewrite Y in X. discriminate.
    - destruct (any_is makefiles t) as (b & E & K). destruct b; [|eapply lacks; [reflexivity|]; intros X; apply K in X; discriminate]. unfold raw_install, andthen at 1 in H. rewrite E in H.
      eapply then_why; [apply not_compile; discriminate|discriminate| |exact H]. intros cmd t1 X. destruct (info_is (t ++ [Ran cmd 0%Z])%list) as (n & Y & _). rewrite Y in X. discriminate.
    - eapply system_why0; [apply not_compile; discriminate|discriminate|exact H].
    - destruct (s_access h t "configure") eqn:A; [|eapply lacks; [reflexivity|auto]]. unfold kde_configure, andthen, can_access_file in H. rewrite A in H. eapply system_why0; [apply not_compile; discriminate|discriminate|exact H].
    - eapply system_why0; [apply not_compile; discriminate|discriminate|exact H].
    - destruct (s_access h t "Makefile") eqn:A; [|eapply lacks; [reflexivity|auto]]. unfold kde_install, andthen, can_access_file in H. rewrite A in H. eapply system_why0; [apply not_compile; discriminate|discriminate|exact H].
    - unfold perl_configure, andthen, effectM, can_access_file in H. destruct (s_access h _ "Build.PL");
        (eapply (system_why _ _ _ [Exported "PERL_MM_USE_DEFAULT" "1"]); [apply not_compile; discriminate| |right; split; [reflexivity|eauto]|exact H]; reflexivity).
    - unfold perl_make, andthen, can_access_file in H. destruct (s_access h t "Makefile"); (eapply system_why0; [apply not_compile; discriminate|discriminate|exact H]).
    - unfold perl_install, andthen at 1, can_access_file in H. destruct (s_access h t "Makefile"); (eapply then_why; [apply not_compile; discriminate|discriminate| |exact H]);
        intros cmd t1 X; destruct (pod_is _ _ _ X) as (n & -> & _ & [K|[K N]]); try discriminate K; injection K as ->; eexists; rewrite <- app_assoc; (split; [reflexivity|]); now apply no_perl.
    - eapply system_why0; [apply not_compile; discriminate|discriminate|exact H].
    - eapply then_why; [apply not_compile; discriminate|discriminate| |exact H]. intros cmd t1 X. apply chars_is in X as (-> & [K|(K & x & _ & A)]); [discriminate K|]. injection K as ->.
      eexists. split; [reflexivity|]. now apply (short_name h t p _ x).
    - eapply system_why0; [apply not_compile; discriminate|discriminate|exact H].
    - eapply system_why0; [apply not_compile; discriminate|discriminate|exact H].
    - eapply system_why0; [apply not_compile; discriminate|discriminate|exact H].
    - unfold preplib, andthen, can_access_directory in H. destruct (s_dir h t _); [|discriminate]. eapply system_why0; [apply not_compile; discriminate|discriminate|exact H].
    - eapply system_why0; [apply not_compile; discriminate|discriminate|exact H].
    - destruct (update _ _ (or_intror (or_intror eq_refl)) H) as (pre & -> & P & [K|[K R]]); [discriminate|]. injection K as ->. eauto.
  Qed.

  (** ** In the words of the theorems *)
  Lemma commands_in new cmd z : In (Ran cmd z) new -> In (cmd, z) (commands new).
  Proof. intros I. unfold commands. apply in_flat_map. exists (Ran cmd z). split; [exact I|now left]. Qed.
  Lemma perform_only c t t' r cc : perform h c t = (t', r) -> (is_compile c -> chosen h "gcc" cc) ->
    exists new, t' = (t ++ new)%list /\
      forall cmd z, In (Ran cmd z) new -> commands new = [(cmd, z)] /\ exists text, documented h (s_access h (at_first c t)) (s_dir h t) cc c = Some text /\ spaced text cmd.
  Proof.
    intros H CC. destruct (perform_told c t t' r cc H CC) as (new & E & T). exists new. split; [exact E|]. intros cmd z I. apply commands_in in I.
    destruct T as [(text & cmd' & z' & D & S' & C & _)|[C _]]; rewrite C in I; [|destruct I]. destruct I as [I|[]]. injection I as <- <-. eauto.
  Qed.
  Lemma perform_ok c t t' : perform h c t = (t', Ok tt) ->
    exists new, t' = (t ++ new)%list /\
      ((exists cc text cmd z, (is_compile c -> chosen h "gcc" cc) /\ documented h (s_access h (at_first c t)) (s_dir h t) cc c = Some text /\ spaced text cmd /\ commands new = [(cmd, z)] /\ (z = 0%Z \/ is_compile c)) \/
       commands new = [] /\ forall cc, documented h (s_access h (at_first c t)) (s_dir h t) cc c = None).
  Proof.
    intros H. assert (exists cc, is_compile c -> chosen h "gcc" cc) as [cc CC].
    { destruct c; try (exists ""; intros [p' K]; discriminate K). destruct (compile_needs _ _ _ H) as [cc CC]. exists cc. auto. }
    destruct (perform_told c t t' _ cc H CC) as (new & E & T). exists new. split; [exact E|]. destruct T as [(text & cmd & z & D & S' & C & Z)|[C D]].
    - left. exists cc, text, cmd, z. auto 6.
    - right. split; [exact C|]. specialize (D eq_refl). intros cc'. destruct c; try discriminate D; try reflexivity; cbn [documented] in *; [now destruct a|exact D].
  Qed.
  Lemma install_info p a t t' : (perform h (AInstall p a) t = (t', Ok tt) \/ perform h (ARawInstall p a) t = (t', Ok tt)) ->
    exists cmd, let t1 := (t ++ [Ran cmd 0%Z])%list in let f := s_install h ++ "/usr/share/info/dir" in
      (s_access h t1 f = true /\ s_unlinkable h t1 f = true -> t' = (t1 ++ [Unlinked f])%list) /\ (~ (s_access h t1 f = true /\ s_unlinkable h t1 f = true) -> t' = t1).
  Proof.
    assert (forall text, (do! system_or h EError text in fix_info_dir h) t = (t', Ok tt) -> exists cmd, let t1 := (t ++ [Ran cmd 0%Z])%list in let f := s_install h ++ "/usr/share/info/dir" in
      (s_access h t1 f = true /\ s_unlinkable h t1 f = true -> t' = (t1 ++ [Unlinked f])%list) /\ (~ (s_access h t1 f = true /\ s_unlinkable h t1 f = true) -> t' = t1)) as step.
    { intros text H. unfold andthen in H. destruct (system_or_is EError text t) as (z & K & _). cbv zeta in K. rewrite K in H. destruct (Z.eqb_spec z 0) as [Z|Z]; [|discriminate H]. rewrite Z in H.
      set (cmd := py_join " " (split_blanks text)) in *. exists cmd. cbv zeta. destruct (info_is (t ++ [Ran cmd 0%Z])%list) as (new & E & N). rewrite E in H. injection H as <-. cbv zeta in N. rewrite N.
      destruct (s_access h _ _), (s_unlinkable h _ _); cbn [andb]; rewrite ?app_nil_r; (split; [|intros X; try reflexivity; destruct X; auto]); intros [A B]; try discriminate; reflexivity. }
    cbn [perform]. unfold install, raw_install. intros [H|H]; unfold andthen at 1 in H; destruct (any_is makefiles t) as (b & E & _); rewrite E in H; (destruct b; [|discriminate H]); eapply step; exact H.
  Qed.
  Lemma config_replaced c t t' d n k : updates_config c -> perform h c t = (t', Ok tt) -> s_ignore h = false -> In (d, n, k) (s_configs h) -> s_template h n = true ->
    exists new, t' = (t ++ new)%list /\ In (Copied ("/usr/share/gnuconfig/" ++ n) (join_path d [n])) new.
  Proof.
    intros U H G I T. assert (forall e text, (do! gnuconfig_update h in system_or h e text) t = (t', Ok tt) -> exists new, t' = (t ++ new)%list /\ In (Copied ("/usr/share/gnuconfig/" ++ n) (join_path d [n])) new) as step.
    { intros e text K. unfold andthen in K. destruct (gnuconfig_update h t) as [t1 r1] eqn:E. destruct (gnuconfig_is _ _ _ E) as (new & -> & _ & [[-> X]|(-> & _)]); [|discriminate K].
      destruct (system_or_is e text (t ++ new)%list) as (z & Y & _). cbv zeta in Y. rewrite Y in K. injection K as <- _. eexists. rewrite <- app_assoc. split; [reflexivity|]. apply in_app_iff. left. eapply X; eassumption. }
    destruct U as [[p ->]|[[p ->]| ->]]; cbn [perform] in H.
    - unfold configure, andthen at 1, can_access_file in H. destruct (s_access h t "configure"); [|discriminate H]. eapply step. exact H.
    - unfold raw_configure, andthen at 1, can_access_file in H. destruct (s_access h t "configure"); [|discriminate H]. eapply step. exact H.
    - destruct (gnuconfig_is _ _ _ H) as (new & -> & _ & [[_ X]|(K & _)]); [|discriminate K]. exists new. split; [reflexivity|]. eapply X; eassumption.
  Qed.
  Lemma python_only p t t' r : perform h (YInstall p) t = (t', r) -> exists c z, t' = (t ++ [Ran c z])%list.
  Proof.
    cbn [perform]. unfold python_install. intros H. unfold andthen at 1 in H. destruct (system_or_is EError ("python setup.py install --root=" ++ s_install h ++ " --no-compile " ++ p) t) as (z & K & _). cbv zeta in K. rewrite K in H.
    destruct (Z.eqb z 0); [apply chars_is in H as (-> & _)|injection H as <- _]; eauto.
  Qed.
  Lemma perl_first s a v : s = a ++ "perl" ++ v -> (forall a' b', s = a' ++ "perl" ++ b' -> a' = a) -> after_perl s = Some v.
  Proof.
    revert s. induction a as [|c a IH]; intros s -> U.
    - assert (py_startswith ("perl" ++ v) "perl" = true) as E by (apply startswith_iff; now exists v).
      change ((if py_startswith ("perl" ++ v) "perl" then Some (py_drop 4 ("perl" ++ v)) else after_perl ("erl" ++ v)) = Some v). rewrite E. cbn. now destruct v.
    - change (String c a ++ "perl" ++ v) with (String c (a ++ "perl" ++ v)) in *. cbn [after_perl]. destruct (py_startswith (String c (a ++ "perl" ++ v)) "perl") eqn:E.
      + apply startswith_iff in E as [r E]. specialize (U "" r E). discriminate U.
      + apply (IH _ eq_refl). intros a' b' K. assert (String c a' = String c a) as X by (apply (U _ b'); now rewrite K). now injection X.
  Qed.
  Lemma perl_last v : (forall a b, v <> a ++ "perl" ++ b) -> before_perl v = v.
  Proof.
    induction v as [|c v IH]; intros U; [reflexivity|]. cbn [before_perl]. destruct (py_startswith (String c v) "perl") eqn:E.
    - apply startswith_iff in E as [r E]. destruct (U "" r E).
    - f_equal. apply IH. intros a b K. apply (U (String c a) b). now rewrite K.
  Qed.
  Lemma perl_known v : perl_version h v -> cur_perl h = Ok v.
  Proof.
    intros (a & E & U). unfold cur_perl. rewrite (perl_first _ _ _ E U). rewrite perl_last; [reflexivity|]. intros x y ->.
    specialize (U (a ++ "perl" ++ x) y). rewrite E in U. assert (a ++ "perl" ++ x = a) as K by (apply U; now rewrite !app_assoc_s).
    apply (f_equal String.length) in K. rewrite !str_app_length in K. cbn in K. lia.
  Qed.
  Lemma pods_gone l : forall t t', eachM (fun f => let! there := can_access_file h f in if there : bool then unlink h f else ret tt) l t = (t', Ok tt) ->
    exists new, t' = (t ++ new)%list /\ (forall f, In f l -> (forall t1, s_access h t1 f = true /\ s_unlinkable h t1 f = true) -> In (Unlinked f) new) /\ (forall x, In x new -> exists f, In f l /\ x = Unlinked f).
  Proof.
    induction l as [|g l IH]; intros t t' H; cbn [eachM] in H.
    - injection H as <-. exists []. rewrite app_nil_r. repeat split; intros ? [].
    - unfold andthen, can_access_file in H. destruct (s_access h t g) eqn:A.
      + rewrite unlink_is in H. destruct (IH _ _ H) as (new & -> & X & Y). eexists. rewrite <- app_assoc. split; [reflexivity|]. split.
        * intros f [->|I] K; apply in_app_iff; [left|right; now apply X]. destruct (K t) as [_ ->]. now left.
        * intros x I. apply in_app_iff in I as [I|I]; [destruct (s_unlinkable h t g); [destruct I as [<-|[]]; exists g; split; [now left|reflexivity]|destruct I]|]. destruct (Y x I) as (f & J & K). exists f. split; [now right|exact K].
      + destruct (IH _ _ H) as (new & -> & X & Y). exists new. split; [reflexivity|]. split.
        * intros f [->|I] K; [destruct (K t); congruence|now apply X].
        * intros x I. destruct (Y x I) as (f & J & K). exists f. split; [now right|exact K].
  Qed.
  Lemma perl_pods p t t' v : perl_version h v -> perform h (PInstall p) t = (t', Ok tt) ->
    exists cmd new, t' = (t ++ Ran cmd 0%Z :: new)%list /\ (forall f, In f (pods h v) -> (forall t1, s_access h t1 f = true /\ s_unlinkable h t1 f = true) -> In (Unlinked f) new) /\ (forall x, In x new -> exists f, In f (pods h v) /\ x = Unlinked f).
  Proof.
    intros V. cbn [perform]. unfold perl_install, andthen at 1, can_access_file.
    assert (forall text, (do! system_or h EError text in fix_local_pod h) t = (t', Ok tt) -> exists cmd new, t' = (t ++ Ran cmd 0%Z :: new)%list /\ (forall f, In f (pods h v) -> (forall t1, s_access h t1 f = true /\ s_unlinkable h t1 f = true) -> In (Unlinked f) new) /\ (forall x, In x new -> exists f, In f (pods h v) /\ x = Unlinked f)) as step.
    { intros text H. unfold andthen in H. destruct (system_or_is EError text t) as (z & K & _). cbv zeta in K. rewrite K in H. destruct (Z.eqb_spec z 0) as [Z|Z]; [|discriminate H]. rewrite Z in H.
      unfold fix_local_pod, andthen at 1, lift in H. rewrite (perl_known v V) in H. apply pods_gone in H as (new & -> & X & Y). exists (py_join " " (split_blanks text)), new. split; [now rewrite <- app_assoc|].
      match type of X with forall f, In f ?l -> _ => assert (l = pods h v) as L end.
      { unfold pods. cbn [map]. rewrite !app_assoc_s. reflexivity. }
      rewrite L in X, Y. now split. }
    destruct (s_access h t "Makefile"); apply step.
  Qed.
End facts.
