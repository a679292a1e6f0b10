From Coq Require Import String Ascii ZArith List Bool Lia.
From stdpp Require Import gmap strings.
From Verif Require Import Model.Contents Spec.PathSpec Spec.ContentsSpec Proof.PyFacts Proof.PathFacts Proof.ContentsFacts Proof.PackFacts.
From Verif Require Import Model.Py Model.Path Model.Index Model.InstallDB Model.Fs Model.System Model.SearchFile
  Spec.SystemSpec Spec.SearchFileSpec Proof.ActionsPaths Proof.SystemFacts.
Open Scope string_scope.

(** ** Places *)
Lemma follow_iff f x n : forall p, follow n f p = Some x <-> exists m r, m <= n /\ leads f m p r /\ node_at f r = Some x.
Proof.
  induction n as [|n IH]; intros p; cbn [follow]; destruct (node_at f p) as [[c| |t|]|] eqn:E; split; intros H;
    try (exists 0, p; split; [lia|]; split; [constructor; intros t' K; congruence|congruence]);
    try (destruct H as (m & r & L & H & K); inversion H; subst; congruence);
    try congruence.
  - destruct H as (m & r & L & H & K). inversion H; subst; [congruence|lia].
  - apply IH in H as (m & r & L & H & K). exists (S m), r. split; [lia|]. split; [econstructor; eauto|exact K].
  - destruct H as (m & r & L & H & K). inversion H as [|m' ? t' ? E' H']; subst; [congruence|]. rewrite E in E'. injection E' as <-.
    apply IH. exists m', r. split; [lia|]. split; assumption.
Qed.
Lemma resolve_leads f n : forall m p r, m <= n -> leads f m p r -> resolve n f p = r.
Proof.
  induction n as [|n IH]; intros m p r L H; cbn [resolve]; inversion H as [? N|m' ? t ? E H']; subst.
  - destruct (node_at f r) as [[c| |t|]|] eqn:E; try reflexivity.
  - lia.
  - destruct (node_at f r) as [[c| |t|]|] eqn:E; try reflexivity. now destruct (N t).
  - rewrite E. apply (IH m'); [lia|exact H'].
Qed.
Lemma exists_arrives f p : exists_ f p = true <-> exists r, arrives f p r.
Proof.
  unfold exists_, stat. split.
  - destruct (follow 40 f p) as [x|] eqn:E; [|discriminate]. intros _. apply follow_iff in E as (m & r & L & H & K). exists r, m. repeat split; auto. congruence.
  - intros (r & m & L & H & K). destruct (node_at f r) as [x|] eqn:E; [|congruence].
    now rewrite (proj2 (follow_iff f x 40 p) (ex_intro _ m (ex_intro _ r (conj L (conj H E))))).
Qed.
Lemma resolve_arrives f p r : arrives f p r -> resolve 40 f p = r.
Proof. intros (m & L & H & _). exact (resolve_leads f 40 m p r L H). Qed.

Lemma concat_text ns : ns <> [] -> "/" ++ String.concat "/" ns = text ns.
Proof.
  induction ns as [|n ns IH]; [congruence|]. intros _. destruct ns as [|m ns].
  - cbn. now rewrite str_app_nil_r.
  - change (String.concat "/" (n :: m :: ns)) with (n ++ "/" ++ String.concat "/" (m :: ns)). rewrite IH by discriminate. now rewrite (text_cons n).
Qed.
Lemma plain_good ns : plain_names ns -> List.Forall good_name ns.
Proof. intros H. eapply List.Forall_impl; [|exact H]. now intros n (G & _). Qed.
Lemma slash_short ns : ns <> [] -> "/" ++ short ns = text ns.
Proof. destruct ns; [congruence|reflexivity]. Qed.
Lemma short_no_slash ns : ns <> [] -> List.Forall good_name ns -> forall t, short ns <> "/" ++ t.
Proof.
  destruct ns as [|n ns]; [congruence|]. intros _ F t H. inversion F as [|? ? (Z & G) _]; subst. cbn [short] in H.
  destruct n as [|c n]; [congruence|]. injection H as -> _. apply G. left. reflexivity.
Qed.
Lemma text_no_end ns : List.Forall good_name ns -> ~ ends_in_slash (text ns).
Proof.
  induction 1 as [|n ns (Z & G) _ IH].
  - intros [t H]. destruct t; discriminate H.
  - rewrite text_cons. intros H. destruct ns as [|m ns].
    + cbn in H. rewrite str_app_nil_r in H. apply (ends_slash_app "/" n Z) in H. now apply (free_no_end n Z G).
    + rewrite <- str_app_assoc in H. apply ends_slash_app in H; [now apply IH|]. rewrite text_cons. discriminate.
Qed.
Lemma go_undotted ns ms : undotted ns ms -> plain_names ms -> forall st, fold_left go ns st = (st ++ ms)%list.
Proof.
  induction 1 as [|ns ms _ IH|n ns ms _ IH]; intros P st; [now rewrite app_nil_r|exact (IH P st)|]. inversion P as [|? ? (G & A & B) P']; subst. cbn [fold_left]. unfold go at 2.
  destruct (String.eqb_spec n "."); [contradiction|]. destruct (String.eqb_spec n ".."); [contradiction|]. rewrite (IH P'), <- app_assoc. reflexivity.
Qed.
Lemma undotted_app cs ns ms : undotted ns ms -> undotted (cs ++ ns) (cs ++ ms).
Proof. intros U. induction cs as [|c cs IH]; [exact U|]. now apply undotted_name. Qed.
Lemma undotted_good ns ms : undotted ns ms -> List.Forall good_name ms -> List.Forall good_name ns.
Proof.
  induction 1 as [|ns ms _ IH|n ns ms _ IH]; intros P; [constructor| |].
  - constructor; [|exact (IH P)]. split; [discriminate|]. intros [K|[]]. discriminate K.
  - inversion P; subst. constructor; auto.
Qed.
Lemma undotted_some ns ms : undotted ns ms -> ms <> [] -> ns <> [].
Proof. now destruct 1. Qed.
Lemma addressed_abspath cwd a p : addressed cwd a p -> abspath cwd a = p.
Proof.
  assert (K : forall ns ms, undotted ns ms -> ms <> [] -> plain_names ms -> "/" ++ String.concat "/" (fold_left go (names_in (text ns)) []) = text ms).
  { intros ns ms U Z P. change (names_in (text ns)) with (names_of (text ns)). rewrite (names_of_text ns (undotted_good ns ms U (plain_good ms P))), (go_undotted ns ms U P). cbn [app]. now apply concat_text. }
  intros (ns & ms & U & Z & P & [(-> & ->)|(-> & cs & C & W & ->)]); pose proof (undotted_some ns ms U Z) as Zn; pose proof (undotted_good ns ms U (plain_good ms P)) as G.
  - unfold abspath. assert (J : os_join cwd (text ns) = text ns) .
    { unfold os_join. destruct ns as [|n ns]; [congruence|]. rewrite (proj2 (startswith_iff _ "/")); [reflexivity|]. rewrite text_cons. now eexists. }
    rewrite J. now apply K.
  - unfold abspath. assert (J : os_join cwd (short ns) = text (cs ++ ns)).
    { unfold os_join. assert (N : py_startswith (short ns) "/" = false).
      { apply not_true_is_false. rewrite startswith_iff. intros [t H]. exact (short_no_slash ns Zn G t H). }
      rewrite N. destruct W as [(Zc & ->)|(-> & ->)].
      - assert (E : String.eqb (text cs) "" || py_endswith (text cs) "/" = false).
        { apply orb_false_iff. split; [destruct cs; [congruence|reflexivity]|].
          apply not_true_is_false. rewrite endswith_iff. intros [t H]. apply (text_no_end cs (plain_good cs C)). now exists t. }
        rewrite E. rewrite text_app, <- (slash_short ns Zn). reflexivity.
      - cbn. now apply slash_short. }
    rewrite J. apply K; [now apply undotted_app|destruct cs; [exact Z|discriminate]|]. unfold plain_names. apply List.Forall_app. now split.
Qed.

(** ** One argument *)
Lemma without_iff x q : without_slashes x q <-> py_lstrip "/" x = q.
Proof.
  split.
  - intros (s & A & -> & N). now apply lstrip_slashes.
  - revert q. induction x as [|c x IH]; intros q; cbn [py_lstrip].
    + intros <-. exists "". repeat split; [intros c []|discriminate].
    + destruct (char_in c "/") eqn:E.
      * intros H. apply IH in H as (s & A & -> & N). exists (String c s). repeat split; [|exact N]. intros c' [<-|I]; [|now apply A].
        apply char_in_iff in E. destruct E as [E|[]]. now symmetry.
      * intros <-. exists "". repeat split; [intros c' []|]. intros t H. injection H as -> _. discriminate E.
Qed.
Definition sought (f : fs) (cwd a : string) : string := py_lstrip "/" (if path_exists f cwd a then realpath f cwd a else a).
Lemma asked_iff f cwd a q p : addressed cwd a p -> asked f cwd a q <-> q = sought f cwd a.
Proof.
  intros A. unfold sought, path_exists, realpath. split.
  - intros (p' & A' & H). assert (p' = p) by (rewrite <- (addressed_abspath _ _ _ A'); exact (addressed_abspath _ _ _ A)). subst p'.
    rewrite (addressed_abspath _ _ _ A). destruct H as [(r & R & W)|(N & W)]; apply without_iff in W as <-.
    + rewrite (proj2 (exists_arrives f p) (ex_intro _ r R)). now rewrite (resolve_arrives f p r R).
    + destruct (exists_ f p) eqn:E; [|reflexivity]. now apply exists_arrives in E.
  - intros ->. exists p. split; [exact A|]. rewrite (addressed_abspath _ _ _ A). destruct (exists_ f p) eqn:E.
    + left. apply exists_arrives in E as (r & R). exists r. split; [exact R|]. apply without_iff. now rewrite (resolve_arrives f p r R).
    + right. split; [|now apply without_iff]. intros K. apply exists_arrives in K. congruence.
Qed.
Lemma tells_one s f cwd long a p : system s -> addressed cwd a p ->
  exists ls, search_exact (y_files s) false long (if path_exists f cwd a then realpath f cwd a else a) = Ok ls /\ tells s f cwd long a (Searching a :: ls).
Proof.
  intros S A. unfold search_exact. fold (sought f cwd a). set (q := sought f cwd a). cbn [negb bind]. unfold has_file. fold (get_file (y_files s) q).
  destruct (get_file (y_files s) q) as [[n e]|] eqn:E.
  - eexists. split; [reflexivity|]. exists q. split; [now apply (asked_iff f cwd a q p A)|]. left.
    destruct (owner_lists s q n e S E) as (I & files & L & J & K). exists n, e, files. repeat split; try assumption; [now exists e|]. destruct long; reflexivity.
  - eexists. split; [reflexivity|]. exists q. split; [now apply (asked_iff f cwd a q p A)|]. right. split; [|reflexivity]. intros n [e H]. congruence.
Qed.
Lemma each_told s f cwd long args : system s -> (forall a, In a args -> exists p, addressed cwd a p) ->
  exists answers, each_path f cwd (y_files s) false long args = Ok (concat answers) /\ Forall2 (tells s f cwd long) args answers.
Proof.
  intros S. induction args as [|a args IH]; intros H.
  - exists []. split; [reflexivity|constructor].
  - destruct (H a (or_introl eq_refl)) as [p A]. destruct (IH (fun b I => H b (or_intror I))) as (answers & E & F).
    destruct (tells_one s f cwd long a p S A) as (ls & L & T). exists ((Searching a :: ls) :: answers). split; [|now constructor].
    cbn [each_path]. rewrite L. cbn [bind]. rewrite E. reflexivity.
Qed.
Lemma told s f cwd long args : system s -> args <> [] -> (forall a, In a args -> exists p, addressed cwd a p) ->
  exists answers, search_file f cwd (y_files s) false long args = Ok (concat answers) /\ Forall2 (tells s f cwd long) args answers.
Proof. intros S Z H. destruct args as [|a args]; [congruence|]. exact (each_told s f cwd long (a :: args) S H). Qed.
Lemma found s f cwd long a q : lived no_shared_paths s -> asked f cwd a q ->
  exists ls, search_file f cwd (y_files s) false long [a] = Ok ls /\
    (forall n p, In (Has n p) ls <-> p = q /\ lists s n p) /\ (forall p, In (Nobody p) ls <-> p = q /\ forall n, ~ lists s n p).
Proof.
  intros L Q. assert (Q' := Q). destruct Q' as (p & A & _). pose proof (proj1 (asked_iff f cwd a q p A) Q) as ->.
  cbn [search_file each_path]. unfold search_exact. fold (sought f cwd a). set (q := sought f cwd a) in *. cbn [negb bind]. unfold has_file. fold (get_file (y_files s) q).
  destruct (get_file (y_files s) q) as [[n e]|] eqn:E; (eexists; split; [reflexivity|]).
  - assert (O : owner s q n) by (now exists e). split.
    + intros m x. rewrite <- (no_shared_exact s m x L). split.
      * intros I. destruct long; cbn in I; repeat destruct I as [I|I]; try discriminate; try contradiction; injection I as <- <-; now split.
      * intros (-> & e' & H). right. left. cbn [fst snd]. congruence.
    + intros x. split.
      * intros I. destruct long; cbn in I; repeat destruct I as [I|I]; try discriminate; contradiction.
      * intros (-> & N). destruct (N n). now apply no_shared_exact.
  - assert (O : forall m, ~ lists s m q) by (intros m H; apply (no_shared_exact s m q L) in H as [e H]; congruence). split.
    + intros m x. cbn. split; [intros [I|[I|[]]]; discriminate|]. intros (-> & H). destruct (O m H).
    + intros x. cbn. split; [intros [I|[I|[]]]; [discriminate|]; injection I as <-; now split|]. intros (-> & _). auto.
Qed.

(** ** Patterns *)
Lemma to_bracket_app t s : ~ In "]"%char (list_ascii_of_string t) -> to_bracket (t ++ "]" ++ s) = Some (t, s).
Proof.
  induction t as [|c t IH]; intros N; [reflexivity|].
  change (to_bracket (String c t ++ "]" ++ s)) with (if Ascii.eqb c "]" then Some ("", t ++ "]" ++ s) else match to_bracket (t ++ "]" ++ s) with Some (a, b) => Some (String c a, b) | None => None end).
  destruct (Ascii.eqb_spec c "]") as [->|D]; [destruct N; now left|].
  rewrite IH; [reflexivity|]. intros I. apply N. now right.
Qed.
Lemma item_head i s : exists t, item_text i ++ s = String (fst i) t.
Proof. unfold item_text. destruct (Ascii.eqb (fst i) (snd i)); eexists; reflexivity. Qed.
Lemma items_no_bracket is_ : List.Forall good_item is_ -> ~ In "]"%char (list_ascii_of_string (items_text is_)).
Proof.
  induction 1 as [|[x y] is_ (B & D & X & Y) _ IH]; [intros []|]. cbn [items_text fold_right]. fold (items_text is_). cbn [fst snd] in *.
  rewrite los_app, in_app_iff. intros [I|I]; [|now apply IH]. unfold item_text in I. cbn [fst snd] in I.
  destruct (Ascii.eqb x y); cbn in I; repeat destruct I as [I|I]; try contradiction; try (now apply X); try (now apply Y); discriminate.
Qed.
Lemma ranges_single x d s : Ascii.eqb d "-" = false -> ranges (x :: d :: s) = (r <- ranges (d :: s) ;; Ok ((x, x) :: r)).
Proof. intros D. destruct s as [|y s]; [reflexivity|]. change (ranges (x :: d :: y :: s)) with
  (if Ascii.eqb d "-" then if (N_of_ascii y <? N_of_ascii x)%N then Err EValue else r <- ranges s ;; Ok ((x, y) :: r) else r <- ranges (d :: y :: s) ;; Ok ((x, x) :: r)).
  now rewrite D. Qed.
Lemma ranges_items is_ : List.Forall good_item is_ -> ranges (list_ascii_of_string (items_text is_)) = Ok is_.
Proof.
  induction 1 as [|[x y] is_ (B & D & X & Y) F IH]; [reflexivity|]. cbn [items_text fold_right]. fold (items_text is_). cbn [fst snd] in *.
  unfold item_text. cbn [fst snd]. destruct (Ascii.eqb_spec x y) as [->|N].
  - change (list_ascii_of_string (String y "" ++ items_text is_)) with (y :: list_ascii_of_string (items_text is_)). destruct (list_ascii_of_string (items_text is_)) as [|d l] eqn:E.
    + cbn in IH. injection IH as <-. reflexivity.
    + assert (Dd : Ascii.eqb d "-" = false).
      { destruct is_ as [|i is_]; [discriminate E|]. cbn [items_text fold_right] in E. destruct (item_head i (fold_right (fun i s => item_text i ++ s) "" is_)) as [t K]. rewrite K in E.
        injection E as <- _. inversion F as [|? ? (_ & D' & _) _]; subst. now apply Ascii.eqb_neq. }
      rewrite (ranges_single y d l Dd), IH. reflexivity.
  - change (ranges (list_ascii_of_string (String x (String "-" (String y "")) ++ items_text is_))) with
      (if (N_of_ascii y <? N_of_ascii x)%N then Err EValue else r <- ranges (list_ascii_of_string (items_text is_)) ;; Ok ((x, y) :: r)).
    unfold before in B. assert (L : (N_of_ascii y <? N_of_ascii x)%N = false) by (apply N.ltb_ge; exact B). rewrite L, IH. reflexivity.
Qed.
Lemma eat_not c x t : x <> c -> eat c (String x t) = ("", String x t).
Proof. intros N. cbn. destruct (Ascii.eqb_spec x c); congruence. Qed.
Definition test_of (p : part) : test := match p with Is c => TChar c | AnyOne => TAny | Anything => TMany | OneOf b is_ => TOne b is_ end.
Lemma compile_written ps s : written ps s -> forall n, String.length s <= n -> Py.mapM compile (translate n s) = Ok (map test_of ps).
Proof.
  induction 1 as [|c ps s A B D W IH|ps s W IH|ps s W IH|x y items ps s A F W IH|i items ps s F W IH]; intros n L.
  - now destruct n.
  - destruct n as [|n]; [cbn in L; lia|]. cbn [translate]. destruct (Ascii.eqb_spec c "*"); [congruence|]. destruct (Ascii.eqb_spec c "?"); [congruence|].
    destruct (Ascii.eqb_spec c "["); [congruence|]. cbn [Py.mapM compile bind]. rewrite IH by (cbn in L; lia). reflexivity.
  - destruct n as [|n]; [cbn in L; lia|]. cbn. rewrite IH by (cbn in L; lia). reflexivity.
  - destruct n as [|n]; [cbn in L; lia|]. cbn. rewrite IH by (cbn in L; lia). reflexivity.
  - change ("[" ++ items_text ((x, y) :: items) ++ "]" ++ s) with (String "[" (items_text ((x, y) :: items) ++ "]" ++ s)) in *. destruct n as [|n]; [cbn [String.length] in L; lia|].
    assert (Bk : bracket (items_text ((x, y) :: items) ++ "]" ++ s) = Some (items_text ((x, y) :: items), s)).
    { unfold bracket. destruct (item_head (x, y) (items_text items)) as [t K]. cbn [items_text fold_right]. fold (items_text items). rewrite K. cbn [fst]. change (String x t ++ "]" ++ s) with (String x (t ++ "]" ++ s)).
      inversion F as [|? ? (_ & _ & X & _) _]; subst. cbn [fst] in X. rewrite (eat_not "!" x) by exact A. rewrite (eat_not "]" x) by exact X.
      change (String x (t ++ "]" ++ s)) with (String x t ++ "]" ++ s). rewrite to_bracket_app; [reflexivity|].
      pose proof (items_no_bracket _ F) as N. cbn [items_text fold_right] in N. fold (items_text items) in N. rewrite K in N. exact N. }
    cbn [translate]. change (Ascii.eqb "[" "*") with false. change (Ascii.eqb "[" "?") with false. change (Ascii.eqb "[" "[") with true. cbv iota. rewrite Bk.
    cbn [Py.mapM compile].
    assert (Et : eat "!" (items_text ((x, y) :: items)) = ("", items_text ((x, y) :: items))).
    { destruct (item_head (x, y) (items_text items)) as [t K]. cbn [items_text fold_right]. fold (items_text items). rewrite K. now apply eat_not. }
    rewrite Et, (ranges_items _ F). cbn [bind]. rewrite IH; [reflexivity|]. cbn [String.length] in L. rewrite !str_app_length in L. cbn in L. lia.
  - change ("[!" ++ items_text (i :: items) ++ "]" ++ s) with (String "[" (String "!" (items_text (i :: items) ++ "]" ++ s))) in *. destruct n as [|n]; [cbn [String.length] in L; lia|].
    assert (Bk : bracket (String "!" (items_text (i :: items) ++ "]" ++ s)) = Some (String "!" (items_text (i :: items)), s)).
    { unfold bracket. cbn [eat]. change (Ascii.eqb "!" "!") with true. cbv iota. destruct (item_head i (items_text items)) as [t K]. cbn [items_text fold_right]. fold (items_text items). rewrite K. change (String (fst i) t ++ "]" ++ s) with (String (fst i) (t ++ "]" ++ s)).
      inversion F as [|? ? (_ & _ & X & _) _]; subst. rewrite (eat_not "]" (fst i)) by exact X.
      change (String (fst i) (t ++ "]" ++ s)) with (String (fst i) t ++ "]" ++ s). rewrite to_bracket_app; [reflexivity|].
      pose proof (items_no_bracket _ F) as N. cbn [items_text fold_right] in N. fold (items_text items) in N. rewrite K in N. exact N. }
    cbn [translate]. change (Ascii.eqb "[" "*") with false. change (Ascii.eqb "[" "?") with false. change (Ascii.eqb "[" "[") with true. cbv iota. rewrite Bk.
    cbn [Py.mapM compile eat]. change (Ascii.eqb "!" "!") with true. cbv iota. rewrite (ranges_items _ F). cbn [bind]. rewrite IH; [reflexivity|].
    cbn [String.length] in L. rewrite !str_app_length in L. cbn in L. lia.
Qed.
Lemma in_ranges_iff c is_ : in_ranges c is_ = true <-> among c is_.
Proof.
  unfold in_ranges, among, before. rewrite existsb_exists. split.
  - intros ([x y] & I & H). apply andb_true_iff in H as [A B]. apply N.leb_le in A, B. exists x, y. auto.
  - intros (x & y & I & A & B). exists (x, y). split; [exact I|]. apply andb_true_iff. split; now apply N.leb_le.
Qed.
Lemma matches_iff ps : forall s, matches (map test_of ps) s = true <-> fits ps s.
Proof.
  induction ps as [|p ps IH]; intros s.
  - cbn. rewrite String.eqb_eq. split; [intros ->; constructor|]. inversion 1; reflexivity.
  - destruct p as [c| | |b is_]; cbn [map test_of matches].
    + destruct s as [|d s]; [split; [discriminate|inversion 1]|]. rewrite andb_true_iff, IH. cbn [passes]. rewrite Ascii.eqb_eq. split.
      * intros [-> H]. now constructor.
      * inversion 1; subst. auto.
    + destruct s as [|d s]; [split; [discriminate|inversion 1]|]. rewrite andb_true_iff, IH. split; [intros [_ H]; now constructor|]. inversion 1; subst. auto.
    + split.
      * induction s as [|d s IHs]; cbn; intros H; apply orb_true_iff in H as [H|H].
        -- apply IH in H. change "" with ("" ++ "")%string. now constructor.
        -- discriminate.
        -- apply IH in H. change (String d s) with ("" ++ String d s)%string. now constructor.
        -- apply IHs in H. inversion H as [| | |t ? s' F E1 E2| |]; subst. change (String d (t ++ s')) with (String d t ++ s')%string. now constructor.
      * intros H. inversion H as [| | |t ? s' F E1 E2| |]; subst. clear H. induction t as [|d t IHt]; cbn [String.append].
        -- destruct s' as [|d s']; apply orb_true_iff; left; now apply IH.
        -- apply orb_true_iff. now right.
    + destruct s as [|d s]; [split; [discriminate|inversion 1]|]. rewrite andb_true_iff, IH. cbn [passes]. pose proof (in_ranges_iff d is_) as R. destruct b; [rewrite xorb_true_l|rewrite xorb_false_l].
      * rewrite negb_true_iff. split.
        -- intros [A H]. constructor; [|exact H]. intros K. apply R in K. congruence.
        -- inversion 1; subst. split; [|assumption]. apply not_true_is_false. now rewrite R.
      * split; [intros [A H]; constructor; [now apply R|exact H]|]. inversion 1; subst. split; [now apply R|assumption].
Qed.
Lemma matching_filter ps glob kvs : written ps glob ->
  matching kvs glob = Ok (List.filter (fun kv => matches (map test_of ps) (fst kv)) kvs).
Proof.
  intros W. induction kvs as [|kv kvs IH]; [reflexivity|]. cbn [matching List.filter]. unfold fnmatch. rewrite (compile_written ps glob W) by lia. cbn [bind].
  rewrite IH. cbn [bind]. now destruct (matches (map test_of ps) (fst kv)).
Qed.
Lemma fuzzy s f cwd long a pat ps : asked f cwd a pat -> written ps pat ->
  exists ls, search_file f cwd (y_files s) true long [a] = Ok ls /\
    (forall n q, In (Has n q) ls <-> owner s q n /\ fits ps q) /\ List.NoDup (places ls) /\
    (forall p, In (Nobody p) ls <-> p = pat /\ forall n q, owner s q n -> ~ fits ps q).
Proof.
  intros Q W. assert (Q' := Q). destruct Q' as (p & A & _). pose proof (proj1 (asked_iff f cwd a pat p A) Q) as E.
  cbn [search_file each_path]. unfold search_exact. fold (sought f cwd a). rewrite <- E. clear E Q A p. cbn [negb]. cbv iota. unfold match_files.
  rewrite (matching_filter ps pat _ W). cbn [bind].
  set (fs_ := List.filter (fun kv : string * (string * finfo) => matches (map test_of ps) (fst kv)) (map_to_list (y_files s))).
  assert (M : forall n q, (exists e, In (q, (n, e)) fs_) <-> owner s q n /\ fits ps q).
  { intros n q. unfold owner, get_file. split.
    - intros [e I]. apply filter_In in I as [I K]. apply elem_of_list_In, elem_of_map_to_list in I. split; [now exists e|]. now apply matches_iff.
    - intros [[e I] K]. exists e. apply filter_In. split; [now apply elem_of_list_In, elem_of_map_to_list|]. now apply matches_iff. }
  assert (D : List.NoDup (map fst fs_)).
  { unfold fs_. generalize (NoDup_fst_map_to_list (y_files s)). rewrite NoDup_ListNoDup. generalize (map_to_list (y_files s)) as l. clear.
    induction l as [|kv l IH]; [intros _; constructor|]. intros H. cbn in H. inversion H as [|? ? N H']; subst. cbn [List.filter].
    destruct (matches (map test_of ps) (fst kv)); [|now apply IH]. cbn [map]. constructor; [|now apply IH]. intros I. apply N.
    apply in_map_iff in I as (kv' & <- & I). apply filter_In in I as [I _]. change (In (fst kv') (map fst l)). now apply in_map. }
  clearbody fs_. destruct fs_ as [|kf fs'].
  - eexists. split; [reflexivity|]. split; [|split].
    + intros n q. rewrite <- M. split; [intros [I|[I|[]]]; discriminate|intros [e []]].
    + constructor.
    + intros p. cbn. split; [intros [I|[I|[]]]; [discriminate|]; injection I as <-|intros [-> _]; auto]. split; [reflexivity|]. intros n q O F. destruct (proj2 (M n q) (conj O F)) as [e []].
  - cbn [bind]. rewrite app_nil_r. remember (kf :: fs') as fs_ eqn:E. assert (Z : fs_ <> []) by (rewrite E; discriminate). clear E. eexists. split; [reflexivity|]. split; [|split].
    + intros n q. rewrite <- M. split.
      * intros [I|I]; [discriminate|]. apply in_flat_map in I as ((q' & n' & e) & I & [J|J]).
        -- injection J as <- <-. now exists e.
        -- destruct long; [destruct J as [J|[]]; discriminate|destruct J].
      * intros [e I]. right. apply in_flat_map. exists (q, (n, e)). split; [exact I|now left].
    + cbn [places flat_map app]. assert (K : forall l : list (string * (string * finfo)), flat_map (fun l => match l with Has _ q => [q] | _ => [] end)
        (flat_map (fun kf : string * (string * finfo) => Has (fst (snd kf)) (fst kf) :: (if long then [Details (f_type (snd (snd kf))) (f_hash (snd (snd kf)))] else [])) l) = map fst l).
      { induction l as [|kf0 l IH]; [reflexivity|]. cbn [flat_map]. rewrite flat_map_app, IH. now destruct long. }
      rewrite K. exact D.
    + intros p. split.
      * intros [I|I]; [discriminate|]. apply in_flat_map in I as ((q' & n' & e) & I & [J|J]); [discriminate|]. destruct long; [destruct J as [J|[]]; discriminate|destruct J].
      * intros [_ N]. destruct fs_ as [|[q [n e]] more]; [congruence|]. destruct (proj1 (M n q) (ex_intro _ e (or_introl eq_refl))) as [O F]. destruct (N n q O F).
Qed.
