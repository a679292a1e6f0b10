(** * Documentation in action scripts: lemmas *)
From Coq Require Import String Ascii ZArith List Bool Lia.
From stdpp Require Import gmap strings.
From Verif Require Import Model.Py Model.InstallDB Model.Path Model.ArTimes Model.Fs Model.Trace Model.Actions Model.Strip Model.Documents
  Spec.PathSpec Spec.FsSpec Spec.StripSpec Spec.ActionsSpec Spec.DocumentsSpec
  Proof.PyFacts Proof.PathFacts Proof.FsFacts Proof.TraceFacts Proof.ActionsPaths Proof.ActionsFacts Proof.ActionsTop Proof.ActionsExact Proof.StripFacts.
Import ListNotations.
Open Scope string_scope.
Open Scope prog_scope.
Notation los := list_ascii_of_string.

(** ** Extensions *)
Definition named (e f : string) : Prop :=
  exists d n c, f = d ++ n ++ e /\ (d = "" \/ ends_in_slash d) /\ free_of "/" n /\ In c (los n) /\ c <> "."%char.
Lemma extension_named t f : ~ In "."%char (los t) -> ~ In "/"%char (los t) -> (extension f = String "." t <-> named (String "." t) f).
Proof.
  intros Td Ts. unfold extension. split.
  - intros E. destruct (basename_split f) as (d & Hf & D & F). revert E Hf F. generalize (basename f) as b. intros b E Hf F.
    destruct (py_rfind "." b) as [n|] eqn:R; [|discriminate]. destruct (all_dots (py_take n b)) eqn:A; [discriminate|].
    assert (b = py_take n b ++ py_drop n b) as T.
    { clear. revert n. induction b as [|x b IH]; intros [|n]; try reflexivity. cbn [py_take py_drop]. change (String x (py_take n b) ++ py_drop n b) with (String x (py_take n b ++ py_drop n b)). now rewrite <- IH. }
    rewrite E in T. assert (exists c, In c (los (py_take n b)) /\ c <> "."%char) as (c & I & Nc).
    { clear -A. revert A. generalize (py_take n b) as t. induction t as [|x t IH]; [discriminate|]. cbn [all_dots list_ascii_of_string]. intros A.
      destruct (Ascii.eqb_spec x ".") as [->|Nx]; [|exists x; split; [now left|assumption]].
      destruct (IH A) as (c & I & Nc). exists c. split; [now right|assumption]. }
    exists d, (py_take n b), c. split; [now rewrite <- T|]. split; [assumption|]. split; [|auto].
    intros K. apply F. rewrite T, los_app. apply in_or_app. now left.
  - intros (d & n & c & -> & D & F & I & Nc). rewrite basename_after; [|assumption|].
    2:{ unfold free_of. rewrite los_app, in_app_iff. intros [K|[K|K]]; [now apply F|discriminate K|now apply Ts]. }
    rewrite rfind_app by exact Td. rewrite take_app, drop_app.
    destruct (all_dots n) eqn:A; [|reflexivity]. exfalso. apply Nc. now apply (proj1 (all_dots_iff n) A).
Qed.
Lemma allowed_iff p : allowed p = true <-> page p.
Proof.
  unfold allowed, page. rewrite existsb_exists. split.
  - intros (e & I & E). apply String.eqb_eq in E. assert (named e p) as (d & n & c & H1 & H2 & H3 & H4 & H5).
    { cbn in I. repeat destruct I as [<-|I]; try contradiction; apply (extension_named _ p); try exact E; cbn; intuition discriminate. }
    exists d, n, c, e. auto 10.
  - intros (d & n & c & e & H1 & H2 & H3 & H4 & H5 & I). exists e. split; [exact I|]. apply String.eqb_eq. assert (N : named e p) by (exists d, n, c; auto).
    cbn in I. repeat destruct I as [<-|I]; try contradiction; apply (extension_named _ p) in N; try exact N; cbn; intuition discriminate.
Qed.
Lemma allowed_not p : allowed p = false <-> ~ page p.
Proof. rewrite <- allowed_iff. now destruct (allowed p). Qed.

(** ** Files put in a directory *)
Section fill.
  Context (cwd root : string) (f : fs) (ds : list string) (all : list file) (ok : option node -> Prop).
  Notation place := (place root).
  Notation spot p := (below root (ds ++ [basename p])).
  Definition put (l : list file) (h : fs) : fs := fold_left (fun h (pc : file) => <[spot pc.1 := NFile pc.2]> h) l h.
  Lemma put_app a b h : put (a ++ b) h = put b (put a h). Proof. apply fold_left_app. Qed.
  Lemma put_other l : forall h q, (forall p c, In (p, c) l -> q <> spot p) -> put l h !! q = h !! q.
  Proof.
    induction l as [|[p c] l IH]; intros h q N; [reflexivity|]. change (put ((p, c) :: l) h) with (put l (<[spot p := NFile c]> h)). rewrite IH by (intros; eapply N; right; eassumption).
    apply lookup_insert_ne. intros E. apply (N p c); [now left|now symmetry].
  Qed.
  Lemma put_same l : forall h q, put l h !! q = h !! q \/ exists c, put l h !! q = Some (NFile c).
  Proof.
    induction l as [|[p c] l IH]; intros h q; [now left|]. change (put ((p, c) :: l) h) with (put l (<[spot p := NFile c]> h)). destruct (IH (<[spot p := NFile c]> h) q) as [X|X]; [|now right].
    rewrite X. destruct (decide (spot p = q)) as [<-|Ne]; [rewrite lookup_insert; right; now exists c|]. rewrite lookup_insert_ne by exact Ne. now left.
  Qed.
  Lemma below_names_inj p q : root <> "/" -> root <> "" -> (forall n, In n ds -> name n) -> name (basename p) -> name (basename q) -> spot p = spot q -> basename p = basename q.
  Proof.
    intros R1 R2 Nd Np Nq E. apply below_inj in E; [now apply app_inj_tail in E as [_ ?]|exact R1|exact R2| |]; apply names_app; (split; [exact Nd|now intros m [<-|[]]]).
  Qed.
  Lemma put_filled l g : root <> "/" -> root <> "" -> (forall n, In n ds -> name n) -> (forall p c, In (p, c) l -> name (basename p)) -> filled root ds l g (put l g).
  Proof.
    intros R1 R2 Nd Nl. split; [|intros q; apply put_other]. intros a p c b -> H. rewrite put_app. change (put ((p, c) :: b) (put a g)) with (put b (<[spot p := NFile c]> (put a g))).
    rewrite put_other; [apply lookup_insert|]. intros q e I E. apply (H q e I). symmetry. apply below_names_inj; try assumption; [apply (Nl p c)|apply (Nl q e)]; rewrite in_app_iff; right; [now left|now right].
  Qed.

  Hypotheses (okF : forall c, ok (Some (NFile c))) (okD : ~ ok (Some NDir)).
  Hypotheses (R1 : root <> "/") (R2 : root <> "") (Sf : stands f root) (Nd : forall n, In n ds -> name n) (Nall : forall p c, In (p, c) all -> name (basename p)).
  (** All that happens on the way *)
  Definition fine (h : fs) : Prop :=
    same_but (beneath root) f h /\ (forall a b, ds = (a ++ b)%list -> a <> [] -> h !! below root a = Some NDir) /\ (forall p c, In (p, c) all -> ok (h !! spot p)).
  Lemma spot_names p : name (basename p) -> forall m, In m (ds ++ [basename p]) -> name m.
  Proof. intros N. apply names_app. split; [exact Nd|now intros m [<-|[]]]. Qed.
  Lemma fine_put l h : incl l all -> fine h -> fine (put l h).
  Proof.
    intros Il (A & B & C). split; [|split].
    - intros q Nq. rewrite put_other; [now apply A|]. intros p c I ->. apply Nq. apply below_beneath; [exact R1|exact R2|]. intros E. now apply app_eq_nil in E as [_ ?].
    - intros a b E Na. rewrite put_other; [now apply (B a b)|]. intros p c I X. apply below_inj in X; [|exact R1|exact R2|intros n J; apply Nd; rewrite E, in_app_iff; now left|apply spot_names; eapply Nall, Il; eassumption].
      rewrite X in E. now apply snoc_longer in E.
    - intros p c I. destruct (put_same l h (spot p)) as [->|[e ->]]; [now apply (C p c)|apply okF].
  Qed.
  Lemma fine_stands h : fine h -> stands h root. Proof. intros (A & _). exact (stands_same root f h A Sf). Qed.
  Lemma fine_dir h : fine h -> node_at h (below root ds) = Some NDir.
  Proof.
    intros F. rewrite node_at_below by assumption. destruct ds as [|n ns] eqn:E; [cbn [below]; now apply root_there, fine_stands|]. rewrite <- E in *. destruct F as (_ & B & _). apply (B ds []); [now rewrite app_nil_r|rewrite E; discriminate].
  Qed.
  Lemma fine_locate h : fine h -> locate cwd true h (place ds) = Some (below root ds).
  Proof.
    intros F. apply locate_reach; [now apply fine_stands|exact Nd|intros b e E N1 _; destruct F as (_ & B & _); now apply (B b e)|].
    intros _ _ t K. pose proof (fine_dir h F) as D. rewrite node_at_below, K in D by assumption. discriminate D.
  Qed.

  (** The program puts these files. *)
  Definition does (p : prog fs unit) (l : list file) : Prop := forall h, fine h -> result p h = Ok tt /\ final p h = put l h.
  Lemma does_ret : does (ret tt) []. Proof. intros h _. now split. Qed.
  Lemma does_then p q a b : incl a all -> does p a -> does q b -> does (_ <~ p ;; q) (a ++ b).
  Proof.
    intros I P Q h F. destruct (P h F) as [R E]. destruct (Q (put a h) (fine_put a h I F)) as [R' E']. split.
    - unfold result. rewrite (andthen_ok p _ h tt R). cbn [snd]. rewrite E. exact R'.
    - rewrite (andthen_final p _ h tt R), E, put_app. exact E'.
  Qed.
  Lemma does_ask (k : fs -> prog fs unit) l : (forall h, fine h -> does (k h) l) -> does (h <~ ask (fun h => h) ;; k h) l.
  Proof. intros H h F. unfold result, final. rewrite ask_eq. exact (H h F h F). Qed.
  Lemma does_each {A} (F : A -> prog fs unit) (gives : A -> list file -> Prop) l r : (forall x d, gives x d -> incl d all -> does (F x) d) -> collected gives l r -> incl r all -> does (each F l) r.
  Proof.
    intros H C. induction C as [|x l a b G C IH]; intros I; [exact does_ret|]. cbn [each]. apply does_then; [intros y J; apply I, in_app_iff; now left| |].
    - apply H; [exact G|intros y J; apply I, in_app_iff; now left].
    - apply IH. intros y J. apply I, in_app_iff. now right.
  Qed.
  Context (runs : string -> fs -> bool).
  Hypothesis Rn : forall p g, runs p g = true.
  Lemma does_install p c : In (p, c) all -> always root f (fun g => os_stat cwd g p = Some (NFile c)) -> does (install_cmd cwd runs p (place ds)) [(p, c)].
  Proof.
    intros I St h F. assert (E : install_cmd cwd runs p (place ds) h = ([<[spot p := NFile c]> h], Ok tt)); [|unfold result, final; rewrite E; now split].
    unfold install_cmd. rewrite ask_eq, (St h (proj1 F)), (fine_locate h F), (fine_dir h F). rewrite <- (below_snoc root ds (basename p)). rewrite node_at_below by assumption. rewrite Rn.
    destruct F as (_ & _ & C). specialize (C p c I). destruct (h !! spot p) as [[]|] eqn:X; try reflexivity. contradiction.
  Qed.
  Lemma does_nothing p : always root f (fun g => forall c, os_stat cwd g p <> Some (NFile c)) -> does (install_cmd cwd runs p (place ds)) [].
  Proof.
    intros St h F. unfold result, final, install_cmd. rewrite ask_eq. specialize (St h (proj1 F)). cbn beta in St. revert St. destruct (os_stat cwd h p) as [[c| | |]|]; intros St; try (now split). exfalso. now apply (St c).
  Qed.
  Lemma does_makedirs ig : does (makedirs cwd ig (place ds)) [].
  Proof.
    intros h F. unfold result, final, makedirs. rewrite ask_eq. unfold e_exists, os_stat. rewrite (fine_locate h F), (fine_dir h F). now split.
  Qed.
  Context (expand walked : fs -> string -> list string).
  Lemma does_source (F : string -> prog fs unit) (gives : string -> list file -> Prop) s r : (forall x d, gives x d -> incl d all -> does (F x) d) -> source cwd root f expand gives s r -> incl r all ->
    does (h <~ ask (fun h => h) ;; each F (glob cwd expand h s)) r.
  Proof. intros H (ps & G & C) I. apply does_ask. intros h Fh. rewrite (G h (proj1 Fh)). now apply (does_each F gives). Qed.
  Lemma does_sources (F : string -> prog fs unit) (gives : string -> list file -> Prop) (g : string -> string) l r : (forall x d, gives x d -> incl d all -> does (F x) d) -> collected (fun s => source cwd root f expand gives (g s)) l r -> incl r all ->
    does (each (fun s => h <~ ask (fun h => h) ;; each F (glob cwd expand h (g s))) l) r.
  Proof.
    intros H. apply (does_each (fun s => h <~ ask (fun h => h) ;; each F (glob cwd expand h (g s))) (fun s => source cwd root f expand gives (g s))). intros s d. now apply (does_source F gives).
  Qed.
  Lemma does_as_file p d : as_file cwd root f p d -> incl d all -> does (install_cmd cwd runs p (place ds)) d.
  Proof. intros [c A|A] I; [apply does_install; [apply I; now left|exact A]|now apply does_nothing]. Qed.
  Lemma does_pages ig l r : pages l r -> (forall q c, In (q, c) l -> always root f (fun g => os_stat cwd g q = Some (NFile c))) -> incl r all ->
    does (each (fun q => if allowed q then _ <~ makedirs cwd ig (place ds) ;; install_cmd cwd runs q (place ds) else ret tt) (map fst l)) r.
  Proof.
    induction 1 as [|p c l r P _ IH|p c l r P _ IH]; intros St I; cbn [map each fst]; [exact does_ret| |].
    - rewrite (proj2 (allowed_iff p) P). apply (does_then _ _ [(p, c)] r); [intros x [<-|[]]; apply I; now left| |apply IH; [intros q e J; apply (St q e); now right|intros x J; apply I; now right]].
      apply (does_then _ _ [] [(p, c)]); [intros x []|apply does_makedirs|]. apply does_install; [apply I; now left|apply St; now left].
    - rewrite (proj2 (allowed_not p) P). apply (does_then _ _ [] r); [intros x []|exact does_ret|]. apply IH; [intros q e J; apply (St q e); now right|exact I].
  Qed.
  Lemma does_html ig p d : as_html cwd root f walked p d -> incl d all -> does (html_one cwd ig runs walked (place ds) p) d.
  Proof.
    intros G I. unfold html_one. apply does_ask. intros h Fh. destruct G as [c St P|c St P|St Cv|l r St Cv Wk Sl Pg].
    - unfold e_isfile. rewrite (St h (proj1 Fh)), (proj2 (allowed_iff p) P). cbn [andb]. apply (does_then _ _ [(p, c)] []); [exact I|apply does_install; [apply I; now left|exact St]|].
      apply does_ask. intros k Fk. unfold e_isdir. rewrite (St k (proj1 Fk)). exact does_ret.
    - unfold e_isfile. rewrite (St h (proj1 Fh)), (proj2 (allowed_not p) P). cbn [andb]. apply (does_then _ _ [] []); [exact I|exact does_ret|].
      apply does_ask. intros k Fk. unfold e_isdir. rewrite (St k (proj1 Fk)). exact does_ret.
    - unfold e_isfile. rewrite (St h (proj1 Fh)). cbn [andb]. apply (does_then _ _ [] []); [exact I|exact does_ret|].
      apply does_ask. intros k Fk. unfold e_isdir, disallowed. rewrite (St k (proj1 Fk)), Cv. exact does_ret.
    - unfold e_isfile. rewrite (St h (proj1 Fh)). cbn [andb]. apply (does_then _ _ [] r); [intros x []|exact does_ret|].
      apply does_ask. intros k Fk. unfold e_isdir, disallowed. rewrite (St k (proj1 Fk)), (proj2 (String.eqb_neq _ _) Cv). cbn [andb negb]. unfold html_dir.
      apply does_ask. intros k' Fk'. rewrite (Wk k' (proj1 Fk')). now apply (does_pages ig l r).
  Qed.
  Hypothesis okC : forall n, ok n -> n = None \/ exists c, n = Some (NFile c).
  Lemma does_copy p c : In (p, c) all -> has_magic p = false -> always root f (fun g => os_lstat cwd g p = Some (NFile c)) -> does (copy cwd false expand p (place (ds ++ [basename p]))) [(p, c)].
  Proof.
    intros I Mg Ls h F. assert (Lh : os_lstat cwd h p = Some (NFile c)) by exact (Ls h (proj1 F)). pose proof (lstat_stat cwd h p c Lh) as Sh. pose proof (fine_stands h F) as St.
    pose proof (spot_names p (Nall p c I)) as Hd. assert (Fr : h !! spot p = None \/ exists c', h !! spot p = Some (NFile c')) by (apply okC; destruct F as (_ & _ & C); now apply (C p c)).
    assert (L : locate cwd true h (place (ds ++ [basename p])) = Some (spot p)).
    { apply locate_reach; [exact St|exact Hd| |intros _ _ t; destruct Fr as [->|[c' ->]]; discriminate]. apply dirs_to_snoc. exact (proj1 (proj2 F)). }
    assert (NQ : node_at h (spot p) = h !! spot p) by now rewrite node_at_below.
    assert (Gl : glob cwd expand h p = [p]) by (unfold glob, e_lexists; now rewrite Mg, Lh).
    assert (Co : copy_one cwd false p (place (ds ++ [basename p])) h = ([<[spot p := NFile c]> h], Ok tt)).
    { unfold copy_one. rewrite ask_eq. unfold e_isfile, e_islink at 1. rewrite Sh, Lh. cbn [negb andb]. unfold or_error, try_except, shutil_copy. rewrite ask_eq, Sh. unfold e_isdir, os_stat. rewrite L, NQ. unfold os_write.
      destruct Fr as [X|[c' X]]; rewrite X, ask_eq, L, NQ, X; reflexivity. }
    assert (Cp : copy cwd false expand p (place (ds ++ [basename p])) h = ([<[spot p := NFile c]> h], Ok tt)).
    { unfold copy. rewrite ask_eq, Gl. cbn [each]. unfold andthen. rewrite Co. reflexivity. }
    unfold result, final. rewrite Cp. now split.
  Qed.
  Lemma does_as_copy d p r : means d ds -> as_copy cwd root f p r -> incl r all ->
    does (h <~ ask (fun h => h) ;; if e_exists cwd h p then copy cwd false expand p (join_path2 root (join_path2 d (basename p))) else ret tt) r.
  Proof.
    intros M [c Mg Ls|N] I; apply does_ask; intros h F; unfold e_exists.
    - rewrite (lstat_stat cwd h p c (Ls h (proj1 F))). assert (J : In (p, c) all) by (apply I; now left). rewrite (join_root root f _ (ds ++ [basename p]) Sf) by (apply means_join; [exact M|apply name_means; now apply (Nall p c)|discriminate]).
      now apply does_copy.
    - rewrite (N h (proj1 F)). exact does_ret.
  Qed.
End fill.

(** ** The directory, then the files *)
Section whole.
  Context (cwd root src tag : string) (expand : fs -> string -> list string) (runs : string -> fs -> bool) (walked : fs -> string -> list string).
  Notation place := (place root).
  Lemma dirs_then_by ok f ds l (p q : prog fs unit) : stands f root -> (forall n, In n ds -> name n) -> passable root ds f -> room_for ok root ds l f ->
    result p f = Ok tt -> with_dirs root ds f (final p f) ->
    (root <> "/" -> root <> "" -> (forall p c, In (p, c) l -> name (basename p)) -> does root f ds l ok q l) ->
    result (_ <~ p ;; q) f = Ok tt /\ exists g, with_dirs root ds f g /\ filled root ds l g (final (_ <~ p ;; q) f).
  Proof.
    intros S Nd P Rm Ra W Q. destruct (stands_root root f S) as (A & R1 & R2 & _). assert (Nl : forall p c, In (p, c) l -> name (basename p)) by (intros x c I; exact (proj1 (Rm x c I))).
    set (g := final p f) in *.
    destruct (Q R1 R2 Nl g) as [R E].
    { split; [|split].
      - intros q' N. destruct (proj1 W q') as [X|(_ & _ & a & b & _ & Na & ->)]; [exact X|]. exfalso. apply N. now apply below_beneath.
      - exact (passable_dirs root f g ds P W).
      - intros x c I. rewrite (dirs_made_new root f g ds (ds ++ [basename x])); [exact (proj2 (Rm x c I))|exact R1|exact R2|exact Nd|apply spot_names; [exact Nd|now apply (Nl x c)]|intros b; apply snoc_longer|exact (proj1 W)]. }
    split.
    - unfold result. rewrite (andthen_ok _ _ f tt Ra). exact R.
    - exists g. split; [exact W|]. rewrite (andthen_final _ _ f tt Ra). fold g. rewrite E. now apply put_filled.
  Qed.
  Lemma dirs_then ok f ds l (q : prog fs unit) : tree f -> stands f root -> (forall n, In n ds -> name n) -> clear f root ds -> passable root ds f -> room_for ok root ds l f ->
    (root <> "/" -> root <> "" -> (forall p c, In (p, c) l -> name (basename p)) -> does root f ds l ok q l) ->
    result (_ <~ makedirs cwd false (place ds) ;; q) f = Ok tt /\ exists g, with_dirs root ds f g /\ filled root ds l g (final (_ <~ makedirs cwd false (place ds) ;; q) f).
  Proof.
    intros Tr S Nd C P Rm Q. destruct (makedirs_ok cwd root f ds Tr S Nd C) as [Ra W]; [intros a b E Na _; now apply (P a b)|]. now apply (dirs_then_by ok).
  Qed.
  Notation not_dir := (fun n : option node => n <> Some NDir).
  Lemma file_ok c : not_dir (Some (NFile c)). Proof. discriminate. Qed.
  Lemma dir_not_ok : ~ not_dir (Some NDir). Proof. intros H. now apply H. Qed.
  Hypothesis Rn : forall p g, runs p g = true.
  Lemma place_not_empty f ds : stands f root -> String.eqb (place ds) "" = false.
  Proof.
    intros S. destruct (stands_root root f S) as (A & R1 & R2 & _). apply String.eqb_neq. intros E. pose proof (place_length root ds R1 R2) as L. destruct ds; [destruct root; [congruence|discriminate E]|]. rewrite E in L. cbn in L. lia.
  Qed.
  Lemma insert_files f ds sources l : tree f -> stands f root -> (forall n, In n ds -> name n) -> clear f root ds -> passable root ds f -> sources <> [] ->
    collected (fun s => source cwd root f expand (as_file cwd root f) (join_path2 src s)) sources l -> room root ds l f ->
    result (insert_into cwd src false expand runs (place ds) sources) f = Ok tt /\ exists g, with_dirs root ds f g /\ filled root ds l g (final (insert_into cwd src false expand runs (place ds) sources) f).
  Proof.
    intros Tr S Nd C P Ns Cl Rm. unfold insert_into. rewrite (place_not_empty f ds S). destruct sources as [|s0 ss] eqn:Es; [congruence|]. rewrite <- Es in *. cbn [orb]. apply (dirs_then not_dir); try assumption. intros R1 R2 Nl.
    apply (does_sources cwd root f ds l not_dir file_ok R1 R2 Nd Nl expand (fun p => install_cmd cwd runs p (place ds)) (as_file cwd root f) (join_path2 src)); [|exact Cl|apply incl_refl].
    intros x d. apply does_as_file; try assumption; exact dir_not_ok.
  Qed.
  Notation writable := (fun n : option node => n = None \/ exists c, n = Some (NFile c)).
  Lemma insinto_files f d ds s l : tree f -> stands f root -> means d ds -> clear f root ds -> passable root ds f -> source cwd root f expand (as_copy cwd root f) s l -> space root ds l f ->
    result (insinto cwd root false expand d s "") f = Ok tt /\ exists g, with_dirs root ds f g /\ filled root ds l g (final (insinto cwd root false expand d s "") f).
  Proof.
    intros Tr S M C P Cl Rm. unfold insinto. cbn [String.eqb]. rewrite (join_root root f d ds S M). apply (dirs_then writable); try assumption; [exact (proj1 M)|]. intros R1 R2 Nl.
    assert (okF : forall c, writable (Some (NFile c))) by (intros c; right; now exists c).
    apply (does_source cwd root f ds l writable okF R1 R2 (proj1 M) Nl expand _ (as_copy cwd root f)); [|exact Cl|apply incl_refl].
    intros x r. apply does_as_copy; try assumption; try exact (proj1 M); try (now intros [X|[c X]]). now intros n.
  Qed.
  Lemma html_path f : stands f root -> name tag -> join_path root ["usr/share/doc"; tag; "html"] = place ["usr"; "share"; "doc"; tag; "html"] /\ forall n, In n ["usr"; "share"; "doc"; tag; "html"] -> name n.
  Proof.
    intros S N. assert (Na : forall n, In n ["usr"; "share"; "doc"; tag; "html"] -> name n).
    { apply (proj2 (names_app ["usr"; "share"; "doc"] [tag; "html"])). split; [now apply names_b|]. intros n [<-|[<-|[]]]; [exact N|]. assert (H : forall n, In n ["html"] -> name n) by now apply names_b. apply H. now left. }
    split; [|exact Na]. unfold join_path. cbn [fold_left]. rewrite (join_root root f "usr/share/doc" ["usr"; "share"; "doc"] S) by (apply (means_b "" ["usr"; "share"; "doc"]); [reflexivity|now left]).
    change (place ["usr"; "share"; "doc"]) with (below root ["usr"; "share"; "doc"]).
    rewrite (join_place root f tag ["usr"; "share"; "doc"] [tag]); [|exact S|now apply name_means|left; discriminate|now apply names_b].
    rewrite (join_place root f "html" (["usr"; "share"; "doc"] ++ [tag]) ["html"]); [reflexivity|exact S|apply (means_b "" ["html"]); [reflexivity|now left]|left; discriminate|].
    intros n I. apply Na. cbn in I |- *. tauto.
  Qed.
  Lemma dohtml_files f sources l : tree f -> stands f root -> name tag -> clear f root ["usr"; "share"; "doc"; tag; "html"] -> passable root ["usr"; "share"; "doc"; tag; "html"] f ->
    collected (source cwd root f expand (as_html cwd root f walked)) sources l -> room root ["usr"; "share"; "doc"; tag; "html"] l f ->
    result (dohtml cwd root tag false expand runs walked sources) f = Ok tt /\
    exists g, with_dirs root ["usr"; "share"; "doc"; tag; "html"] f g /\ filled root ["usr"; "share"; "doc"; tag; "html"] l g (final (dohtml cwd root tag false expand runs walked sources) f).
  Proof.
    intros Tr S N C P Cl Rm. unfold dohtml. destruct (html_path f S N) as [-> Nd]. apply (dirs_then not_dir); try assumption. intros R1 R2 Nl.
    apply (does_sources cwd root f _ l not_dir file_ok R1 R2 Nd Nl expand _ (as_html cwd root f walked) (fun s => s)); [|exact Cl|apply incl_refl]. intros x d. apply does_html; try assumption; (exact file_ok || exact dir_not_ok).
  Qed.
End whole.

(** ** Nothing else is touched *)
Section stay.
  Context (cwd root tag : string) (ignore : bool) (expand : fs -> string -> list string) (runs : string -> fs -> bool) (walked : fs -> string -> list string) (f : fs).
  Notation place := (place root).
  Lemma dohtml_stays l : stands f root -> name tag -> clear f root ["usr"; "share"; "doc"; tag; "html"] -> stays root f (dohtml cwd root tag ignore expand runs walked l).
  Proof.
    intros S N C. unfold dohtml. destruct (html_path cwd root tag expand walked f S N) as [-> Nd]. set (ds := ["usr"; "share"; "doc"; tag; "html"]) in *.
    assert (Kr : forall P, keeps (inv root f (eq ds)) P (ret tt) (fun _ _ => True)) by (intros P; apply keeps_ret_top).
    assert (Ki : forall p P, keeps (inv root f (eq ds)) P (install_cmd cwd runs p (place ds)) (fun _ _ => True)) by (intros p P; now apply install_inv).
    assert (Km : forall P, keeps (inv root f (eq ds)) P (makedirs cwd ignore (place ds)) (fun _ _ => True)) by (intros P; now apply makedirs_inv).
    apply (keeps_stays root f (eq ds) _ (fun _ _ => True)); [now intros ? <-|]. apply keeps_then_top; [apply Km|]. intros _. apply keeps_each_top. intros s _. apply keeps_read. intros g _ _. apply keeps_each_top. intros p _.
    unfold html_one. apply keeps_read. intros h _ _. apply keeps_then_top; [destruct (e_isfile cwd h p && allowed p); [apply Ki|apply Kr]|]. intros _. apply keeps_read. intros k _ _. destruct (e_isdir cwd k p && negb (disallowed p)); [|apply Kr].
    unfold html_dir. apply keeps_read. intros k' _ _. apply keeps_each_top. intros q _. destruct (allowed q); [|apply Kr]. apply keeps_then_top; [apply Km|]. intros _. apply Ki.
  Qed.
  (** doexes makes the directory, and fails. *)
  Lemma doexes_fails l d ds : tree f -> stands f root -> means d ds -> clear f root ds -> passable root ds f ->
    result (doexes cwd root false l d) f = Err EAttribute /\ with_dirs root ds f (final (doexes cwd root false l d) f).
  Proof.
    intros Tr S M C P. unfold doexes. rewrite (join_root root f d ds S M), (place_not_empty root f ds S). destruct (makedirs_ok cwd root f ds Tr S (proj1 M) C) as [Ra W]; [intros a b E Na _; now apply (P a b)|]. split.
    - unfold result. now rewrite (andthen_ok _ _ f tt Ra).
    - rewrite (andthen_final _ _ f tt Ra). exact W.
  Qed.
End stay.

(** ** The functions *)
Section functions.
  Context (cwd root src tag : string) (expand : fs -> string -> list string) (runs : string -> fs -> bool) (f : fs).
  Hypotheses (Rn : forall p g, runs p g = true) (Tr : tree f) (S : stands f root).
  Lemma dodoc_files l r : name tag -> clear f root ["usr"; "share"; "doc"; tag] -> passable root ["usr"; "share"; "doc"; tag] f -> l <> [] ->
    collected (fun s => source cwd root f expand (as_file cwd root f) (join_path2 src s)) l r -> room root ["usr"; "share"; "doc"; tag] r f ->
    result (dodoc cwd root src tag false expand runs l) f = Ok tt /\ exists g, with_dirs root ["usr"; "share"; "doc"; tag] f g /\ filled root ["usr"; "share"; "doc"; tag] r g (final (dodoc cwd root src tag false expand runs l) f).
  Proof. intros N C P Ne Cl Rm. unfold dodoc. rewrite (doc_path root tag f S N). apply insert_files; try assumption. now apply (doc_names tag). Qed.
  Lemma doinfo_files l r : clear f root ["usr"; "share"; "info"] -> passable root ["usr"; "share"; "info"] f -> l <> [] ->
    collected (fun s => source cwd root f expand (as_file cwd root f) (join_path2 src s)) l r -> room root ["usr"; "share"; "info"] r f ->
    result (doinfo cwd root src false expand runs l) f = Ok tt /\ exists g, with_dirs root ["usr"; "share"; "info"] f g /\ filled root ["usr"; "share"; "info"] r g (final (doinfo cwd root src false expand runs l) f).
  Proof.
    intros C P Ne Cl Rm. unfold doinfo. rewrite (join_root root f _ ["usr"; "share"; "info"] S) by (apply (means_b "" ["usr"; "share"; "info"]); [reflexivity|now left]). apply insert_files; try assumption. now apply names_b.
  Qed.
  Lemma dobin_files s d ds r : means d ds -> clear f root ds -> passable root ds f ->
    source cwd root f expand (as_file cwd root f) (join_path2 src s) r -> room root ds r f ->
    result (dobin cwd root src false expand runs s d) f = Ok tt /\ exists g, with_dirs root ds f g /\ filled root ds r g (final (dobin cwd root src false expand runs s d) f).
  Proof.
    intros M C P Cl Rm. unfold dobin. rewrite (join_root root f d ds S M). apply insert_files; try assumption; [exact (proj1 M)|discriminate|]. rewrite <- (app_nil_r r). constructor; [exact Cl|constructor].
  Qed.
End functions.
