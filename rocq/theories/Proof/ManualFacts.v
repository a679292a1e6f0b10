(** * Manual pages in action scripts: lemmas *)
From Coq Require Import String Ascii ZArith List Bool Lia.
From stdpp Require Import gmap strings.
From Verif Require Import Model.Py Model.InstallDB Model.Path Model.Fs Model.Trace Model.Actions
  Spec.PathSpec Spec.FsSpec Spec.ActionsSpec Spec.DocumentsSpec Spec.ManualSpec
  Proof.PyFacts Proof.PathFacts Proof.FsFacts Proof.TraceFacts Proof.ActionsPaths Proof.ActionsFacts Proof.ActionsTop Proof.ActionsExact Proof.StripFacts Proof.DocumentsFacts.
Import ListNotations.
Open Scope string_scope.
Open Scope prog_scope.
Notation los := list_ascii_of_string.

Lemma section_iff p sec : of_section p sec -> section_of p = Some sec /\ free_of "/" sec.
Proof.
  intros (d & n & -> & _ & _ & F & D). split; [|exact F]. unfold section_of. replace (d ++ n ++ "." ++ sec) with ((d ++ n) ++ String "." sec) by now rewrite str_app_assoc.
  rewrite rfind_app by exact D. f_equal. replace ((d ++ n) ++ String "." sec) with (((d ++ n) ++ ".") ++ sec) by now rewrite str_app_assoc.
  replace (S (String.length (d ++ n))) with (String.length ((d ++ n) ++ ".")) by (rewrite (str_app_length (d ++ n)); cbn; lia). apply drop_app.
Qed.
Lemma section_names sec : free_of "/" sec -> forall n, In n (section_dir sec) -> name n.
Proof.
  intros F. apply (proj2 (names_app ["usr"; "share"; "man"] ["man" ++ sec])). split; [now apply names_b|]. intros n [<-|[]].
  split; [discriminate|]. split; [discriminate|]. split; [discriminate|]. intros K. change (los ("man" ++ sec)) with ("m" :: "a" :: "n" :: los sec)%char in K. repeat (destruct K as [K|K]; [discriminate K|]). exact (F K).
Qed.

(** ** A step keeps the tree in order *)
Section keep.
  Context (root : string).
  Lemma node_mono f g : (forall x m, f !! x = Some m -> g !! x = Some m) -> forall x m, node_at f x = Some m -> node_at g x = Some m.
  Proof. intros M x m. unfold node_at. destruct (String.eqb x "/"); [auto|apply M]. Qed.
  Lemma with_dirs_tree f g ds : tree f -> stands f root -> (forall n, In n ds -> name n) -> passable root ds f -> with_dirs root ds f g -> tree g.
  Proof.
    intros Tr S N P W p n E. destruct (stands_root root f S) as (A & R1 & R2 & _). pose proof (made_mono root ds f g (proj1 W)) as Mono.
    destruct (proj1 W p) as [X|(_ & _ & a & b & Ed & Na & ->)].
    - rewrite X in E. destruct (Tr p n E) as [Ap Dp]. split; [exact Ap|]. now apply (node_mono f g Mono).
    - assert (Hn : forall m, In m a -> name m) by (intros m I; apply N; rewrite Ed, in_app_iff; now left). split; [apply below_absolute; [now right|exact Hn|exact Na]|].
      destruct a as [|x a _] using rev_ind; [congruence|]. apply names_app in Hn as [H1 H2]. destruct (below_dirname root a x) as [-> _]; [now right|exact H1|apply H2; now left|].
      rewrite node_at_below by assumption. destruct a as [|y a]; [cbn [below]; exact (root_there root g (with_dirs_clear root f g ds S N (proj1 W)))|].
      apply (passable_dirs root f g ds P W (y :: a) ([x] ++ b)%list); [now rewrite Ed, <- app_assoc|discriminate].
  Qed.
  Lemma insert_tree f ds n c : tree f -> FsSpec.absolute root -> root <> "/" -> root <> "" -> (forall m, In m (ds ++ [n]) -> name m) -> f !! below root ds = Some NDir -> f !! below root (ds ++ [n]) <> Some NDir ->
    tree (<[below root (ds ++ [n]) := NFile c]> f).
  Proof.
    intros Tr A R1 R2 N D F p m E. set (Q := below root (ds ++ [n])) in *. assert (NQ : Q <> "/") by (intros X; pose proof (node_at_below root f (ds ++ [n]) R1 R2) as Y; fold Q in Y; rewrite X in Y; rewrite X in F; cbn in Y; congruence).
    assert (K : forall x, node_at f x = Some NDir -> node_at (<[Q := NFile c]> f) x = Some NDir).
    { intros x. unfold node_at. destruct (String.eqb x "/"); [auto|]. intros X. rewrite lookup_insert_ne; [exact X|]. intros <-. contradiction. }
    destruct (decide (Q = p)) as [<-|Ne].
    - split; [apply (below_absolute root (ds ++ [n])); [now right|exact N|destruct ds; discriminate]|]. apply names_app in N as [H1 H2]. unfold Q; destruct (below_dirname root ds n) as [-> _]; [now right|exact H1|apply H2; now left|]. fold Q. apply K. now rewrite node_at_below.
    - rewrite lookup_insert_ne in E by exact Ne. destruct (Tr p m E) as [Ap Dp]. split; [exact Ap|now apply K].
  Qed.
End keep.

Section man.
  Context (cwd root : string) (expand : fs -> string -> list string) (runs : string -> fs -> bool) (f : fs) (all : list entry).
  Notation place := (place root).
  Notation base := ["usr"; "share"; "man"].
  Hypotheses (Rn : forall p g, runs p g = true) (S : stands f root) (Rm : manual_room root all f) (Tr : tree f).
  Hypothesis (Sec : forall sec p o, In (sec, p, o) all -> free_of "/" sec).
  Let A : FsSpec.absolute root. Proof. now destruct (stands_root root f S). Qed.
  Let R1 : root <> "/". Proof. now destruct (stands_root root f S) as (_ & ? & _). Qed.
  Let R2 : root <> "". Proof. now destruct (stands_root root f S) as (_ & _ & ? & _). Qed.
  Definition orderly (h : fs) : Prop := same_but (beneath root) f h /\ tree h /\ manual_room root all h.
  Definition step (e : entry) (h h' : fs) : Prop :=
    exists g, with_dirs root (section_dir e.1.1) h g /\ h' = match e.2 with Some c => <[page_place root e.1.1 e.1.2 := NFile c]> g | None => g end.
  Fixpoint steps (l : list entry) (h h' : fs) : Prop :=
    match l with [] => h' = h | e :: l => exists g, step e h g /\ steps l g h' end.
  Lemma steps_app a b h h' : steps (a ++ b) h h' <-> exists g, steps a h g /\ steps b g h'.
  Proof.
    revert h. induction a as [|e a IH]; intros h; cbn [app steps].
    - split; [intros H; now exists h|now intros (g & -> & H)].
    - split.
      + intros (g & X & Y). apply IH in Y as (k & Y & Z). exists k. split; [now exists g|exact Z].
      + intros (k & (g & X & Y) & Z). exists g. split; [exact X|]. apply IH. now exists k.
  Qed.
  Lemma orderly_stands h : orderly h -> stands h root. Proof. intros (E & _). exact (stands_same root f h E S). Qed.
  Lemma passable_clear h ds : passable root ds h -> clear h root ds.
  Proof. intros P a b E Na t X. destruct (P a b E Na); congruence. Qed.
  Lemma passable_more h g ds es : root <> "/" -> (forall n, In n ds -> name n) -> passable root ds h -> passable root es h -> (forall n, In n es -> name n) -> with_dirs root ds h g -> passable root es g.
  Proof.
    intros _ _ P Pe Ne [D _] a b E Na. destruct (D (below root a)) as [->|(_ & X & _)]; [now apply (Pe a b)|now right].
  Qed.
  Lemma spot_not sec p a ds b : free_of "/" sec -> name (basename p) -> (forall n, In n ds -> name n) -> ds = (a ++ b)%list -> List.length ds <= 4 -> page_place root sec p <> below root a.
  Proof.
    intros F Nb Nd E L X. unfold page_place in X. apply below_inj in X; [|exact R1|exact R2|apply names_app; split; [now apply section_names|now intros m [<-|[]]]|intros n I; apply Nd; rewrite E, in_app_iff; now left].
    apply (f_equal (@List.length string)) in X. rewrite E, app_length in L. rewrite <- X in L. rewrite app_length in L. cbn in L. lia.
  Qed.
  Lemma base_names : forall n, In n base -> name n. Proof. now apply names_b. Qed.
  (** Directories of the manual are made *)
  Lemma dirs_orderly h g ds : orderly h -> (forall n, In n ds -> name n) -> List.length ds <= 4 -> passable root ds h -> with_dirs root ds h g -> orderly g.
  Proof.
    intros O Nd Ln P W. pose proof (orderly_stands h O) as Sh. destruct O as (E & Th & Rb & Rr). split; [|split; [|split]].
    - intros q N. destruct (proj1 W q) as [X|(_ & _ & a & b & _ & Na & ->)]; [rewrite X; now apply E|]. exfalso. apply N. now apply below_beneath.
    - exact (with_dirs_tree root h g ds Th Sh Nd P W).
    - apply (passable_more h g ds base); try assumption. exact base_names.
    - intros sec p o I. destruct (Rr sec p o I) as (N & Ps & Fs). split; [exact N|]. split.
      + apply (passable_more h g ds); try assumption. apply section_names, (Sec sec p o I).
      + destruct (proj1 W (page_place root sec p)) as [->|(_ & _ & a & b & Ea & _ & X)]; [exact Fs|]. exfalso. exact (spot_not sec p a ds b (Sec sec p o I) N Nd Ea Ln X).
  Qed.
  Lemma page_orderly h sec p o c : orderly h -> In (sec, p, o) all -> h !! below root (section_dir sec) = Some NDir -> orderly (<[page_place root sec p := NFile c]> h).
  Proof.
    intros O I D. destruct O as (E & Th & Rb & Rr). destruct (Rr sec p o I) as (N & Ps & Fs). pose proof (Sec sec p o I) as F. pose proof (section_names sec F) as Nd.
    assert (Hp : forall ds, (forall n, In n ds -> name n) -> List.length ds <= 4 -> passable root ds h -> passable root ds (<[page_place root sec p := NFile c]> h)).
    { intros ds Nds L P a b Ea Na. rewrite lookup_insert_ne; [now apply (P a b)|]. now apply (spot_not sec p a ds b). }
    split; [|split; [|split]].
    - intros q Nq. rewrite lookup_insert_ne; [now apply E|]. intros <-. apply Nq. apply below_beneath; [exact R1|exact R2|discriminate].
    - apply insert_tree; try assumption. apply names_app. split; [exact Nd|now intros m [<-|[]]].
    - apply Hp; [exact base_names|cbn; lia|exact Rb].
    - intros sec' q o' I'. destruct (Rr sec' q o' I') as (N' & Ps' & Fs'). split; [exact N'|]. split; [apply Hp; [apply section_names, (Sec sec' q o' I')|cbn; lia|exact Ps']|].
      destruct (decide (page_place root sec p = page_place root sec' q)) as [<-|Ne]; [rewrite lookup_insert; discriminate|now rewrite lookup_insert_ne].
  Qed.
  Lemma made_dir h g ds : stands h root -> (forall n, In n ds -> name n) -> ds <> [] -> passable root ds h -> with_dirs root ds h g -> g !! below root ds = Some NDir.
  Proof. intros Sh Nd Ne P W. apply (passable_dirs root h g ds P W ds []); [now rewrite app_nil_r|exact Ne]. Qed.
  Lemma step_orderly e h h' : In e all -> orderly h -> step e h h' -> orderly h'.
  Proof.
    destruct e as [[sec p] o]. intros I O (g & W & ->). cbn [fst snd] in *. pose proof (Sec sec p o I) as F. pose proof (section_names sec F) as Nd. destruct (proj2 (proj2 (proj2 O)) sec p o I) as (N & Ps & Fs).
    assert (Og : orderly g) by (apply (dirs_orderly h g (section_dir sec)); try assumption; cbn; lia). destruct o as [c|]; [|exact Og].
    apply (page_orderly g sec p (Some c)); [exact Og|exact I|]. apply (made_dir h); try assumption; [now apply orderly_stands|discriminate].
  Qed.
  Lemma steps_orderly l : forall h h', incl l all -> orderly h -> steps l h h' -> orderly h'.
  Proof.
    induction l as [|e l IH]; intros h h' I O; cbn [steps]; [now intros ->|]. intros (g & X & Y). apply (IH g h'); [intros x J; apply I; now right| |exact Y]. apply (step_orderly e h g); [apply I; now left|exact O|exact X].
  Qed.

  (** ** What the program does *)
  Definition makes (p : prog fs unit) (l : list entry) : Prop := forall h, orderly h -> result p h = Ok tt /\ steps l h (final p h).
  Lemma makes_ret : makes (ret tt) []. Proof. intros h _. now split. Qed.
  Lemma makes_then p q a b : incl a all -> makes p a -> makes q b -> makes (_ <~ p ;; q) (a ++ b).
  Proof.
    intros I P Q h O. destruct (P h O) as [R E]. destruct (Q (final p h) (steps_orderly a h _ I O E)) as [R' E']. split.
    - unfold result. rewrite (andthen_ok p _ h tt R). exact R'.
    - rewrite (andthen_final p _ h tt R). apply steps_app. now exists (final p h).
  Qed.
  Lemma makes_ask (k : fs -> prog fs unit) l : (forall h, orderly h -> makes (k h) l) -> makes (h <~ ask (fun h => h) ;; k h) l.
  Proof. intros H h O. unfold result, final. rewrite ask_eq. exact (H h O h O). Qed.
  Lemma makes_each {B} (F : B -> prog fs unit) (gives : B -> list entry -> Prop) l r : (forall x d, gives x d -> incl d all -> makes (F x) d) -> collected gives l r -> incl r all -> makes (each F l) r.
  Proof.
    intros H C. induction C as [|x l a b G C IH]; intros I; [exact makes_ret|]. cbn [each]. apply makes_then; [intros y J; apply I, in_app_iff; now left| |].
    - apply H; [exact G|intros y J; apply I, in_app_iff; now left].
    - apply IH. intros y J. apply I, in_app_iff. now right.
  Qed.
  Lemma makes_page p r : as_page cwd root f p r -> incl r all ->
    makes (match section_of p with
           | None => raise EError
           | Some sec => _ <~ makedirs cwd false (join_path2 (join_path2 root "usr/share/man") ("/man" ++ sec)) ;; install_cmd cwd runs p (join_path2 (join_path2 root "usr/share/man") ("/man" ++ sec))
           end) r.
  Proof.
    intros G I h O. assert (exists sec o, r = [(sec, p, o)] /\ of_section p sec /\ match o with Some c => always root f (fun g => os_stat cwd g p = Some (NFile c)) | None => always root f (fun g => forall c, os_stat cwd g p <> Some (NFile c)) end) as (sec & o & -> & Os & St).
    { destruct G as [sec c Os St|sec Os St]; eexists _, _; (split; [reflexivity|]); auto. }
    assert (J : In (sec, p, o) all) by (apply I; now left). destruct (section_iff p sec Os) as [-> F]. pose proof (section_names sec F) as Nd.
    assert (Mm : means "usr/share/man" base) by (apply (means_b "" base); [reflexivity|now left]).
    assert (Mx : means ("/man" ++ sec) ["man" ++ sec]). { split; [intros n [<-|[]]; apply Nd; cbn; tauto|]. exists "/". split; [now intros c [<-|[]]|reflexivity]. }
    rewrite (join_root root f "usr/share/man" base S Mm), (join_more root f S base _ _ (proj1 Mm) Mx) by discriminate. change (app base ["man" ++ sec]) with (section_dir sec).
    pose proof (orderly_stands h O) as Sh. destruct (proj2 (proj2 (proj2 O)) sec p o J) as (N & Ps & Fs).
    destruct (makedirs_ok cwd root h (section_dir sec) (proj1 (proj2 O)) Sh Nd (passable_clear h _ Ps)) as [Ra W]; [intros a b E Na _; now apply (Ps a b)|].
    set (g := final (makedirs cwd false (place (section_dir sec))) h) in *. assert (Og : orderly g) by (apply (dirs_orderly h g (section_dir sec)); try assumption; cbn; lia).
    assert (X : result (install_cmd cwd runs p (place (section_dir sec))) g = Ok tt /\ final (install_cmd cwd runs p (place (section_dir sec))) g = match o with Some c => <[page_place root sec p := NFile c]> g | None => g end).
    { assert (Fg : forall l, (forall q c, In (q, c) l -> q = p) -> fine root f (section_dir sec) l (fun n => n <> Some NDir) g).
      { intros l Hl. split; [exact (proj1 Og)|]. split; [exact (passable_dirs root h g _ Ps W)|]. intros q c Iq. rewrite (Hl q c Iq). exact (proj2 (proj2 (proj2 (proj2 (proj2 Og)) sec p o J))). }
      destruct o as [c|].
      - apply (does_install cwd root f (section_dir sec) [(p, c)] (fun n => n <> Some NDir) (fun H => H eq_refl) R1 R2 S Nd runs Rn p c (or_introl eq_refl) St g).
        apply Fg. now intros q e [[= <- <-]|[]].
      - apply (does_nothing cwd root f (section_dir sec) [] (fun n => n <> Some NDir) runs p St g). apply Fg. intros q e []. }
    split.
    - unfold result. rewrite (andthen_ok _ _ h tt Ra). exact (proj1 X).
    - rewrite (andthen_final _ _ h tt Ra). fold g. rewrite (proj2 X). eexists. split; [|reflexivity]. exists g. split; [exact W|reflexivity].
  Qed.

  (** ** What is there in the end *)
  Lemma steps_manuals l : forall h h', incl l all -> orderly h -> steps l h h' ->
    (forall q, (forall sec p c, In (sec, p, Some c) l -> q <> page_place root sec p) ->
      h' !! q = h !! q \/ h !! q = None /\ h' !! q = Some NDir /\ exists sec p o a b, In (sec, p, o) l /\ section_dir sec = (a ++ b)%list /\ q = below root a).
  Proof.
    induction l as [|[[sec p] o] l IH]; intros h h' I O; cbn [steps]; [now intros -> q _; left|]. intros (g & (k & W & Eg) & St) q Nq. cbn [fst snd] in *.
    assert (J : In (sec, p, o) all) by (apply I; now left). assert (Og : orderly g) by (apply (step_orderly (sec, p, o) h g J O); now exists k).
    assert (X : g !! q = k !! q). { rewrite Eg. destruct o as [c|]; [|reflexivity]. apply lookup_insert_ne. intros <-. now apply (Nq sec p c (or_introl eq_refl)). }
    destruct (IH g h' (fun x J => I x (or_intror J)) Og St q) as [Y|(Y1 & Y2 & sec' & p' & o' & a & b & Il & Ea & Eq)].
    - intros sec' p' c' Il. apply (Nq sec' p' c'). now right.
    - rewrite Y, X. destruct (proj1 W q) as [Z|(Z1 & Z2 & a & b & Ea & _ & Eq)]; [now left|right]. split; [exact Z1|]. split; [exact Z2|]. exists sec, p, o, a, b. split; [now left|now split].
    - right. split; [|split; [exact Y2|exists sec', p', o', a, b; split; [now right|now split]]]. rewrite X in Y1. destruct (proj1 W q) as [Z|(_ & Z2 & _)]; congruence.
  Qed.
  Lemma steps_keep_dir l h h' q : incl l all -> orderly h -> steps l h h' -> h !! q = Some NDir -> (forall sec p c, In (sec, p, Some c) l -> q <> page_place root sec p) -> h' !! q = Some NDir.
  Proof. intros I O St D N. destruct (steps_manuals l h h' I O St q N) as [->|(X & _)]; [exact D|congruence]. Qed.
  Lemma dir_not_place h sec : orderly h -> free_of "/" sec -> forall sec' p' c', In (sec', p', Some c') all -> below root (section_dir sec) <> page_place root sec' p'.
  Proof.
    intros O F sec' p' c' I E. destruct (proj2 (proj2 (proj2 O)) sec' p' _ I) as (N & _). symmetry in E. revert E. apply (spot_not sec' p' (section_dir sec) (section_dir sec) []); [exact (Sec _ _ _ I)|exact N|now apply section_names|now rewrite app_nil_r|cbn; lia].
  Qed.
  Lemma base_not_place h : orderly h -> forall sec' p' c', In (sec', p', Some c') all -> below root base <> page_place root sec' p'.
  Proof.
    intros O sec' p' c' I E. destruct (proj2 (proj2 (proj2 O)) sec' p' _ I) as (N & _). symmetry in E. revert E. apply (spot_not sec' p' base base []); [exact (Sec _ _ _ I)|exact N|exact base_names|now rewrite app_nil_r|cbn; lia].
  Qed.
  Lemma page_place_inj sec p sec' p' : free_of "/" sec -> free_of "/" sec' -> name (basename p) -> name (basename p') -> page_place root sec p = page_place root sec' p' -> sec = sec' /\ basename p = basename p'.
  Proof.
    intros F F' N N' E. unfold page_place in E. apply below_inj in E; [|exact R1|exact R2|apply names_app; split; [now apply section_names|now intros m [<-|[]]]|apply names_app; split; [now apply section_names|now intros m [<-|[]]]].
    apply app_inj_tail in E as [E ->]. split; [|reflexivity]. unfold section_dir in E. injection E as E. exact E.
  Qed.
  Lemma run_manuals l : collected (pattern cwd root f expand (as_page cwd root f)) l all -> result (doman cwd root false expand runs l) f = Ok tt /\ manuals root all f (final (doman cwd root false expand runs l) f).
  Proof.
    intros C. unfold doman. assert (O : orderly f) by (split; [now intros q _|now split]). destruct Rm as [Rb Rr].
    assert (Mm : means "usr/share/man" base) by (apply (means_b "" base); [reflexivity|now left]). set (body := fun p => match section_of p with None => _ | Some sec => _ end).
    rewrite (join_root root f "usr/share/man" base S Mm). destruct (makedirs_ok cwd root f base Tr S (proj1 Mm) (passable_clear f _ Rb)) as [Ra W]; [intros a b E Na _; now apply (Rb a b)|].
    set (g := final (makedirs cwd false (place base)) f) in *. assert (Og : orderly g) by (apply (dirs_orderly f g base); try assumption; [exact base_names|cbn; lia]).
    set (q := each _ l). assert (M : makes q all).
    { apply (makes_each (fun s => f <~ ask (fun f => f) ;; each body (glob cwd expand f s)) (pattern cwd root f expand (as_page cwd root f))); [|exact C|apply incl_refl].
      intros s d (ps & G & Cs) I. apply makes_ask. intros h Oh. rewrite (G h (proj1 Oh)). apply (makes_each body (as_page cwd root f)); [|exact Cs|exact I]. intros p r. apply makes_page. }
    destruct (M g Og) as [R St]. split; [unfold result; rewrite (andthen_ok _ _ f tt Ra); exact R|]. rewrite (andthen_final _ _ f tt Ra). fold g. set (h := final q g) in *.
    assert (Dg : g !! below root base = Some NDir) by (apply (made_dir f); try assumption; [exact base_names|discriminate]).
    split; [|split; [|split]].
    - intros a sec p c b E H. assert (St' := St). rewrite E in St'. apply steps_app in St' as (k & Sa & k' & Sp & Sb).
      assert (Ia : incl a all) by (rewrite E; intros x J; rewrite in_app_iff; now left). assert (Ip : In (sec, p, Some c) all) by (rewrite E, in_app_iff; right; now left). assert (Ib : incl b all) by (rewrite E; intros x J; rewrite in_app_iff; right; now right).
      pose proof (steps_orderly a g k Ia Og Sa) as Ok'. pose proof (step_orderly _ k k' Ip Ok' Sp) as Ok''. destruct Sp as (k0 & _ & Ek). cbn [fst snd] in Ek.
      destruct (steps_manuals b k' h Ib Ok'' Sb (page_place root sec p)) as [->|(X & _)]; [|rewrite Ek; apply lookup_insert|rewrite Ek, lookup_insert in X; discriminate X].
      intros sec' p' c' J Ex. apply page_place_inj in Ex as [<- Ex]; [|exact (Sec _ _ _ Ip)|exact (Sec _ _ _ (Ib _ J))|exact (proj1 (Rr _ _ _ Ip))|exact (proj1 (Rr _ _ _ (Ib _ J)))]. now apply (H sec p' c' J).
    - intros sec p o I. assert (I' := I). apply in_split in I' as (a & b & E). assert (St' := St). rewrite E in St'. apply steps_app in St' as (k & Sa & k' & Sp & Sb).
      assert (Ia : incl a all) by (rewrite E; intros x J; rewrite in_app_iff; now left). assert (Ib : incl b all) by (rewrite E; intros x J; rewrite in_app_iff; right; now right).
      pose proof (steps_orderly a g k Ia Og Sa) as Ok'. pose proof (step_orderly _ k k' I Ok' Sp) as Ok''. destruct Sp as (k0 & Wk & Ek). cbn [fst snd] in *.
      apply (steps_keep_dir b k' h); try assumption; [|intros sec' p' c' J; exact (dir_not_place k sec Ok' (Sec _ _ _ I) sec' p' c' (Ib _ J))].
      destruct (proj2 (proj2 (proj2 Ok')) sec p o I) as (N & Ps & _). assert (D : k0 !! below root (section_dir sec) = Some NDir) by (apply (made_dir k); try assumption; [now apply orderly_stands|now apply section_names, (Sec sec p o)|discriminate]).
      rewrite Ek. destruct o as [c|]; [|exact D]. rewrite lookup_insert_ne; [exact D|]. intros X. symmetry in X. revert X. exact (dir_not_place k sec Ok' (Sec _ _ _ I) sec p c I).
    - apply (steps_keep_dir all g h); try assumption; [apply incl_refl|]. exact (base_not_place f O).
    - intros x Nx. destruct (steps_manuals all g h (incl_refl all) Og St x Nx) as [Y|(Y1 & Y2 & sec & p & o & a & b & I & Ea & Eq)].
      + rewrite Y. destruct (proj1 W x) as [Z|(Z1 & Z2 & a & b & Ea & _ & Eq)]; [now left|right]. split; [exact Z1|]. split; [exact Z2|]. exists base, a, b. split; [now left|now split].
      + right. split; [destruct (proj1 W x) as [Z|(_ & Z2 & _)]; congruence|]. split; [exact Y2|]. exists (section_dir sec), a, b. split; [right; now exists sec, p, o|now split].
  Qed.
  (** ** A page without a section *)
  Lemma each_fails {B} (F : B -> prog fs unit) a x b e : forall h, result (each F a) h = Ok tt -> result (F x) (final (each F a) h) = Err e -> result (each F (a ++ x :: b)) h = Err e.
  Proof.
    induction a as [|y a IH]; intros h; cbn [app each].
    - intros _ X. unfold result. now rewrite (andthen_err _ _ h e X).
    - intros R X. apply andthen_result in R as ([] & R1' & R2' & Ef). rewrite Ef in X. unfold result. rewrite (andthen_ok _ _ h tt R1'). exact (IH _ R2' X).
  Qed.
  Lemma no_section p : free_of "." p -> section_of p = None.
  Proof. intros F. unfold section_of. now rewrite (proj2 (PathFacts.rfind_none _ p) F). Qed.
  Lemma refuse_page l s more ps p qs a b : all = (a ++ b)%list -> collected (pattern cwd root f expand (as_page cwd root f)) l a ->
    always root f (fun g => glob cwd expand g s = (ps ++ p :: qs)%list) -> collected (as_page cwd root f) ps b -> free_of "." p ->
    result (doman cwd root false expand runs (l ++ s :: more)) f = Err EError.
  Proof.
    intros Ea C G Cs Np. unfold doman. assert (O : orderly f) by (split; [now intros q _|now split]). destruct Rm as [Rb Rr].
    assert (Mm : means "usr/share/man" base) by (apply (means_b "" base); [reflexivity|now left]). set (body := fun p => match section_of p with None => _ | Some sec => _ end).
    rewrite (join_root root f "usr/share/man" base S Mm). destruct (makedirs_ok cwd root f base Tr S (proj1 Mm) (passable_clear f _ Rb)) as [Ra W]; [intros x y E Na _; now apply (Rb x y)|].
    set (g := final (makedirs cwd false (place base)) f) in *. assert (Og : orderly g) by (apply (dirs_orderly f g base); try assumption; [exact base_names|cbn; lia]).
    unfold result. rewrite (andthen_ok _ _ f tt Ra). cbn [snd]. fold g. set (F := fun s => f <~ ask (fun f => f) ;; each body (glob cwd expand f s)).
    assert (Ia : incl a all) by (rewrite Ea; intros x J; rewrite in_app_iff; now left). assert (Ib : incl b all) by (rewrite Ea; intros x J; rewrite in_app_iff; now right).
    assert (M : makes (each F l) a).
    { apply (makes_each F (pattern cwd root f expand (as_page cwd root f))); [|exact C|exact Ia].
      intros t d (ps' & G' & Cs') I. apply makes_ask. intros h Oh. rewrite (G' h (proj1 Oh)). apply (makes_each body (as_page cwd root f)); [|exact Cs'|exact I]. intros q r. apply makes_page. }
    destruct (M g Og) as [R St]. pose proof (steps_orderly a g _ Ia Og St) as Oh. apply (each_fails F l s more EError g R). unfold F at 1, result. rewrite ask_eq, (G _ (proj1 Oh)).
    assert (Mb : makes (each body ps) b) by (apply (makes_each body (as_page cwd root f)); [|exact Cs|exact Ib]; intros q r; apply makes_page).
    destruct (Mb _ Oh) as [R' _]. apply (each_fails body ps p qs EError _ R'). unfold body, result. now rewrite (no_section p Np).
  Qed.
End man.
