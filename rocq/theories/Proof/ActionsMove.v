(** * Action scripts: what is renamed and moved *)
From Coq Require Import String Ascii ZArith List Bool Lia.
From stdpp Require Import gmap strings.
From Verif Require Import Model.Py Model.InstallDB Model.Path Model.Fs Model.Trace Model.Actions Spec.PathSpec Spec.FsSpec Spec.ActionsSpec Proof.PyFacts Proof.PathFacts Proof.FsFacts Proof.TraceFacts Proof.ActionsPaths Proof.ActionsFacts Proof.ActionsTop Proof.ActionsExact.
Import ListNotations.
Open Scope string_scope.
Open Scope prog_scope.

Lemma under_spec d q : under d q = true <-> at_or_in d q.
Proof.
  rewrite under_iff. unfold at_or_in, beneath. split.
  - intros (r & -> & [->|[s ->]]); [left; apply str_app_nil_r|right; now exists s].
  - intros [->|[r ->]]; [exists ""; rewrite str_app_nil_r; auto|]. exists ("/" ++ r). split; [reflexivity|right; now exists r].
Qed.
Lemma moved_taken f P Q : taken f (moved f P Q) P Q.
Proof.
  split; [|split; [|split]].
  - pose proof (moved_there f P Q "") as K. rewrite !str_app_nil_r in K. apply K. unfold under. now rewrite String.eqb_refl.
  - intros u. apply moved_there. apply under_spec. right. now exists u.
  - intros q A B. rewrite moved_else by (apply not_true_iff_false; now rewrite under_spec). now rewrite (proj2 (under_spec P q) A).
  - intros q A B. rewrite moved_else by (apply not_true_iff_false; now rewrite under_spec). assert (U : under P q = false) by (apply not_true_iff_false; now rewrite under_spec). now rewrite U.
Qed.

Section move.
  Variable cwd root : string.
  Variable expand : fs -> string -> list string.
  Notation place := (place root).

  Lemma below_ne_nil ns : root <> "/" -> root <> "" -> below root ns <> "".
  Proof. intros R1 R2 X. pose proof (below_length root ns R1 R2) as L. rewrite X in L. cbn in L. destruct root; [congruence|cbn in L; lia]. Qed.
  Lemma children_vacant f ns : tree f -> stands f root -> (children f (below root ns) = [] <-> vacant f (below root ns)).
  Proof.
    intros Tr S. destruct (stands_root root f S) as (A & R1 & R2 & _). rewrite children_nil. pose proof (below_ne_nil ns R1 R2) as NP. pose proof (not_top root ns R1 R2) as NT. apply String.eqb_neq in NT. set (P := below root ns) in *. clearbody P. split.
    - intros H u. assert (K : forall k u, String.length u <= k -> f !! (P ++ "/" ++ u) = None); [|now apply (K (String.length u))]. clear u. induction k as [|k IH]; intros u L.
      + destruct u; [|cbn in L; lia]. destruct (f !! (P ++ "/" ++ "")) as [m|] eqn:X; [|reflexivity]. destruct (Tr _ _ X) as [Ab _]. destruct (abs_dirname P "" Ab) as [_ Y]; [intros []|exact NP|congruence].
      + destruct (f !! (P ++ "/" ++ u)) as [m|] eqn:X; [|reflexivity]. destruct (Tr _ _ X) as [Ab D]. destruct (last_slash u) as [F|(v & w & -> & F)].
        * exfalso. apply (H (P ++ "/" ++ u)). split; [now exists m|]. now apply abs_dirname.
        * exfalso. assert (Y : f !! (P ++ "/" ++ v) = None) by (apply IH; rewrite !str_app_length in L; cbn in L; lia).
          assert (Eq : P ++ "/" ++ v ++ "/" ++ w = (P ++ "/" ++ v) ++ "/" ++ w) by (now rewrite !str_app_assoc). rewrite Eq in Ab, D. destruct (abs_dirname (P ++ "/" ++ v) w Ab F) as [Dn _]; [destruct P; [congruence|discriminate]|]. rewrite Dn in D.
          rewrite node_at_map in D; [congruence|]. intros Z. destruct P as [|c P]; [congruence|]. injection Z as _ Z. destruct P; discriminate Z.
    - intros V q [[m X] D]. destruct (Tr _ _ X) as [Ab _]. destruct (last_slash q) as [F|(v & w & -> & F)].
      + destruct Ab as (r & _ & ->). apply F. now left.
      + destruct v as [|c v].
        * apply NT. rewrite <- D. change ("" ++ "/" ++ w) with ("/" ++ w). apply dirname_top. exact F.
        * destruct (abs_dirname (String c v) w Ab F) as [Dn _]; [discriminate|]. rewrite Dn in D. rewrite <- D in V. rewrite V in X. discriminate X.
  Qed.

  (** ** One step *)
  (** What a rename needs: a file goes to any place that is not a directory, and a directory to a
      free place or an empty directory that is not in it. *)
  Definition may_take (f : fs) (x : node) (P Q : string) : Prop :=
    match x with
    | NDir => ~ at_or_in P Q /\ (f !! Q = None \/ f !! Q = Some NDir /\ vacant f Q)
    | _ => f !! Q <> Some NDir
    end.
  Lemma os_rename_run f xs ys x : tree f -> stands f root -> locate cwd false f (place xs) = Some (below root xs) -> locate cwd false f (place ys) = Some (below root ys) ->
    below root xs <> below root ys -> f !! below root xs = Some x ->
    may_take f x (below root xs) (below root ys) /\ os_rename cwd (place xs) (place ys) f = ([moved f (below root xs) (below root ys)], Ok tt) \/
    ~ may_take f x (below root xs) (below root ys) /\ os_rename cwd (place xs) (place ys) f = ([], Err EOS).
  Proof.
    intros Tr S La Lb PQ E. destruct (stands_root root f S) as (A & R1 & R2 & _). unfold os_rename. rewrite ask_eq, La, Lb, (proj2 (String.eqb_neq _ _) PQ), !not_top by assumption. cbn [orb].
    rewrite !node_at_below by assumption. rewrite E. pose proof (children_vacant f ys Tr S) as V. pose proof (under_spec (below root xs) (below root ys)) as U. unfold may_take.
    destruct x; try (destruct (f !! below root ys) as [[]|] eqn:EQ; solve [left; split; [congruence|reflexivity]|right; split; [congruence|reflexivity]]).
    destruct (f !! below root ys) as [n|] eqn:EQ.
    - destruct n; try (right; split; [intros H; destruct H as [_ [H|[H _]]]; discriminate H|reflexivity]). destruct (under (below root xs) (below root ys)) eqn:Ue; cbn [orb].
      + right. split; [intros [H _]; destruct H; now apply U|reflexivity].
      + destruct (children f (below root ys)) as [|q l]; cbn [negb].
        * left. split; [|reflexivity]. split; [intros K; apply U in K; discriminate K|]. right. split; [reflexivity|now apply V].
        * right. split; [|reflexivity]. intros [_ [H|[_ H]]]; [discriminate H|]. apply V in H. discriminate H.
    - destruct (under (below root xs) (below root ys)) eqn:Ue.
      + right. split; [intros [H _]; destruct H; now apply U|reflexivity].
      + left. split; [|reflexivity]. split; [intros K; apply U in K; discriminate K|now left].
  Qed.

  (** ** rename *)
  Lemma siblings f a n m : stands f root -> (forall x, In x (a ++ [n]) -> name x) -> name m -> n <> m -> ~ at_or_in (below root (a ++ [n])) (below root (a ++ [m])).
  Proof.
    intros S H Nm Ne K. apply under_spec in K. assert (H' : forall x, In x (a ++ [m]) -> name x) by (apply names_app in H as [H _]; apply names_app; split; [exact H|now intros x [<-|[]]]).
    apply (under_prefix f root (a ++ [n]) (a ++ [m]) S H) in K as [c K]; [|destruct a; discriminate|exact H']. rewrite <- app_assoc in K. apply app_inv_head in K. injection K as K _. congruence.
  Qed.
  Lemma rename_whole f s a n m x : tree f -> stands f root -> means s (a ++ [n]) -> name m -> n <> m -> f !! below root (a ++ [n]) = Some x ->
    let run := rename cwd root false s m in
    let P := below root (a ++ [n]) in let Q := below root (a ++ [m]) in
    let free := f !! Q = None \/ (x = NDir /\ f !! Q = Some NDir /\ vacant f Q) \/ (x <> NDir /\ f !! Q <> Some NDir) in
    (result run f = Ok tt <-> free) /\ (free -> taken f (final run f) P Q) /\ (~ free -> result run f = Err EError /\ final run f = f).
  Proof.
    intros Tr S M N Ne E run P Q free. change (f !! P = Some x) in E. destruct (stands_root root f S) as (A & R1 & R2 & _). unfold run. rewrite (rename_paths cwd root f s a n m S M N).
    assert (La : locate cwd false f (place (a ++ [n])) = Some P) by (apply (locate_place_tree cwd root f a n Tr S (proj1 M)); [fold P; rewrite E; discriminate|apply (proj1 M); rewrite in_app_iff; right; now left]).
    assert (Lb : locate cwd false f (place (a ++ [m])) = Some Q) by (apply (locate_place_tree cwd root f a n Tr S (proj1 M)); [fold P; rewrite E; discriminate|exact N]).
    assert (PQ : P <> Q) by (apply below_ne; [exact R1|exact R2|exact (proj1 M)|exact N|exact Ne]).
    assert (Fm : free <-> may_take f x P Q). { unfold free, may_take. pose proof (siblings f a n m S (proj1 M) N Ne) as Sb. fold P Q in Sb. destruct x; split; intros H.
      all: try (split; [exact Sb|]). all: try (destruct H as [H|[[H _]|[_ H]]]; congruence). all: try (right; right; split; [discriminate|exact H]).
      - destruct H as [H|[(_ & H)|[H _]]]; [now left|now right|congruence].
      - destruct H as [_ [H|H]]; [now left|right; left; now split]. }
    unfold result, final, or_error, try_except. destruct (os_rename_run f (a ++ [n]) (a ++ [m]) x Tr S La Lb PQ E) as [[K R]|[K R]]; fold P Q in K, R; rewrite R; cbn; rewrite <- Fm in K.
    - split; [tauto|]. split; [intros _; apply moved_taken|tauto].
    - split; [split; [discriminate|tauto]|]. split; [tauto|now split].
  Qed.

  (** ** domove *)
  Lemma with_dirs_tree f g ds : tree f -> stands f root -> (forall n, In n ds -> name n) -> passable root ds f -> with_dirs root ds f g -> tree g.
  Proof.
    intros Tr S H Pa W. destruct (stands_root root f S) as (A & R1 & R2 & _). pose proof (with_dirs_clear root f g ds S H (proj1 W)) as Sg. intros p m E. destruct (proj1 W p) as [X|(X & Y & b & c & Eb & Nb & ->)].
    - rewrite X in E. destruct (Tr p m E) as [Ab D]. split; [exact Ab|]. unfold node_at in *. destruct (String.eqb (dirname p) "/"); [reflexivity|]. destruct (proj1 W (dirname p)) as [Z|(Z & _)]; congruence.
    - assert (Hb : forall n, In n b -> name n) by (intros n I; apply H; rewrite Eb, in_app_iff; now left). split; [apply below_absolute; auto|]. destruct b as [|n b _] using rev_ind; [congruence|].
      destruct (below_parts root f S b n Hb) as (-> & _). rewrite node_at_below by assumption. destruct b as [|z b].
      + destruct Sg as (rs & Nr & _ & Er & Hr). cbn. rewrite Er. apply (Hr rs []); [now rewrite app_nil_r|exact Nr].
      + apply (passable_dirs root f g ds Pa W (z :: b) ([n] ++ c)); [rewrite Eb; now rewrite <- app_assoc|discriminate].
  Qed.
  (** A file, link or directory goes to the directory named, which is made if it is missing. *)
  Lemma domove_one f s a n d ds nm x : tree f -> stands f root -> means s (a ++ [n]) -> means d ds -> (nm = "" \/ name nm) -> has_magic (below root (a ++ [n])) = false ->
    f !! below root (a ++ [n]) = Some x -> x = NDir \/ plain (Some x) = true -> passable root ds f ->
    let P := below root (a ++ [n]) in let Q := below root (ds ++ [if String.eqb nm "" then n else nm]) in
    (f !! Q = None \/ x <> NDir /\ exists c, f !! Q = Some (NFile c)) -> P <> Q ->
    let run := domove cwd root false expand s d nm in
    exists g, with_dirs root ds f g /\
      (~ at_or_in P Q -> result run f = Ok tt /\ taken g (final run f) P Q) /\
      (at_or_in P Q -> result run f = Err EError /\ final run f = g).
  Proof.
    intros Tr S M Md Nm Mg E Px Pa P Q FQ PQ run. change (f !! P = Some x) in E. destruct (stands_root root f S) as (A & R1 & R2 & _). set (n' := if String.eqb nm "" then n else nm) in *.
    assert (Hn : name n) by (apply (proj1 M); rewrite in_app_iff; right; now left). assert (Hn' : name n'). { unfold n'. destruct (String.eqb_spec nm "") as [_|X]; [exact Hn|]. destruct Nm; [congruence|assumption]. }
    assert (Cd : clear f root ds). { intros b c Eb Nb t X. destruct (Pa b c Eb Nb) as [Y|Y]; congruence. }
    assert (Pt : passable_to root ds f) by (intros b c Eb Nb _; now apply (Pa b c)).
    destruct (makedirs_ok cwd root f ds Tr S (proj1 Md) Cd Pt) as [Rm W]. unfold run, domove. rewrite (join_root root f d ds S Md), (join_root root f s (a ++ [n]) S M). set (pm := makedirs cwd false (place ds)) in *. set (g := final pm f) in *. exists g. split; [exact W|].
    pose proof (with_dirs_clear root f g ds S (proj1 Md) (proj1 W)) as Sg.
    assert (Hd : forall m, In m (ds ++ [n']) -> name m) by (apply names_app; split; [exact (proj1 Md)|now intros m [<-|[]]]).
    assert (EQ : g !! Q = f !! Q). { apply (dirs_made_new root f g ds (ds ++ [n'])); [exact R1|exact R2|exact (proj1 Md)|exact Hd|intros b; apply snoc_longer|exact (proj1 W)]. }
    assert (Keep : forall q, f !! q <> None -> g !! q = f !! q) by (intros q Y; destruct (proj1 W q) as [X|(X & _)]; [exact X|congruence]).
    assert (EP : g !! P = Some x) by (rewrite Keep; [exact E|rewrite E; discriminate]).
    assert (Dp : dirs_to root g (a ++ [n])). { intros b c Eb Nb Nc. assert (Z : f !! below root b = Some NDir). { apply (tree_prefix root f b c Tr S); [rewrite <- Eb; exact (proj1 M)|exact Nb|exact Nc|]. rewrite <- Eb. fold P. rewrite E. discriminate. } rewrite Keep; rewrite Z; [reflexivity|discriminate]. }
    assert (Dq : dirs_to root g (ds ++ [n'])) by (apply dirs_to_snoc; exact (passable_dirs root f g ds Pa W)).
    assert (Tg : tree g) by (exact (with_dirs_tree f g ds Tr S (proj1 Md) Pa W)).
    assert (Lp : locate cwd false g (place (a ++ [n])) = Some P) by (apply locate_reach; [exact Sg|exact (proj1 M)|exact Dp|discriminate]).
    assert (Lq : locate cwd false g (place (ds ++ [n'])) = Some Q) by (apply locate_reach; [exact Sg|exact Hd|exact Dq|discriminate]).
    assert (Lqt : locate cwd true g (place (ds ++ [n'])) = Some Q). { apply locate_reach; [exact Sg|exact Hd|exact Dq|]. intros _ _ t. fold Q. rewrite EQ. destruct FQ as [->|[_ [c ->]]]; discriminate. }
    assert (Gl : glob cwd expand g (place (a ++ [n])) = [place (a ++ [n])]). { unfold glob. rewrite (place_ne root (a ++ [n])) at 1 by (destruct a; discriminate). rewrite Mg. unfold e_lexists, os_lstat. rewrite Lp. unfold P. rewrite node_at_below by assumption. fold P. now rewrite EP. }
    assert (Dest : join_path2 root (join_path2 d (if String.eqb nm "" then basename (place (a ++ [n])) else nm)) = place (ds ++ [n'])).
    { assert (Bn : (if String.eqb nm "" then basename (place (a ++ [n])) else nm) = n'). { unfold n'. destruct (String.eqb nm ""); [|reflexivity]. rewrite place_ne by (destruct a; discriminate). destruct (below_parts root f S a n (proj1 M)) as (_ & B & _). exact B. }
      rewrite Bn. apply (join_root root f _ (ds ++ [n']) S). apply means_join; [exact Md|now apply name_means|discriminate]. }
    assert (Is : e_isfile cwd g (place (a ++ [n])) || e_islink cwd g (place (a ++ [n])) || e_isdir cwd g (place (a ++ [n])) = true).
    { assert (Lt : (forall t, x <> NLink t) -> locate cwd true g (place (a ++ [n])) = Some P). { intros Nl. apply locate_reach; [exact Sg|exact (proj1 M)|exact Dp|]. intros _ _ t. fold P. rewrite EP. intros X. injection X as X. now apply (Nl t). }
      unfold e_isfile, e_islink, e_isdir, os_stat, os_lstat. rewrite Lp. replace (node_at g P) with (Some x) by (unfold P; rewrite node_at_below by assumption; now fold P).
      destruct x as [c| |t|]; [| |now rewrite orb_true_r|destruct Px; discriminate]; rewrite Lt by discriminate; replace (node_at g P) with (g !! P) by (symmetry; unfold P; now rewrite node_at_below by assumption); rewrite EP; [reflexivity|apply orb_true_r]. }
    assert (Nd : e_isdir cwd g (place (ds ++ [n'])) = false). { unfold e_isdir, os_stat. rewrite Lqt. unfold Q. rewrite node_at_below by assumption. fold Q. rewrite EQ. now destruct FQ as [->|[_ [c ->]]]. }
    set (q := andthen (ask (fun f => f)) _). assert (Q1 : q g = or_error false (os_rename cwd (place (a ++ [n])) (place (ds ++ [n']))) g).
    { unfold q. rewrite ask_eq, Gl. cbn [each]. rewrite Dest. set (mv := move cwd false expand (place (a ++ [n])) (place (ds ++ [n']))). assert (Mv : mv g = or_error false (os_rename cwd (place (a ++ [n])) (place (ds ++ [n']))) g).
      { unfold mv, move. rewrite ask_eq, Gl. cbn [each]. unfold andthen at 1. rewrite ask_eq, Is. unfold or_error at 1, try_except at 1, shutil_move. rewrite ask_eq, Nd. unfold or_error, try_except. destruct (os_rename cwd (place (a ++ [n])) (place (ds ++ [n'])) g) as [t [[]|e]]; [cbn; rewrite ?app_nil_r; reflexivity|]. destruct (is_os_error e); [|reflexivity]. cbn. reflexivity. }
      unfold andthen at 1. rewrite Mv. destruct (or_error _ _ g) as [t [[]|e]]; [|reflexivity]. cbn. now rewrite app_nil_r. }
    assert (RF : result (andthen pm (fun _ => q)) f = result q g /\ final (andthen pm (fun _ => q)) f = final q g).
    { split; [unfold result; now rewrite (andthen_ok pm _ f tt Rm)|exact (andthen_final pm _ f tt Rm)]. }
    change (andthen pm (fun _ : () => andthen (ask (fun f => f)) _)) with (andthen pm (fun _ : () => q)). destruct RF as [-> ->].
    assert (Dir : at_or_in P Q -> x = NDir). { intros K. apply under_spec in K. apply (under_prefix f root (a ++ [n]) (ds ++ [n']) S (proj1 M)) in K as [c K]; [|destruct a; discriminate|exact Hd].
      destruct c as [|z c _] using rev_ind; [rewrite app_nil_r in K; destruct PQ; unfold P, Q; now rewrite K|]. rewrite app_assoc in K. apply app_inj_tail in K as [K _].
      pose proof (passable_dirs root f g ds Pa W (a ++ [n]) c K) as Z. fold P in Z. rewrite EP in Z. specialize (Z ltac:(destruct a; discriminate)). congruence. }
    assert (Ff : may_take g x P Q <-> ~ at_or_in P Q). { unfold may_take. rewrite EQ. destruct x; try (split; [intros _ K; discriminate (Dir K)|intros _; destruct FQ as [->|[_ [c' ->]]]; discriminate]).
      split; [tauto|]. intros K. split; [exact K|]. destruct FQ as [FQ|[FQ _]]; [now left|congruence]. }
    destruct (os_rename_run g (a ++ [n]) (ds ++ [n']) x Tg Sg Lp Lq PQ EP) as [[K R]|[K R]]; fold P Q in K, R; unfold result, final; rewrite Q1; unfold or_error, try_except; rewrite R; cbn; rewrite Ff in K.
    - split; [intros _; split; [reflexivity|apply moved_taken]|tauto].
    - split; [tauto|]. now split.
  Qed.
End move.
