(** * Documentation under another name: lemmas *)
From Coq Require Import String Ascii ZArith List Bool Lia.
From stdpp Require Import gmap strings.
From Verif Require Import Model.Py Model.InstallDB Model.Path Model.Fs Model.Trace Model.Actions Model.Manual
  Spec.PathSpec Spec.FsSpec Spec.ActionsSpec Spec.DocumentsSpec Spec.ManualSpec
  Proof.PyFacts Proof.PathFacts Proof.FsFacts Proof.TraceFacts Proof.ActionsPaths Proof.ActionsFacts Proof.ActionsTop Proof.ActionsExact Proof.StripFacts Proof.DocumentsFacts Proof.ManualFacts.
Import ListNotations.
Open Scope string_scope.
Open Scope prog_scope.

Lemma doman_exact cwd root expand runs f l r : (forall p g, runs p g = true) -> tree f -> stands f root -> manual_room root r f ->
  collected (pattern cwd root f expand (as_page cwd root f)) l r ->
  result (doman cwd root false expand runs l) f = Ok tt /\ manuals root r f (final (doman cwd root false expand runs l) f).
Proof.
  intros Rn Tr S Rm C. apply run_manuals; try assumption. clear -C. intros sec p o. revert sec p o.
  assert (K : forall x a, as_page cwd root f x a -> forall sec p o, In (sec, p, o) a -> free_of "/" sec).
  { intros x a [sec c Os _|sec Os _] s' p' o' [[= <- <- <-]|[]]; exact (proj2 (section_iff _ _ Os)). }
  induction C as [|x l a b (ps & _ & Cs) _ IH]; [intros sec p o []|]. intros sec p o I. apply in_app_iff in I as [I|I]; [|exact (IH sec p o I)].
  clear -Cs K I. revert I. induction Cs as [|y m a' b' G _ IH]; [intros []|]. intros I. apply in_app_iff in I as [I|I]; [exact (K y a' G sec p o I)|exact (IH I)].
Qed.

Lemma doman_refuses cwd root expand runs f l s more ps p qs a b : (forall p g, runs p g = true) -> tree f -> stands f root -> manual_room root (a ++ b) f ->
  collected (pattern cwd root f expand (as_page cwd root f)) l a -> always root f (fun g => glob cwd expand g s = (ps ++ p :: qs)%list) -> collected (as_page cwd root f) ps b -> free_of "." p ->
  result (doman cwd root false expand runs (l ++ s :: more)) f = Err EError.
Proof.
  intros Rn Tr S Rm C G Cs Np. apply (refuse_page cwd root expand runs f (a ++ b)) with (ps := ps) (p := p) (qs := qs) (a := a) (b := b); try assumption; [|reflexivity]. clear -C Cs.
  assert (K : forall x a, as_page cwd root f x a -> forall sec p o, In (sec, p, o) a -> free_of "/" sec).
  { intros x r [sec c Os _|sec Os _] s' p' o' [[= <- <- <-]|[]]; exact (proj2 (section_iff _ _ Os)). }
  assert (K2 : forall ps b, collected (as_page cwd root f) ps b -> forall sec p o, In (sec, p, o) b -> free_of "/" sec).
  { induction 1 as [|y m a' b' G _ IH]; [intros sec p o []|]. intros sec p o I. apply in_app_iff in I as [I|I]; [exact (K y a' G sec p o I)|exact (IH sec p o I)]. }
  intros sec p o I. apply in_app_iff in I as [I|I]; [|exact (K2 ps b Cs sec p o I)].
  induction C as [|x l a b' (qs & _ & Cq) _ IH]; [destruct I|]. apply in_app_iff in I as [I|I]; [exact (K2 qs a Cq sec p o I)|exact (IH I)].
Qed.

(** ** A copy in the current directory *)
Lemma split_name d : name d -> py_split "/" d = [d].
Proof. intros N. apply (split_join "/" [d]); [discriminate|]. constructor; [now destruct N as (_ & _ & _ & ?)|constructor]. Qed.
Lemma locate_here cwd fl f d : name d -> (forall t, node_at f (below cwd [d]) <> Some (NLink t)) -> locate cwd fl f d = Some (below cwd [d]).
Proof.
  intros N L. assert (N' := N). destruct N' as (Z & _ & _ & F). rewrite locate_relative; [|exact Z|].
  - rewrite (split_name d N). apply walk_reach; [now intros n [<-|[]]|intros a b E Na Nb; destruct a as [|x [|y a]]; [congruence|destruct b; [congruence|discriminate E]|discriminate E]|]. intros _ _. exact L.
  - destruct d as [|c d]; [congruence|]. apply not_true_is_false. rewrite startswith_iff. intros [r E]. injection E as -> _. apply F. now left.
Qed.
Section here.
  Context (cwd root : string) (expand : fs -> string -> list string) (f : fs) (s d c : string).
  Notation spot := (below cwd [d]).
  Notation f1 := (<[spot := NFile c]> f).
  Hypotheses (Tr : tree f) (Sc : stands f cwd) (Nd : name d) (Mg : has_magic s = false) (Ls : os_lstat cwd f s = Some (NFile c))
    (Fr : f !! spot = None \/ exists c', f !! spot = Some (NFile c')) (Ap : locate cwd true f s <> Some spot).
  Let Ac : FsSpec.absolute cwd. Proof. now destruct (stands_root cwd f Sc). Qed.
  Let C1 : cwd <> "/". Proof. now destruct (stands_root cwd f Sc) as (_ & ? & _). Qed.
  Let C2 : cwd <> "". Proof. now destruct (stands_root cwd f Sc) as (_ & _ & ? & _). Qed.
  Lemma copied_here : copy_apart cwd false expand s d f = ([f1], Ok tt).
  Proof.
    pose proof (lstat_stat cwd f s c Ls) as St. assert (NQ : node_at f spot = f !! spot) by (apply node_at_below; assumption).
    assert (L : locate cwd true f d = Some spot) by (apply locate_here; [exact Nd|]; intros t; rewrite NQ; destruct Fr as [->|[c' ->]]; discriminate).
    assert (Gl : glob cwd expand f s = [s]) by (unfold glob, e_lexists; now rewrite Mg, Ls).
    assert (Di : e_isdir cwd f d = false) by (unfold e_isdir, os_stat; rewrite L, NQ; destruct Fr as [->|[c' ->]]; reflexivity).
    assert (It : onto_itself cwd f s d = false). { unfold onto_itself. rewrite Di, L, (bool_decide_eq_false_2 _ Ap). apply andb_false_r. }
    assert (Co : copy_one cwd false s d f = ([f1], Ok tt)).
    { unfold copy_one. rewrite ask_eq. unfold e_isfile, e_islink at 1. rewrite St, Ls. cbn [negb andb]. unfold or_error, try_except, shutil_copy. rewrite ask_eq, St, Di. unfold os_write. rewrite ask_eq, L, NQ.
      destruct Fr as [->|[c' ->]]; reflexivity. }
    unfold copy_apart. rewrite ask_eq, Gl. cbn [each]. unfold andthen at 1. rewrite ask_eq, It, Co. reflexivity.
  Qed.
  Lemma here_tree : tree f1.
  Proof.
    change (<[below cwd ([] ++ [d]) := NFile c]> f) with f1 || idtac. apply (insert_tree cwd f [] d c); try assumption; [now intros m [<-|[]]|exact (root_there cwd f Sc)|]. cbn [app]. destruct Fr as [->|[c' ->]]; discriminate.
  Qed.
  Lemma here_stands r : stands f r -> stands f1 r.
  Proof.
    intros (rs & N & H & -> & D). exists rs. split; [exact N|]. split; [exact H|]. split; [reflexivity|]. intros a b E Na. rewrite lookup_insert_ne; [now apply (D a b)|]. intros X. pose proof (D a b E Na) as Y. rewrite <- X in Y. destruct Fr as [Z|[c' Z]]; congruence.
  Qed.
  Hypotheses (Out : ~ beneath root spot) (R1 : root <> "/") (R2 : root <> "").
  Lemma here_same a : a <> [] -> f1 !! below root a = f !! below root a.
  Proof. intros Na. apply lookup_insert_ne. intros X. apply Out. rewrite X. now apply below_beneath. Qed.
  Lemma here_passable ds : passable root ds f -> passable root ds f1.
  Proof. intros P a b E Na. rewrite here_same by exact Na. now apply (P a b). Qed.
  Lemma here_there g : same_but (beneath root) f1 g -> g !! spot = Some (NFile c).
  Proof. intros E. rewrite (E _ Out). apply lookup_insert. Qed.
  Lemma here_cwd g : same_but (beneath root) f1 g -> stands g cwd.
  Proof.
    intros E. assert (K := here_stands cwd Sc). destruct K as (rs & N & H & Ec & D). exists rs. split; [exact N|]. split; [exact H|]. split; [exact Ec|]. intros a b Ea Na. rewrite E; [now apply (D a b)|].
    intros B. apply Out. rewrite Ec, <- below_app, Ea, <- app_assoc. destruct (b ++ [d])%list as [|x m] eqn:Em; [destruct b; discriminate Em|]. rewrite below_app. destruct B as [t B].
    rewrite below_text; [| |intros X; rewrite X in B; destruct root; discriminate B|discriminate].
    2:{ intros X. rewrite X in B. destruct root as [|y r]; [congruence|]. injection B as -> B. destruct r; discriminate B. }
    rewrite B. exists (t ++ "/" ++ String.concat "/" (x :: m)). now rewrite !str_app_assoc.
  Qed.
  Lemma newman_exact runs sec : (forall p g, runs p g = true) -> stands f root -> has_magic d = false -> of_section d sec -> manual_room root [(sec, d, Some c)] f ->
    result (newman cwd root false expand runs s d) f = Ok tt /\ manuals root [(sec, d, Some c)] f1 (final (newman cwd root false expand runs s d) f).
  Proof.
    intros Rn S Md Os Rm. unfold newman. assert (Rc : result (copy_apart cwd false expand s d) f = Ok tt) by (unfold result; now rewrite copied_here). assert (Fc : final (copy_apart cwd false expand s d) f = f1) by (unfold final; now rewrite copied_here).
    assert (Lg : forall fl g, same_but (beneath root) f1 g -> locate cwd fl g d = Some spot /\ node_at g spot = Some (NFile c)).
    { intros fl g Sg. assert (X : node_at g spot = Some (NFile c)) by (rewrite node_at_below by assumption; now apply here_there). split; [|exact X]. apply locate_here; [exact Nd|]. intros t. rewrite X. discriminate. }
    destruct (doman_exact cwd root expand runs f1 [d] [(sec, d, Some c)] Rn here_tree (here_stands root S)) as [R M].
    - destruct Rm as [Rb Rr]. split; [now apply here_passable|]. intros sec' p' o' I. destruct (Rr sec' p' o' I) as (N & P & F). split; [exact N|]. split; [now apply here_passable|]. unfold page_place in *. rewrite here_same by discriminate. exact F.
    - apply (col_cons _ d [] [_] []); [|constructor]. exists [d]. split.
      + intros g Sg. unfold glob, e_lexists, os_lstat. destruct (Lg false g Sg) as [-> ->]. now rewrite Md.
      + apply (col_cons _ d [] [_] []); [|constructor]. apply a_page; [exact Os|]. intros g Sg. unfold os_stat. destruct (Lg true g Sg) as [-> ->]. reflexivity.
    - split; [unfold result; rewrite (andthen_ok _ _ f tt Rc), Fc; exact R|]. rewrite (andthen_final _ _ f tt Rc), Fc. exact M.
  Qed.
End here.

(** ** A directory written with a slash after it *)
Section slash.
  Context (cwd root : string).
  Notation place := (place root).
  Lemma walk_slash k fl g ns : forall cur, (forall n, In n ns -> name n) -> link_free g cur true ns -> ns <> [] -> (node_at g (below cur ns) = None \/ node_at g (below cur ns) = Some NDir) -> walk k fl g cur (ns ++ [""]) = walk k fl g cur ns.
  Proof.
    induction ns as [|n ns IH]; intros cur H L Ne X; [congruence|]. cbn [app]. rewrite !walk_name by (apply H; now left). assert (Hn : forall m, In m ns -> name m) by (intros m I; apply H; now right).
    destruct ns as [|m ns].
    - cbn [app]. change (below cur [n]) with (child cur n) in X. destruct X as [-> | ->]; [reflexivity|]. rewrite walk_cons. reflexivity.
    - destruct (node_at g (child cur n)) as [[]|] eqn:E; try reflexivity.
      + apply IH; [exact Hn| |discriminate|exact X]. intros a b Ea Na Nb. rewrite <- child_below. apply (L (n :: a) b); [now rewrite Ea|discriminate|exact Nb].
      + exfalso. apply (L [n] (m :: ns) eq_refl) with (t := target); [discriminate|now left|exact E].
      + rewrite name_not_empty by (apply Hn; now left). cbn [app]. now rewrite name_not_empty by (apply Hn; now left).
  Qed.
  Lemma locate_with_slash fl g ds : stands g root -> (forall n, In n ds -> name n) -> ds <> [] -> clear g root ds -> (g !! below root ds = None \/ g !! below root ds = Some NDir) ->
    locate cwd fl g (below root ds ++ "/") = locate cwd fl g (below root ds).
  Proof.
    intros S Hn Ne C X. rewrite (locate_below cwd root fl g ds S Hn). destruct (stands_root root g S) as (_ & R1 & R2 & _). assert (S' := S). destruct S' as (rs & N & H & Er & D).
    assert (Ln : link_free g root true ds) by (apply (clear_link_free root g ds true R1 R2 C)).
    rewrite <- (node_at_below root g ds R1 R2) in X. rewrite <- (walk_slash 40 fl g ds root Hn Ln Ne X).
    assert (Nn : (rs ++ ds)%list <> []) by (destruct rs; [congruence|discriminate]). assert (Hh : forall n, In n (rs ++ ds) -> name n) by (apply names_app; now split).
    rewrite Er, <- below_app. rewrite locate_abs by now apply below_starts.
    assert (E : py_split "/" (below "/" (rs ++ ds) ++ "/") = (cons "" (app (rs ++ ds) [""]))).
    { rewrite <- (split_join "/" (cons "" (app (rs ++ ds) [""]))); [|discriminate|constructor; [intros []|]; apply List.Forall_app; split; [now apply names_free|repeat constructor; intros []]].
      f_equal. change (cons "" (app (rs ++ ds) [""])) with (app (cons "" (rs ++ ds)) [""]). change (py_join (String "/" "")) with (String.concat "/"). rewrite concat_snoc by discriminate. rewrite below_text_root by assumption. destruct (rs ++ ds)%list; [congruence|]. reflexivity. }
    rewrite E, walk_cons. cbn [String.eqb orb]. rewrite <- app_assoc, walk_dirs; [reflexivity|exact H|].
    intros a b Ea Na. rewrite node_at_map; [now apply (D a b)|]. apply absolute_root, below_absolute; [now left| |exact Na]. intros n I. apply H. rewrite Ea, in_app_iff. now left.
  Qed.
  Lemma mkdir_slash g ns : stands g root -> (forall n, In n ns -> name n) -> ns <> [] -> clear g root ns -> (g !! below root ns = None \/ g !! below root ns = Some NDir) ->
    os_mkdir cwd (below root ns ++ "/") g = os_mkdir cwd (below root ns) g.
  Proof. intros S H N C X. unfold os_mkdir. rewrite !ask_eq. now rewrite locate_with_slash. Qed.
  Lemma slash_parts f ns : stands f root -> (forall n, In n ns -> name n) -> ns <> [] -> basename (below root ns ++ "/") = "" /\ dirname (below root ns ++ "/") = below root ns.
  Proof.
    intros S H N. destruct (stands_root root f S) as (_ & R1 & R2 & _). assert (E0 : below root ns ++ "/" = below root ns ++ "/" ++ "") by reflexivity. rewrite E0. split; [apply basename_under; intros []|]. apply dirname_under; [| |intros []].
    - rewrite below_text by assumption. destruct root; discriminate.
    - destruct ns as [|n ns _] using rev_ind; [congruence|]. destruct (below_parts root f S ns n H) as (D & B & Nn & _). intros [t E]. rewrite E in B. change (t ++ "/") with (t ++ "/" ++ "") in B. rewrite basename_under in B by (intros []). congruence.
  Qed.
  Lemma os_makedirs_slash k f ns : stands f root -> (forall n, In n ns -> name n) -> ns <> [] -> passable root ns f -> clear f root ns -> f !! below root ns = None ->
    os_makedirs cwd (S k) (below root ns ++ "/") f = os_makedirs cwd (S k) (below root ns) f.
  Proof.
    intros S H N P C K. destruct (slash_parts f ns S H N) as [B0 D0]. destruct ns as [|n ns _] using rev_ind; [congruence|]. destruct (below_parts root f S ns n H) as (D & B & Nn & Nb).
    cbn [os_makedirs]. rewrite B0, D0, String.eqb_refl, B, (proj2 (String.eqb_neq _ _) Nn), D, B, (proj2 (String.eqb_neq _ _) Nb), (proj2 (String.eqb_neq _ _) Nn). cbn [negb andb]. rewrite !ask_eq.
    destruct (e_exists cwd f (below root ns)) eqn:X; cbn [negb]; [apply mkdir_slash; auto|].
    destruct ns as [|m ns]; [change (below root []) with root in X; rewrite e_exists_root in X by exact S; discriminate X|].
    assert (Hm : forall y, In y (m :: ns) -> name y) by (apply names_app in H as [? _]; assumption).
    destruct (os_makedirs_keeps cwd root f S (m :: ns) k (fun _ => True) Hm (clear_prefix root f _ [n] C) (m :: ns) []) with (s := f) as [Ks _]; [now rewrite app_nil_r|discriminate|apply dinv_refl|exact Logic.I|].
    pose proof (Ks _ (final_state _ _)) as Mg. revert Mg. unfold final, andthen. destruct (os_makedirs cwd k (below root (m :: ns)) f) as [t [[]|e]]; [|reflexivity]. cbn [fst]. intros Mg.
    rewrite mkdir_slash; [reflexivity|exact (dinv_stands root f S (m :: ns) _ Hm Mg)|exact H|exact N|exact (dinv_clear root f S (m :: ns) _ _ Hm C Mg)|].
    destruct (Mg (below root ((m :: ns) ++ [n]))) as [Y|(_ & Y & _)]; [left; exact (eq_trans Y K)|now right].
  Qed.
  Lemma makedirs_slash f ns : tree f -> stands f root -> (forall n, In n ns -> name n) -> ns <> [] -> passable root ns f ->
    result (makedirs cwd false (below root ns ++ "/")) f = Ok tt /\ with_dirs root ns f (final (makedirs cwd false (below root ns ++ "/")) f).
  Proof.
    intros Tr S H N P. destruct (stands_root root f S) as (_ & R1 & R2 & _). assert (C : clear f root ns) by (intros a b E Na t X; destruct (P a b E Na); congruence).
    destruct (makedirs_ok cwd root f ns Tr S H C) as [Ra W]; [intros a b E Na _; now apply (P a b)|]. rewrite place_ne in Ra, W by exact N.
    assert (Ex : e_exists cwd f (below root ns ++ "/") = e_exists cwd f (below root ns)) by (unfold e_exists, os_stat; rewrite locate_with_slash; [reflexivity|exact S|exact H|exact N|exact C|apply (P ns []); [now rewrite app_nil_r|exact N]]).
    revert Ra W. unfold result, final, makedirs. rewrite !ask_eq, Ex. destruct (e_exists cwd f (below root ns)) eqn:X; [now split|]. intros _ _.
    assert (K : f !! below root ns = None).
    { destruct (P ns []) as [Z|Z]; [now rewrite app_nil_r|exact N|exact Z|]. exfalso. revert X. rewrite <- (place_ne root ns N). rewrite e_exists_reach; [discriminate|exact S|exact H| |exact N|intros t; rewrite Z; discriminate|rewrite Z; discriminate].
      intros a b E Na Nb. apply (tree_prefix root f a b Tr S); [now rewrite <- E|exact Na|exact Nb|]. rewrite <- E, Z. discriminate. }
    destruct (os_makedirs_ok cwd root (Datatypes.S (String.length (below root ns ++ "/"))) f ns Tr S H N) as [Ok1 W1]; [|exact P|exact K|].
    { pose proof (below_length root ns R1 R2). assert (Le : forall s, String.length (s ++ "/") = Datatypes.S (String.length s)) by (induction s as [|x s IH]; [reflexivity|exact (f_equal Datatypes.S IH)]). rewrite Le. lia. }
    unfold result, final in Ok1, W1. rewrite <- os_makedirs_slash in Ok1, W1 by assumption.
    unfold or_error, try_except. destruct (os_makedirs _ _ _ f) as [t r]. cbn [fst snd] in *. rewrite Ok1. now split.
  Qed.
  Notation not_dir := (fun n : option node => n <> Some NDir).
  (** The destination with or without the slash *)
  Lemma insert_files_at src expand runs f ds s l w : (forall p g, runs p g = true) -> tree f -> stands f root -> (forall n, In n ds -> name n) -> ds <> [] -> passable root ds f ->
    source cwd root f expand (as_file cwd root f) (join_path2 src s) l -> room root ds l f -> w = below root ds \/ w = below root ds ++ "/" ->
    result (insert_into cwd src false expand runs w [s]) f = Ok tt /\ exists g, with_dirs root ds f g /\ filled root ds l g (final (insert_into cwd src false expand runs w [s]) f).
  Proof.
    intros Rn Tr S Nd N P So Rm Hw. assert (C : clear f root ds) by (intros a b E Na t X; destruct (P a b E Na); congruence).
    assert (Co : collected (fun s => source cwd root f expand (as_file cwd root f) (join_path2 src s)) [s] l) by (rewrite <- (app_nil_r l); constructor; [exact So|constructor]).
    destruct Hw as [-> | ->]; [rewrite <- (place_ne root ds N); now apply insert_files|].
    unfold insert_into. assert (Z : String.eqb (below root ds ++ "/") "" = false) by (apply String.eqb_neq; destruct (below root ds); discriminate). rewrite Z. cbn [orb].
    destruct (makedirs_slash f ds Tr S Nd N P) as [Ra W]. apply (dirs_then_by root (fun n => n <> Some NDir)); try assumption. intros R1 R2 Nl.
    apply (does_sources cwd root f ds l not_dir file_ok R1 R2 Nd Nl expand (fun p => install_cmd cwd runs p (below root ds ++ "/")) (as_file cwd root f) (join_path2 src)); [|exact Co|apply incl_refl].
    intros x d Ax Id h F.
    assert (E : install_cmd cwd runs x (below root ds ++ "/") h = install_cmd cwd runs x (place ds) h).
    { assert (Dh : h !! below root ds = Some NDir) by (rewrite <- (node_at_below root h ds R1 R2); exact (fine_dir root f ds l not_dir R1 R2 S Nd h F)).
      assert (Ch : clear h root ds) by (intros a b Ea Na t X; destruct F as (_ & B & _); rewrite (B a b Ea Na) in X; discriminate X).
      rewrite (place_ne root ds N). unfold install_cmd. rewrite !ask_eq. rewrite !locate_with_slash; try assumption; try (now right); try reflexivity; exact (fine_stands root f ds l not_dir S h F). }
    unfold result, final. rewrite E. exact (does_as_file cwd root f ds l not_dir dir_not_ok R1 R2 S Nd runs Rn x d Ax Id h F).
  Qed.
End slash.

(** ** newdoc *)
Lemma newdoc_exact cwd root tag expand runs f s d c ds : (forall p g, runs p g = true) -> tree f -> stands f cwd -> stands f root -> ~ beneath root (below cwd [basename d]) ->
  name (basename d) -> has_magic (below cwd [basename d]) = false -> name tag -> means (dirname d) ds ->
  has_magic s = false -> os_lstat cwd f s = Some (NFile c) -> locate cwd true f s <> Some (below cwd [basename d]) ->
  f !! below cwd [basename d] = None \/ (exists c', f !! below cwd [basename d] = Some (NFile c')) ->
  passable root (["usr"; "share"; "doc"; tag] ++ ds) f -> f !! below root (["usr"; "share"; "doc"; tag] ++ ds ++ [basename d]) <> Some NDir ->
  result (newdoc cwd root cwd tag false expand runs s d) f = Ok tt /\
  exists g, with_dirs root (["usr"; "share"; "doc"; tag] ++ ds) (<[below cwd [basename d] := NFile c]> f) g /\
    final (newdoc cwd root cwd tag false expand runs s d) f !! below root (["usr"; "share"; "doc"; tag] ++ ds ++ [basename d]) = Some (NFile c) /\
    forall q, q <> below root (["usr"; "share"; "doc"; tag] ++ ds ++ [basename d]) -> final (newdoc cwd root cwd tag false expand runs s d) f !! q = g !! q.
Proof.
  intros Rn Tr Sc Sr Out Nd Mn Nt M Ms Ls Ap Fr P Rm. destruct (stands_root root f Sr) as (_ & R1 & R2 & _). destruct (stands_root cwd f Sc) as (Ac & C1 & C2 & _).
  set (n := basename d) in *. set (f1 := <[below cwd [n] := NFile c]> f) in *. set (D := (["usr"; "share"; "doc"; tag] ++ ds)%list) in *.
  pose proof (copied_here cwd expand f s n c Sc Nd Ms Ls Fr Ap) as Ec. fold f1 in Ec. unfold newdoc. fold n.
  assert (Rc : result (copy_apart cwd false expand s n) f = Ok tt) by (unfold result; now rewrite Ec). assert (Fc : final (copy_apart cwd false expand s n) f = f1) by (unfold final; now rewrite Ec).
  assert (J : join_path2 cwd n = below cwd [n]) by (rewrite (join_root cwd f n [n] Sc); [reflexivity|now apply name_means]).
  assert (Hm : forall m, In m D -> name m) by (apply names_app; split; [now apply (doc_names tag)|exact (proj1 M)]).
  assert (Jw : join_path root ["usr/share/doc"; tag; dirname d] = below root D \/ join_path root ["usr/share/doc"; tag; dirname d] = below root D ++ "/").
  { unfold join_path. cbn [fold_left]. rewrite (join_root root f "usr/share/doc" ["usr"; "share"; "doc"] Sr) by (apply (means_b "" ["usr"; "share"; "doc"]); [reflexivity|now left]). rewrite place_ne by discriminate.
    rewrite (join_place root f tag ["usr"; "share"; "doc"] [tag] Sr); [|now apply name_means|now left|now apply names_b]. cbn [app].
    rewrite (join_place root f (dirname d) ["usr"; "share"; "doc"; tag] ds Sr); [|exact M|now left|now apply (doc_names tag)]. unfold D. destruct ds; [right; reflexivity|now left]. }
  assert (Bn : basename (below cwd [n]) = n) by (change [n] with ([] ++ [n])%list; exact (proj1 (proj2 (below_parts cwd f Sc [] n (fun m I => match I with or_introl e => eq_ind n name Nd m e | or_intror e => match e with end end))))).
  assert (So : source cwd root f1 expand (as_file cwd root f1) (join_path2 cwd n) [(below cwd [n], c)]).
  { rewrite J. assert (Lg : forall fl g, same_but (beneath root) f1 g -> locate cwd fl g (below cwd [n]) = Some (below cwd [n]) /\ node_at g (below cwd [n]) = Some (NFile c)).
    { intros fl g Sg. assert (X : g !! below cwd [n] = Some (NFile c)) by exact (here_there cwd root f n c Out g Sg). split; [|now rewrite node_at_below].
      rewrite <- (place_ne cwd [n]) at 1 by discriminate. apply locate_reach; [apply (here_cwd cwd root f n c Sc Fr Out R1 R2 g Sg)|now intros m [<-|[]]|intros a b E Na Nb; destruct a as [|x [|y a]]; [congruence|destruct b; [congruence|discriminate E]|discriminate E]|]. intros _ _ t. rewrite X. discriminate. }
    exists [below cwd [n]]. split.
    - intros g Sg. unfold glob, e_lexists, os_lstat. destruct (Lg false g Sg) as [-> ->]. now rewrite Mn.
    - apply (col_cons _ (below cwd [n]) [] [_] []); [|constructor]. apply is_file. intros g Sg. unfold os_stat. destruct (Lg true g Sg) as [-> ->]. reflexivity. }
  destruct (insert_files_at cwd root cwd expand runs f1 D n [(below cwd [n], c)] (join_path root ["usr/share/doc"; tag; dirname d]) Rn (here_tree cwd f n c Tr Sc Nd Fr) (here_stands cwd f n c Fr root Sr) Hm) as [R (g & W & F1 & F2)]; [discriminate|now apply (here_passable cwd root f n c Out R1 R2)|exact So| |exact Jw|].
  { intros p e I. assert (p = below cwd [n]) as -> by (destruct I as [I|[]]; now inversion I). rewrite Bn. split; [exact Nd|]. unfold D. rewrite <- app_assoc. unfold f1. rewrite (here_same cwd root f n c Out R1 R2) by discriminate. exact Rm. }
  split; [unfold result; rewrite (andthen_ok _ _ f tt Rc), Fc; exact R|]. exists g. split; [exact W|]. rewrite (andthen_final _ _ f tt Rc), Fc. split.
  - rewrite app_assoc. fold D. rewrite <- Bn at 1. apply (F1 [] (below cwd [n]) c []); [reflexivity|intros q e []].
  - intros q Nq. apply F2. intros p e I. assert (p = below cwd [n]) as -> by (destruct I as [I|[]]; now inversion I). rewrite Bn. unfold D. now rewrite <- app_assoc.
Qed.
