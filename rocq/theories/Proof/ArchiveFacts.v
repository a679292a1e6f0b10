(** * Archives: one step at a time *)
From Coq Require Import String Ascii ZArith NArith List Bool Lia.
From stdpp Require Import gmap strings.
From Verif Require Import Model.Py Model.InstallDB Model.Path Model.Fs Model.Trace Model.Actions Model.Index Model.Archive Spec.PathSpec Spec.FsSpec Spec.ActionsSpec Spec.ArchiveSpec.
From Verif Require Import Proof.PyFacts Proof.PathFacts Proof.FsFacts Proof.TraceFacts Proof.ActionsPaths Proof.ActionsFacts Proof.ActionsTop Proof.ActionsExact Proof.ActionsMove.
Import ListNotations.
Open Scope string_scope.
Open Scope prog_scope.

Lemma last_from {A} (x : A) l d : List.last (x :: l) d = List.last l x.
Proof. revert x d. induction l as [|y l IH]; intros x d; [reflexivity|]. change (List.last (x :: y :: l) d) with (List.last (y :: l) d). rewrite (IH y d). symmetry. exact (IH y x). Qed.

(** ** Programs that succeed *)
Definition does {S} (p : prog S unit) (s : S) (Q : S -> Prop) : Prop := result p s = Ok tt /\ Q (final p s).
Lemma does_then {S} (p q : prog S unit) s (Q R : S -> Prop) : does p s Q -> (forall s', Q s' -> does q s' R) -> does (_ <~ p ;; q) s R.
Proof.
  intros [E H] K. destruct (K _ H) as [E' H']. split; [unfold result; rewrite (andthen_ok _ _ s tt E); exact E'|]. now rewrite (andthen_final _ _ s tt E).
Qed.
Lemma does_ask {S A} (h : S -> A) (q : A -> prog S unit) s (R : S -> Prop) : does (q (h s)) s R -> does (x <~ ask h ;; q x) s R.
Proof. intros H. unfold does, result, final. rewrite ask_eq. exact H. Qed.
Lemma does_ret {S} (s : S) (R : S -> Prop) : R s -> does (ret tt) s R.
Proof. intros H. now split. Qed.
Lemma does_weaken {S} (p : prog S unit) s (Q R : S -> Prop) : does p s Q -> (forall s', Q s' -> R s') -> does p s R.
Proof. intros [E H] K. split; [exact E|now apply K]. Qed.
Lemma does_each {S A} (h : A -> prog S unit) (I : list A -> S -> Prop) l s : I l s -> (forall x k s, I (x :: k) s -> (exists j, l = (j ++ x :: k)%list) -> does (h x) s (I k)) -> does (each h l) s (I []).
Proof.
  revert s. induction l as [|x l IH]; intros s H K; [now apply does_ret|]. cbn [each]. eapply does_then; [apply (K x l s H); now exists []|]. intros s' H'. apply IH; [exact H'|]. intros y k s2 H2 [j ->]. apply K; [exact H2|]. now exists (x :: j).
Qed.
Lemma each_filter {S A} (h : A -> bool) (p : A -> prog S unit) l s : each (fun x => if h x then p x else ret tt) l s = each p (List.filter h l) s.
Proof.
  revert s. induction l as [|x l IH]; intros s; [reflexivity|]. cbn [each List.filter]. destruct (h x).
  - cbn [each]. unfold andthen. destruct (p x s) as [t [[]|e]]; [|reflexivity]. now rewrite IH.
  - unfold andthen, ret. cbn. rewrite IH. now destruct (each p (List.filter h l) s).
Qed.

Section disk.
  Variable umask : N.
  Lemma settle_mode d g q : mode_of (settle umask d g) q = match g !! q with Some n => match nodes d !! q with Some _ => mode_of d q | None => new_mode umask n end | None => 0%N end.
  Proof. unfold mode_of at 1, settle. cbn [modes]. rewrite map_lookup_imap. now destruct (g !! q). Qed.
  Lemma settle_all_last d l : nodes (List.last (settle_all umask d l) d) = List.last l (nodes d).
  Proof.
    revert d. induction l as [|g l IH]; intros d; [reflexivity|]. cbn [settle_all]. rewrite !last_from. apply (IH (settle umask d g)).
  Qed.
  Lemma lift_result {A} (p : prog fs A) d : result (lift umask p) d = result p (nodes d). Proof. reflexivity. Qed.
  Lemma lift_nodes {A} (p : prog fs A) d : nodes (final (lift umask p) d) = final p (nodes d).
  Proof. apply settle_all_last. Qed.
  (** What stays through all the steps keeps its permissions. *)
  Lemma lift_mode {A} (p : prog fs A) d q : (forall g, In g (states p (nodes d)) -> g !! q <> None) -> mode_of (final (lift umask p) d) q = mode_of d q.
  Proof.
    unfold final, lift, states. cbn [fst]. generalize (fst (p (nodes d))). intros l. revert d. induction l as [|g l IH]; intros d H; [reflexivity|]. cbn [settle_all]. rewrite last_from.
    rewrite IH.
    - rewrite settle_mode. pose proof (H g) as Hg. pose proof (H (nodes d)) as Hd. destruct (g !! q); [|now elim Hg; [right; left|]]. destruct (nodes d !! q); [reflexivity|]. now elim Hd; [left|].
    - intros x [<-|X]; apply H; right; [now left|now right].
  Qed.
End disk.

(** ** Paths *)
Lemma split_below_slash ns : ns <> [] -> (forall n, In n ns -> name n) -> py_split "/" (below "/" ns ++ "/") = cons "" (app ns [""]).
Proof.
  intros N H. rewrite <- (split_join "/" (cons "" (app ns [""]))); [|discriminate|constructor; [intros []|]; apply List.Forall_app; split; [now apply names_free|repeat constructor; intros []]].
  f_equal. change (cons "" (app ns [""])) with (app (cons "" ns) [""]). change (py_join (String "/" "")) with (String.concat "/"). rewrite concat_snoc by discriminate. rewrite below_text_root by assumption. destruct ns; [congruence|]. reflexivity.
Qed.
Lemma strip_plain p : (forall r, p <> String " " r) -> py_startswith p "/" = true -> ~ ends_blank p -> py_strip p = p.
Proof.
  intros _ S E. unfold py_strip. apply startswith_iff in S as [r ->]. change ("/" ++ r) with (String "/" r) in *.
  assert (K : py_lstrip whitespace_chars (String "/" r) = String "/" r) by (apply lstrip_stop; reflexivity). rewrite K. destruct (str_snoc_cases (String "/" r)) as [X|(s & c & X)]; [discriminate X|]. rewrite X in *.
  apply PyFacts.rstrip_stop. destruct (char_in c whitespace_chars) eqn:C; [|reflexivity]. elim E. exists s, c. split; [reflexivity|]. apply char_in_iff in C. cbn in C. decompose [or] C; subst; try reflexivity; contradiction.
Qed.

Section target.
  Context (cwd root : string) (umask : N).
  Notation place := (place root).
  Notation dirs_to := (dirs_to root).
  Strategy 100 [locate] 1000 [walk].

  Lemma locate_trail fl f ns : stands f root -> (forall n, In n ns -> name n) -> ns <> [] -> dirs_to f ns -> f !! below root ns = None \/ f !! below root ns = Some NDir ->
    locate cwd fl f (below root ns ++ "/") = Some (below root ns).
  Proof.
    intros S H N D K. destruct (stands_root root f S) as (_ & R1 & R2 & _). destruct S as (rs & Nr & Hr & -> & Dr). rewrite <- below_app. assert (A : (rs ++ ns)%list <> []) by (destruct rs; [congruence|discriminate]). assert (B : forall n, In n (rs ++ ns) -> name n) by (apply names_app; now split).
    rewrite locate_abs, split_below_slash by first [assumption|now apply below_starts]. rewrite walk_cons. cbn [String.eqb orb]. destruct ns as [|n ns _] using rev_ind; [congruence|]. apply names_app in H as [Hn Hl]. rewrite app_assoc, <- app_assoc. cbn [app].
    rewrite walk_dirs; [|apply names_app; now split|].
    - rewrite walk_name by (apply Hl; now left). rewrite (below_snoc "/" (rs ++ ns) n). rewrite below_snoc, <- below_app in K. set (q := child _ n) in *.
      rewrite node_at_map; [|unfold q; rewrite below_app, <- below_snoc; apply String.eqb_neq; now apply not_top]. destruct K as [->| ->]; [reflexivity|]. rewrite walk_cons. cbn [String.eqb orb]. apply walk_nil.
    - intros a b E Na. apply app_eq_app in E as (l & [[-> E]|[-> E]]).
      + rewrite node_at_map; [now apply (Dr a l)|]. apply absolute_root, below_absolute; [now left|intros m I; apply Hr; rewrite in_app_iff; now left|exact Na].
      + rewrite below_app. destruct l as [|x l].
        * rewrite app_nil_r in *. cbn [below]. rewrite node_at_map by exact R1. now apply (Dr rs []); [rewrite app_nil_r|].
        * rewrite node_at_below by assumption. apply (D (x :: l) (b ++ [n])%list); [now rewrite E, app_assoc|discriminate|destruct b; discriminate].
  Qed.
  Lemma locate_reached fl f ns : stands f root -> (forall n, In n ns -> name n) -> ns <> [] -> dirs_to f ns -> no_link f (below root ns) -> locate cwd fl f (below root ns) = Some (below root ns).
  Proof. intros S H N D L. pose proof (locate_reach cwd root fl f ns S H D (fun _ _ => L)) as E. now rewrite place_ne in E. Qed.
  Lemma lift_does p d g (Q : disk -> Prop) : p (nodes d) = ([g], Ok tt) -> Q (settle umask d g) -> does (lift umask p) d Q.
  Proof. intros E H. unfold does, result, final, lift. rewrite E. now split. Qed.
  Lemma lift_does_nil p d (Q : disk -> Prop) : p (nodes d) = ([], Ok tt) -> Q d -> does (lift umask p) d Q.
  Proof. intros E H. unfold does, result, final, lift. rewrite E. now split. Qed.
  Lemma chmod_does o d q m (Q : disk -> Prop) : locate cwd true (nodes d) o = Some q -> node_at (nodes d) q <> None -> Q (mkDisk (nodes d) (<[ q := m ]> (modes d))) -> does (os_chmod cwd o m) d Q.
  Proof. intros L N H. unfold os_chmod. apply does_ask. rewrite L. destruct (node_at (nodes d) q); [now split|congruence]. Qed.

  (** Something new at a place, with this mode *)
  Definition adds (d d' : disk) (ns : list string) (x : node) (m : N) : Prop :=
    nodes d' = <[ below root ns := x ]> (nodes d) /\ ((forall t, x <> NLink t) -> mode_of d' (below root ns) = m) /\ forall q, q <> below root ns -> nodes d !! q <> None -> mode_of d' q = mode_of d q.
  Lemma settle_adds d ns x : nodes d !! below root ns = None -> adds d (settle umask d (<[ below root ns := x ]> (nodes d))) ns x (new_mode umask x).
  Proof.
    intros K. split; [reflexivity|]. split.
    - intros _. now rewrite settle_mode, lookup_insert, K.
    - intros q Ne Nq. rewrite settle_mode, lookup_insert_ne by congruence. destruct (nodes d !! q); [reflexivity|congruence].
  Qed.
  Lemma adds_over d d' ns x m y : adds d d' ns x m -> adds d (settle umask d' (<[ below root ns := y ]> (nodes d'))) ns y (mode_of d' (below root ns)).
  Proof.
    intros (E & M & O). split; [|split].
    - cbn [nodes settle]. rewrite E. apply insert_insert.
    - intros _. rewrite settle_mode, lookup_insert, E, lookup_insert. reflexivity.
    - intros q Ne Nq. rewrite settle_mode, lookup_insert_ne, E, lookup_insert_ne by congruence. destruct (nodes d !! q) eqn:X; [now apply O; [|rewrite X]|congruence].
  Qed.
  Lemma adds_chmod d d' ns x m k : adds d d' ns x m -> adds d (mkDisk (nodes d') (<[ below root ns := k ]> (modes d'))) ns x k.
  Proof.
    intros (E & M & O). split; [exact E|]. split.
    - intros _. unfold mode_of. cbn [modes]. now rewrite lookup_insert.
    - intros q Ne Nq. unfold mode_of. cbn [modes]. rewrite lookup_insert_ne by congruence. now apply O.
  Qed.
  Lemma adds_stands d d' ns x m : stands (nodes d) root -> ns <> [] -> adds d d' ns x m -> stands (nodes d') root.
  Proof.
    intros S N (E & _). destruct (stands_root root _ S) as (_ & R1 & R2 & _). apply (stands_same root (nodes d)); [|exact S]. intros q B. rewrite E. apply lookup_insert_ne. intros <-. apply B. now apply below_beneath.
  Qed.
  Lemma adds_dirs d d' ns x m : stands (nodes d) root -> (forall n, In n ns -> name n) -> dirs_to (nodes d) ns -> adds d d' ns x m -> dirs_to (nodes d') ns.
  Proof.
    intros S H D (E & _) a b Ea Na Nb. destruct (stands_root root _ S) as (_ & R1 & R2 & _). rewrite E, lookup_insert_ne; [now apply (D a b)|]. intros X. apply below_inj in X; [|assumption|assumption|exact H|intros n I; apply H; rewrite Ea, in_app_iff; now left].
    rewrite X in Ea. apply (f_equal (@List.length string)) in Ea. rewrite app_length in Ea. destruct b; [congruence|cbn in Ea; lia].
  Qed.

  (** The text of a path: with a slash at its end or without *)
  Definition spells (o : string) (ns : list string) : Prop := o = below root ns \/ o = below root ns ++ "/".
  Section fresh.
    Context (d : disk) (ns : list string) (S : stands (nodes d) root) (H : forall n, In n ns -> name n) (N : ns <> []) (D : dirs_to (nodes d) ns) (K : nodes d !! below root ns = None).
    Lemma locate_fresh fl o : spells o ns -> locate cwd fl (nodes d) o = Some (below root ns).
    Proof.
      intros [->| ->].
      - apply locate_reached; try assumption. intros t. now rewrite K.
      - apply locate_trail; try assumption. now left.
    Qed.
    Lemma node_fresh : node_at (nodes d) (below root ns) = None.
    Proof. destruct (stands_root root _ S) as (_ & R1 & R2 & _). now rewrite node_at_below. Qed.
    Lemma isdir_fresh o : spells o ns -> e_isdir cwd (nodes d) o = false.
    Proof. intros E. unfold e_isdir, os_stat. now rewrite locate_fresh, node_fresh. Qed.
    Lemma isfile_fresh o : spells o ns -> e_isfile cwd (nodes d) o = false.
    Proof. intros E. unfold e_isfile, os_stat. now rewrite locate_fresh, node_fresh. Qed.
    Lemma islink_fresh o : spells o ns -> e_islink cwd (nodes d) o = false.
    Proof. intros E. unfold e_islink, os_lstat. now rewrite locate_fresh, node_fresh. Qed.
    Lemma parent_there : forall a n, ns = (a ++ [n])%list -> e_exists cwd (nodes d) (below root a) = true.
    Proof.
      intros a n E. destruct a as [|m a]; [now apply e_exists_root|]. rewrite <- (place_ne root) by discriminate. assert (X : nodes d !! below root (m :: a) = Some NDir) by (apply (D (m :: a) [n]); [exact E|discriminate|discriminate]).
      apply e_exists_reach; [exact S|intros x I; apply H; rewrite E, in_app_iff; now left| |discriminate|intros t; rewrite X; discriminate|rewrite X; discriminate].
      intros b c Eb Nb Nc. apply (D b (c ++ [n])%list); [now rewrite E, Eb, app_assoc|exact Nb|destruct c; discriminate].
    Qed.
    Lemma makedirs_fresh k o : spells o ns -> os_makedirs cwd (Datatypes.S k) o (nodes d) = ([<[ below root ns := NDir ]> (nodes d)], Ok tt).
    Proof.
      intros E. pose proof (locate_fresh false o E) as L. destruct (exists_last N) as (a & n & E0). pose proof H as Ha. rewrite E0 in Ha. destruct (below_parts root _ S a n Ha) as (Dn & Bn & Nn & Nb). cbn [os_makedirs].
      assert (P : (if String.eqb (basename o) "" then dirname o else o) = below root (a ++ [n])).
      { unfold spells in E. rewrite E0 in E. destruct E as [->| ->].
        - now rewrite Bn, (proj2 (String.eqb_neq _ _) Nn).
        - change (below root (a ++ [n]) ++ "/") with (below root (a ++ [n]) ++ "/" ++ ""). pose proof (basename_under (below root (a ++ [n])) "") as B. rewrite B by (intros []). change (String.eqb "" "") with true. cbv iota. apply dirname_under; [|destruct (stands_root root _ S) as (A & R1 & R2 & _)|intros []].
          + intros X. rewrite X in Dn. now rewrite <- Dn in Nb.
          + rewrite below_text by (assumption || (destruct a; discriminate)). rewrite <- str_app_assoc. apply concat_ends; [destruct a; discriminate|exact Ha]. }
      rewrite P, Dn, Bn, (proj2 (String.eqb_neq _ _) Nn), (proj2 (String.eqb_neq _ _) Nb). cbn [negb andb]. rewrite ask_eq, (parent_there a n E0). cbn [negb]. unfold os_mkdir. now rewrite ask_eq, L, node_fresh.
    Qed.
    Lemma symlink_fresh t : os_symlink cwd t (below root ns) (nodes d) = ([<[ below root ns := NLink t ]> (nodes d)], Ok tt).
    Proof. unfold os_symlink. rewrite ask_eq, locate_fresh, node_fresh by now left. reflexivity. Qed.
    Lemma write_fresh c : write_file cwd (below root ns) c (nodes d) = ([<[ below root ns := NFile "" ]> (nodes d); <[ below root ns := NFile c ]> (<[ below root ns := NFile "" ]> (nodes d))], Ok tt).
    Proof.
      unfold write_file. rewrite ask_eq. unfold os_stat. rewrite locate_fresh, node_fresh by now left.
      assert (E1 : os_write cwd (below root ns) "" (nodes d) = ([<[ below root ns := NFile "" ]> (nodes d)], Ok tt)) by (unfold os_write; rewrite ask_eq, locate_fresh, node_fresh by (now left); reflexivity).
      rewrite (andthen_ok _ _ _ tt) by (unfold result; now rewrite E1). unfold final. rewrite E1. cbn [fst List.last]. set (g := <[ below root ns := NFile "" ]> (nodes d)).
      destruct (stands_root root _ S) as (A & R1 & R2 & _).
      assert (Sg : stands g root). { apply (stands_same root (nodes d)); [|exact S]. intros q B. apply lookup_insert_ne. intros <-. apply B. now apply below_beneath. }
      assert (L : locate cwd true g (below root ns) = Some (below root ns)).
      { apply locate_reached; [exact Sg|exact H|exact N| |].
        - intros a b Ea Na Nb. unfold g. rewrite lookup_insert_ne; [now apply (D a b)|]. intros X. apply below_inj in X; [|assumption|assumption|exact H|intros n I; apply H; rewrite Ea, in_app_iff; now left].
          rewrite X in Ea. apply (f_equal (@List.length string)) in Ea. rewrite app_length in Ea. destruct b; [congruence|cbn in Ea; lia].
        - intros t. unfold g. rewrite lookup_insert. discriminate. }
      unfold os_write. rewrite ask_eq, L. rewrite node_at_below by assumption. assert (X : g !! below root ns = Some (NFile "")) by apply lookup_insert. rewrite X. reflexivity.
    Qed.
    Lemma check_dir_fresh a n : ns = (a ++ [n])%list -> ~ ends_blank (below root a) -> check_dir cwd (dirname (below root ns)) (nodes d) = ([], Ok tt).
    Proof.
      intros E B. pose proof H as Ha. rewrite E in Ha. destruct (below_parts root _ S a n Ha) as (Dn & _ & _ & Nb). unfold check_dir. rewrite ask_eq, E, Dn.
      destruct (stands_root root _ S) as (A & R1 & R2 & R3). assert (P : py_startswith (below root a) "/" = true /\ ~ ends_in_slash (below root a)).
      { destruct a as [|m a].
        - split; [|exact R3]. destruct A as (r & _ & A). cbn [below]. rewrite A. apply startswith_iff. now exists r.
        - split; [|rewrite below_text by (assumption || discriminate); rewrite <- str_app_assoc; apply concat_ends; [discriminate|apply names_app in Ha as [? _]; assumption]].
          destruct (below_absolute root (m :: a)) as (r & _ & X); [now right|apply names_app in Ha as [? _]; assumption|discriminate|]. rewrite X. apply startswith_iff. now exists r. }
      rewrite strip_plain, rstrip_none by (try apply P; try exact B; intros r X; destruct P as [P _]; rewrite X in P; discriminate P). now rewrite (parent_there a n E).
    Qed.
    Section member.
      Context (ms : list member) (aroot : string) (m : member) (out : string) (G : out_path aroot (m_name m) = Some out).
      Lemma unpack_dir_fresh : py_endswith (m_name m) "/" = true -> spells (os_join root out) ns -> does (unpack_member cwd umask ms root aroot m) d (fun d' => adds d d' ns NDir (zip_dir_mode m)).
      Proof.
        intros E O. unfold unpack_member. rewrite G, E. apply does_ask. rewrite isdir_fresh by exact O. eapply does_then.
        - eapply lift_does with (Q := fun d' => adds d d' ns NDir (new_mode umask NDir)); [now apply makedirs_fresh|now apply settle_adds].
        - intros d' A. apply chmod_does with (q := below root ns); [| |eapply adds_chmod; exact A].
          + pose proof (adds_stands _ _ _ _ _ S N A) as S'. pose proof (adds_dirs _ _ _ _ _ S H D A) as D'. destruct A as (X & _). assert (Y : nodes d' !! below root ns = Some NDir) by (rewrite X; apply lookup_insert).
            destruct O as [->| ->]; [|apply locate_trail; try assumption; now right]. apply locate_reached; try assumption. intros t. rewrite Y. discriminate.
          + destruct (stands_root root _ S) as (_ & R1 & R2 & _). rewrite node_at_below by assumption. destruct A as (X & _). rewrite X, lookup_insert. discriminate.
      Qed.
      Context (F : py_endswith (m_name m) "/" = false) (O : os_join root out = below root ns) (a : list string) (n : string) (Ea : ns = (a ++ [n])%list) (B : ~ ends_blank (below root a)).
      Lemma unpack_link_fresh : m_attr m = symmagic -> does (unpack_member cwd umask ms root aroot m) d (fun d' => adds d d' ns (NLink (zip_read ms (m_name m))) 0).
      Proof.
        intros E. unfold unpack_member. rewrite G, F, O. eapply does_then; [apply lift_does_nil with (Q := fun d' => d' = d); [now apply (check_dir_fresh a n)|reflexivity]|]. intros d' ->. apply does_ask.
        rewrite isfile_fresh, islink_fresh by now left. cbn [orb]. eapply does_then; [apply does_ret with (R := fun d' => d' = d); reflexivity|]. intros d' ->. rewrite E, N.eqb_refl. apply does_ask. rewrite isdir_fresh by now left.
        eapply does_then; [apply does_ret with (R := fun d' => d' = d); reflexivity|]. intros d' ->. eapply lift_does; [apply symlink_fresh|]. destruct (settle_adds d ns (NLink (zip_read ms (m_name m))) K) as (X & Y & Z). split; [exact X|]. split; [|exact Z].
        intros C. now elim (C (zip_read ms (m_name m))).
      Qed.
      Lemma unpack_file_fresh : m_attr m <> symmagic -> does (unpack_member cwd umask ms root aroot m) d (fun d' => adds d d' ns (NFile (zip_read ms (m_name m))) (zip_mode m)).
      Proof.
        intros E. unfold unpack_member. rewrite G, F, O. eapply does_then; [apply lift_does_nil with (Q := fun d' => d' = d); [now apply (check_dir_fresh a n)|reflexivity]|]. intros d' ->. apply does_ask.
        rewrite isfile_fresh, islink_fresh by now left. cbn [orb]. eapply does_then; [apply does_ret with (R := fun d' => d' = d); reflexivity|]. intros d' ->. rewrite (proj2 (N.eqb_neq _ _) E).
        eapply does_then.
        - assert (X : does (lift umask (write_file cwd (below root ns) (zip_read ms (m_name m)))) d (fun d' => exists k, adds d d' ns (NFile (zip_read ms (m_name m))) k)); [|exact X].
          unfold does, result, final, lift. rewrite write_fresh. cbn [fst snd]. split; [reflexivity|]. cbn [settle_all List.last]. eexists. exact (adds_over _ _ _ _ _ (NFile (zip_read ms (m_name m))) (settle_adds d ns (NFile "") K)).
        - intros d' [k A]. apply chmod_does with (q := below root ns); [| |eapply adds_chmod; exact A].
          + pose proof (adds_stands _ _ _ _ _ S N A) as S'. pose proof (adds_dirs _ _ _ _ _ S H D A) as D'. destruct A as (X & _). apply locate_reached; try assumption. intros t. rewrite X, lookup_insert. discriminate.
          + destruct (stands_root root _ S) as (_ & R1 & R2 & _). rewrite node_at_below by assumption. destruct A as (X & _). rewrite X, lookup_insert. discriminate.
      Qed.
    End member.
  End fresh.
End target.
