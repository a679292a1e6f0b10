(** * Archives: nothing outside the target changes *)
From Coq Require Import String Ascii ZArith NArith List Bool Lia.
From stdpp Require Import gmap strings.
From Verif Require Import Model.Py Model.InstallDB Model.Path Model.Fs Model.Trace Model.Actions Model.Index Model.Archive Spec.PathSpec Spec.FsSpec Spec.ActionsSpec Spec.ArchiveSpec.
From Verif Require Import Proof.PyFacts Proof.InstallDBFacts Proof.PathFacts Proof.FsFacts Proof.TraceFacts Proof.ActionsPaths Proof.ActionsFacts Proof.ActionsTop Proof.ActionsExact Proof.ActionsMove Proof.ArchiveFacts Proof.ArchiveTree Proof.ArchiveTrip Proof.ArchiveZip Proof.ArchiveZipTop Proof.ArchiveTop Proof.ArchiveTar Proof.ArchiveSafe.
Import ListNotations.
Open Scope string_scope.
Open Scope prog_scope.

Section members.
  Context (root : string) (umask : N) (e0 : disk) (S0 : stands (nodes e0) root) (at_ : list string -> shape -> Prop) (over : bool).
  Context (Names : forall ns k, at_ ns k -> forall n, In n ns -> name n) (Free : way_free at_ over (nodes e0) root).
  Strategy 100 [locate] 1000 [walk].
  Notation U := (way at_ over).
  Notation inv := (inv root (nodes e0) U).
  Notation safe := (safe root e0 U).
  Lemma way_names ns : U ns -> forall n, In n ns -> name n.
  Proof. intros (_ & b & k & A & _) n I. apply (Names _ k A). rewrite in_app_iff. now left. Qed.
  Lemma way_up a b : U (a ++ b) -> a <> [] -> U a.
  Proof.
    intros (_ & c & k & A & K) N. split; [exact N|]. destruct b as [|x b].
    - rewrite app_nil_r in A. now exists c, k.
    - exists ((x :: b) ++ c)%list, k. split; [now rewrite app_assoc|]. left. discriminate.
  Qed.
  Lemma start : safe e0.
  Proof.
    split; [intros q _; apply same_at_refl|]. intros ns W a b E Na. apply Free. rewrite E in W. now apply way_up in W.
  Qed.
  Lemma member_ways ns k : at_ ns k -> ways U ns.
  Proof. intros A a b E Na Nb. split; [exact Na|]. exists b, k. split; [now rewrite <- E|]. now left. Qed.
  Lemma member_dir ns : at_ ns Directory -> ns <> [] -> U ns.
  Proof. intros A N. split; [exact N|]. exists [], Directory. rewrite app_nil_r. tauto. Qed.
  Lemma member_file ns : over = false -> at_ ns Regular -> ns <> [] -> U ns.
  Proof. intros O A N. split; [exact N|]. exists [], Regular. rewrite app_nil_r. tauto. Qed.
  Lemma member_link ns : at_ ns Symlink -> ns <> [] -> forall ms, U ms -> (forall n, In n ms -> name n) /\ forall b, ms <> (ns ++ b)%list.
  Proof. intros A N ms W. split; [now apply way_names|]. intros b ->. apply way_up in W; [|exact N]. now apply Free in W as [_ W]. Qed.
  Lemma each_safe {A} (f : A -> prog disk unit) l (P : disk -> Prop) : (forall x, In x l -> keeps safe (fun _ => True) (f x) (fun _ _ => True)) -> keeps safe P (each f l) (fun _ _ => True).
  Proof.
    revert P. induction l as [|x l IH]; intros P H; cbn [each]; [apply kret|]. apply (keeps_then safe P _ (fun _ _ => True)).
    - apply (keeps_weaken safe P (fun _ => True) (f x) _ (fun _ _ => True)); [apply H; now left|auto|auto].
    - intros _. apply IH. intros y Y. apply H. now right.
  Qed.
  Lemma stays (p : prog disk unit) : keeps safe (fun _ => True) p (fun _ _ => True) -> forall e', In e' (states p e0) -> unchanged_outside e0 e' root.
  Proof. intros K e' I. destruct (K e0 start Logic.I) as [A _]. exact (proj1 (A e' I)). Qed.

  Section zip.
    Context (cwd : string) (pre : list string) (Hpre : forall n, In n pre -> name n) (Ov : over = true) (Tidy : forall a n k, at_ (a ++ [n]) k -> k <> Directory -> ~ ends_blank (below root a)).
    Notation aroot := (String.concat "/" pre).
    Lemma zip_out m ns k : zip_at pre m ns k -> ns <> [] -> exists out, out_path aroot (m_name m) = Some out /\
      match k with Directory => py_endswith (m_name m) "/" = true /\ spells root (os_join root out) ns | _ => py_endswith (m_name m) "/" = false /\ os_join root out = below root ns end.
    Proof.
      intros (H & K) N. assert (Hs : forall n, In n (pre ++ ns) -> name n) by (apply names_app; now split). assert (Ns : (pre ++ ns)%list <> []) by (destruct pre; [exact N|discriminate]). destruct (stands_root root _ S0) as (_ & R1 & R2 & R3).
      assert (O : forall t, t = String.concat "/" (pre ++ ns) \/ t = String.concat "/" (pre ++ ns) ++ "/" -> out_path aroot t = Some (match pre with [] => t | _ => String.concat "/" ns end)).
      { intros t T. unfold out_path. destruct pre as [|p0 pr] eqn:Ep; [reflexivity|]. rewrite <- Ep in *. assert (Np : pre <> []) by (rewrite Ep; discriminate). rewrite (proj2 (String.eqb_neq _ _) (concat_ne pre Np Hpre)).
        rewrite (proj2 (subpath_concat pre (pre ++ ns) t Np Ns Hpre Hs T)) by now exists ns. now rewrite (removepathprefix_concat pre ns t Np Hpre H T). }
      assert (J : os_join root (String.concat "/" ns) = below root ns) by now apply (join_below root (nodes e0)).
      assert (Js : os_join root (String.concat "/" ns ++ "/") = below root ns ++ "/") by now apply (join_below_slash root (nodes e0)).
      assert (F : m_name m = String.concat "/" (pre ++ ns) -> exists out, out_path aroot (m_name m) = Some out /\ py_endswith (m_name m) "/" = false /\ os_join root out = below root ns).
      { intros E. eexists. split; [apply O; now left|]. rewrite E. split; [now apply concat_endswith|]. destruct pre; exact J. }
      destruct k; [|apply F; now destruct K as (_ & K & _)..]. eexists. split; [apply O; now right|]. rewrite K. split; [apply endswith_iff; now eexists|]. destruct pre; [right; exact Js|left; exact J].
    Qed.
    Lemma zip_top m (P : disk -> Prop) ms : zip_at pre m [] Directory -> keeps safe P (unpack_member cwd umask ms root aroot m) (fun _ _ => True).
    Proof.
      intros (_ & K). rewrite app_nil_r in K. destruct (stands_root root _ S0) as (_ & R1 & R2 & R3). unfold unpack_member. destruct (nil_or_not pre) as [Ep|Np].
      - rewrite Ep in *. cbn [String.concat append] in K. rewrite K. change (out_path (String.concat "/" []) "/") with (Some "/"). change (py_endswith "/" "/") with true. cbv iota.
        change (os_join root "/") with "/". apply keeps_read. intros e Se _. replace (e_isdir cwd (nodes e) "/") with true; [apply kret|]. reflexivity.
      - assert (O : out_path aroot (m_name m) = Some "").
        { unfold out_path. rewrite (proj2 (String.eqb_neq _ _) (concat_ne pre Np Hpre)), K.
          assert (T : String.concat "/" pre ++ "/" = String.concat "/" (pre ++ []) \/ String.concat "/" pre ++ "/" = String.concat "/" (pre ++ []) ++ "/") by (right; now rewrite app_nil_r).
          rewrite (proj2 (subpath_concat pre pre (String.concat "/" pre ++ "/") Np Np Hpre Hpre (or_intror eq_refl))) by (exists []; now rewrite app_nil_r). now rewrite (removepathprefix_concat pre [] _ Np Hpre (fun z I => False_ind _ I) T). }
        rewrite O. replace (py_endswith (m_name m) "/") with true by (symmetry; apply endswith_iff; rewrite K; now eexists). apply keeps_read. intros e Se _. pose proof (inv_stands root (nodes e0) S0 U (nodes e) (safe_inv root e0 U e Se)) as Sg.
        assert (J : os_join root "" = root ++ "/").
        { unfold os_join. rewrite (proj2 (String.eqb_neq _ _) R2). replace (py_startswith "" "/") with false by reflexivity. replace (py_endswith root "/") with false by (symmetry; apply not_true_iff_false; intros X; apply R3; apply endswith_iff in X; exact X). cbn [orb]. now rewrite str_app_nil_r. }
        rewrite J. replace (e_isdir cwd (nodes e) (root ++ "/")) with true; [apply kret|]. symmetry. unfold e_isdir, os_stat. rewrite (locate_slash cwd root) by exact Sg. rewrite node_at_map by exact R1. now rewrite (root_there root _ Sg).
    Qed.
    Lemma zip_safe m ns k (P : disk -> Prop) ms : zip_at pre m ns k -> at_ ns k -> keeps safe P (unpack_member cwd umask ms root aroot m) (fun _ _ => True).
    Proof.
      intros Z A. destruct (nil_or_not ns) as [->|N]; [destruct k; [now apply zip_top|now destruct Z as (_ & Z & _)..]|]. destruct (zip_out m ns k Z N) as (out & O & K). assert (H : forall n, In n ns -> name n) by apply Z. assert (W : ways U ns) by now apply (member_ways ns k).
      pose proof (abs_A root e0 S0 U cwd ns H N W) as LA. pose proof (abs_B root e0 S0 U cwd ns H N W) as LB. pose proof (abs_D root e0 S0 U cwd ns H W) as LD.
      unfold unpack_member. rewrite O. destruct k.
      - destruct K as [-> Sp]. set (o := os_join root out) in *. assert (Un : U ns) by now apply member_dir. apply keeps_read. intros e Se _. destruct (e_isdir cwd (nodes e) o); [apply kret|].
        apply (keeps_then safe _ _ (fun _ e => arrives root cwd o ns true (nodes e))).
        + apply (keeps_weaken safe _ (fun _ => True) _ _ (fun _ e => arrives root cwd o ns true (nodes e))); [|auto|auto]. apply (lift_safe root umask e0 U (fun _ => True) _ (fun _ => arrives root cwd o ns true)). now apply makedirs_spelled.
        + intros u. apply (chmod_safe root e0 S0 U cwd o ns N). auto.
      - destruct K as [-> ->]. destruct Z as (_ & _ & Mn & Ma). destruct (exists_last N) as (a & n & Ea).
        apply (keeps_then safe _ _ (fun _ _ => True)); [apply lift_top; apply (check_dir_safe root e0 S0 U cwd ns a n); try assumption; apply (Tidy a n Regular); [now rewrite <- Ea|discriminate]|]. intros u. apply keeps_read. intros e Se _.
        rewrite (proj2 (N.eqb_neq _ _) Ma). apply (keeps_then safe _ _ (fun _ e => arrives root cwd (below root ns) ns true (nodes e))).
        + pose proof (unlinked root e0 S0 U cwd (below root ns) ns N LA LB LD (e_isfile cwd (nodes e) (below root ns) || e_islink cwd (nodes e) (below root ns)) (nodes e) (safe_inv root e0 U e Se)) as X.
          assert (Y : e_isfile cwd (nodes e) (below root ns) || e_islink cwd (nodes e) (below root ns) = false -> e_islink cwd (nodes e) (below root ns) = false) by (intros Y; now apply orb_false_iff in Y). specialize (X Y). clear Y. apply (lift_safe root umask e0 U) in X.
          destruct (_ || _).
          * apply (keeps_weaken safe _ _ _ _ _ X); [intros s _ ->; reflexivity|auto].
          * intros s Ss ->. destruct (X e Se eq_refl) as [X1 X2]. split; [intros x [<-|[]]; exact Se|]. intros [] _. exact (X2 tt eq_refl).
        + intros u'. apply (keeps_then safe _ _ (fun _ e => arrives root cwd (below root ns) ns true (nodes e))); [apply (lift_safe root umask e0 U (arrives root cwd (below root ns) ns true) _ (fun _ => arrives root cwd (below root ns) ns true)); now apply (write_file_safe root e0 S0 U cwd (below root ns) ns N)|].
          intros u2. apply (chmod_safe root e0 S0 U cwd (below root ns) ns N). auto.
      - destruct K as [-> ->]. destruct Z as (_ & _ & Mn & Ma). destruct (exists_last N) as (a & n & Ea).
        apply (keeps_then safe _ _ (fun _ _ => True)); [apply lift_top; apply (check_dir_safe root e0 S0 U cwd ns a n); try assumption; apply (Tidy a n Symlink); [now rewrite <- Ea|discriminate]|]. intros u. apply keeps_read. intros e Se _.
        rewrite Ma, N.eqb_refl. apply (keeps_then safe _ _ (fun _ _ => True)).
        + destruct (_ || _); [|apply kret]. apply lift_top. eapply keeps_top. now apply (unlink_safe root e0 S0 U cwd (below root ns) ns N).
        + intros u'. apply keeps_read. intros e1 Se1 _. apply (keeps_then safe _ _ (fun _ _ => True)).
          * destruct (e_isdir _ _ _); [|apply kret]. apply lift_top. now apply (rmtree_safe root e0 S0 U cwd (below root ns) ns N).
          * intros u2. apply lift_top. apply (symlink_safe root e0 S0 U cwd (below root ns) ns H N LA). now apply member_link.
    Qed.
  End zip.

  Section tar.
    Context (inst : bool) (Ov : over = false).
    Lemma tar_safe m ns k (P : disk -> Prop) : tar_at m ns k -> at_ ns k -> keeps safe P (tar_member root umask inst m) (fun _ _ => True).
    Proof.
      intros (N & H & Tn & K) A. assert (W : ways U ns) by now apply (member_ways ns k).
      pose proof (rel_A root e0 S0 U ns H N W) as LA. pose proof (rel_B root e0 S0 U ns H N W) as LB. pose proof (rel_D root e0 S0 U ns H N W) as LD. set (o := String.concat "/" ns) in *.
      assert (St : py_rstrip "/" (t_name m) = o) by (rewrite Tn; now apply rstrip_names). destruct (exists_last N) as (a & n & Ea).
      assert (Di : dirname o = String.concat "/" a) by (unfold o; rewrite Ea; apply dirname_names; now rewrite <- Ea).
      assert (Ha : forall x, In x a -> name x) by (intros x I; apply H; rewrite Ea, in_app_iff; now left).
      assert (Wa : ways U a) by (rewrite Ea in W; now apply ways_up in W).
      assert (Ar : forall g, inv g -> U ns -> arrives root root o ns true g) by (intros g I Un; apply LB; [exact I|]; apply I with (ns := ns) (b := []); [exact Un|now rewrite app_nil_r|exact N]).
      assert (Me : forall P, keeps safe P (try_except (os_chmod root o (t_mode m)) is_os_error (ret tt)) (fun _ _ => True) \/ ~ U ns).
      { intros P'. destruct k; [left|left|].
        - apply keeps_try; [|apply kret]. apply (chmod_safe root e0 S0 U root o ns N). intros e Se _. apply Ar; [exact (safe_inv root e0 U e Se)|now apply member_dir].
        - apply keeps_try; [|apply kret]. apply (chmod_safe root e0 S0 U root o ns N). intros e Se _. apply Ar; [exact (safe_inv root e0 U e Se)|now apply member_file].
        - right. intros X. now apply Free in X as [_ X]. }
      assert (Ch : forall P, U ns -> keeps safe P (try_except (os_chmod root o (t_mode m)) is_os_error (ret tt)) (fun _ _ => True)) by (intros P' Un; destruct (Me P') as [X|X]; [exact X|now elim X]). clear Me.
      unfold tar_member. apply keeps_read. intros e Se _. apply (keeps_then safe _ _ (fun _ _ => True)).
      { destruct (_ && _); [|apply kret]. apply keeps_try; [|apply kret]. rewrite Tn. apply lift_top. eapply keeps_top. now apply (unlink_safe root e0 S0 U root o ns N). }
      intros u. unfold tar_extract. rewrite St. apply keeps_read. intros e1 Se1 _. apply (keeps_then safe _ _ (fun _ _ => True)).
      { destruct (String.eqb_spec (dirname o) "") as [_|Nd]; cbn [orb]; [apply kret|]. destruct (e_exists _ _ _); [apply kret|]. rewrite Di in *. apply lift_top. apply makedirs_rel; try assumption. intros ->. now apply Nd. }
      intros u1. destruct (t_what m) as [c| |t]; subst k.
      - assert (Un : U ns) by now apply member_file. apply (keeps_then safe _ _ (fun _ _ => True)); [|intros u2; now apply Ch]. apply lift_top.
        apply (keeps_weaken inv _ (arrives root root o ns true) _ _ (fun _ => arrives root root o ns true)); [now apply (write_file_safe root e0 S0 U root o ns N)|intros g I _; now apply Ar|auto].
      - assert (Un : U ns) by now apply member_dir. apply keeps_read. intros e2 Se2 _. apply (keeps_then safe _ _ (fun _ _ => True)); [|intros u2; now apply Ch]. destruct (e_lexists _ _ _); [apply kret|]. apply lift_top. eapply keeps_top. now apply (mkdir_safe root e0 S0 U root o ns N).
      - apply keeps_read. intros e2 Se2 _. apply (keeps_then safe _ _ (fun _ _ => True)).
        + destruct (e_lexists _ _ _); [|apply kret]. apply lift_top. eapply keeps_top. now apply (unlink_safe root e0 S0 U root o ns N).
        + intros u2. apply lift_top. apply (symlink_safe root e0 S0 U root o ns H N LA). now apply member_link.
    Qed.
  End tar.
End members.

(** ** Whole archives *)
Lemma zip_contained cwd umask (sel : string -> bool) (ms : list member) (e : disk) (T : string) (pre : list string) :
  stands (nodes e) T -> (forall n, In n pre -> name n) ->
  (forall m, In m ms -> sel (m_name m) = true -> exists ns k, zip_at pre m ns k) ->
  way_free (zip_places pre (List.filter (fun m => sel (m_name m)) ms)) true (nodes e) T ->
  (forall a n k, zip_places pre (List.filter (fun m => sel (m_name m)) ms) (a ++ [n]) k -> k <> Directory -> ~ ends_blank (below T a)) ->
  forall e', In e' (states (unpack_file_cond cwd umask sel ms T (String.concat "/" pre)) e) -> unchanged_outside e e' T.
Proof.
  intros S Hp Hm Fr Td. apply (stays T e (zip_places pre (List.filter (fun m => sel (m_name m)) ms)) true).
  - exact Fr.
  - unfold unpack_file_cond. apply each_safe. intros m I. destruct (sel (m_name m)) eqn:E; [|apply kret]. destruct (Hm m I E) as (ns & k & Z).
    assert (A : zip_places pre (List.filter (fun m => sel (m_name m)) ms) ns k) by (exists m; split; [apply List.filter_In; now split|exact Z]).
    apply (zip_safe T umask e S (zip_places pre (List.filter (fun m => sel (m_name m)) ms)) true) with (ns := ns) (k := k); try assumption; try reflexivity. intros ns' k' (m' & _ & Z'). apply Z'.
Qed.
Lemma tar_contained cwd umask inst (ms : list tmember) (e : disk) (T : string) :
  stands (nodes e) T -> (forall m, In m ms -> exists ns k, tar_at m ns k) -> way_free (tar_places ms) false (nodes e) T ->
  forall e', In e' (states (tar_unpack_dir cwd umask inst ms T) e) -> unchanged_outside e e' T.
Proof.
  intros S Hm Fr. destruct (stands_root T _ S) as (_ & R1 & _). apply (stays T e (tar_places ms) false).
  - exact Fr.
  - unfold tar_unpack_dir. apply keeps_read. intros e1 Se _. pose proof (inv_stands T (nodes e) S _ (nodes e1) (safe_inv T e _ e1 Se)) as S1.
    assert (L : locate cwd true (nodes e1) T = Some T) by (pose proof (locate_below cwd T true (nodes e1) [] S1 (fun x I => False_ind _ I)) as L; rewrite walk_nil in L; exact L).
    rewrite L, node_at_map by exact R1. rewrite (root_there T _ S1). apply each_safe. intros m I. destruct (Hm m I) as (ns & k & Z).
    apply (tar_safe T umask e S (tar_places ms) false) with (ns := ns) (k := k); try assumption; try reflexivity; [intros ns' k' (m' & _ & Z'); apply Z'|now exists m].
Qed.
