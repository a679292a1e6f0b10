(** * Action scripts: the functions of pisitools *)
From Coq Require Import String Ascii ZArith List Bool Lia.
From stdpp Require Import gmap strings.
From Verif Require Import Model.Py Model.InstallDB Model.Path Model.Fs Model.Trace Model.Actions Spec.PathSpec Spec.FsSpec Spec.ActionsSpec Proof.PyFacts Proof.PathFacts Proof.FsFacts Proof.TraceFacts Proof.ActionsPaths Proof.ActionsFacts.
Import ListNotations.
Open Scope string_scope.
Open Scope prog_scope.

(** ** More about paths *)
Lemma basename_slash p : basename (String "/" p) = basename p.
Proof.
  unfold basename. change "/"%char with slash. cbn [py_rfind]. destruct (py_rfind slash p) as [n|]; [reflexivity|]. rewrite Ascii.eqb_refl. reflexivity.
Qed.
Lemma basename_lstrip p : basename (py_lstrip "/" p) = basename p.
Proof.
  induction p as [|c p IH]; [reflexivity|]. cbn [py_lstrip]. destruct (char_in c "/") eqn:K; [|reflexivity]. apply char_in_iff in K as [<-|[]]. rewrite IH. symmetry. apply basename_slash.
Qed.
Lemma basename_ends p : basename p <> "" -> ~ ends_in_slash p.
Proof. intros N [t ->]. apply N. change (t ++ "/") with (t ++ "/" ++ ""). apply basename_under. intros []. Qed.
Lemma lstrip_ends p : ~ ends_in_slash p -> ~ ends_in_slash (py_lstrip "/" p).
Proof.
  induction p as [|c p IH]; intros H; [exact H|]. cbn [py_lstrip]. destruct (char_in c "/") eqn:K; [|exact H]. apply IH. intros [t ->]. apply H. exists (String c t). reflexivity.
Qed.
Lemma name_means n : name n -> means n [n].
Proof. intros N. split; [now intros m [<-|[]]|]. exists "". split; [intros c []|reflexivity]. Qed.
Lemma means_join d ds x ms : means d ds -> means x ms -> ms <> [] -> means (join_path2 d x) (ds ++ ms).
Proof.
  intros (H & s & Hs & ->) (Hm & u & Hu & ->) N. split; [apply names_app; now split|]. exists s. split; [exact Hs|]. unfold join_path2. rewrite lstrip_slashes by (exact Hu || now apply concat_no_slash).
  assert (App : ds <> [] -> String.concat "/" (ds ++ ms) = String.concat "/" ds ++ "/" ++ String.concat "/" ms).
  { clear -N. intros D. induction ms as [|m ms IH] using rev_ind; [congruence|]. destruct ms as [|k ms].
    - change ([] ++ [m])%list with [m]. rewrite (concat_snoc ds) by exact D. reflexivity.
    - rewrite app_assoc, concat_snoc by (destruct ds; discriminate). rewrite IH by discriminate. rewrite (concat_snoc (k :: ms)) by discriminate. now rewrite !str_app_assoc. }
  destruct ds as [|d ds].
  - cbn [app String.concat]. rewrite str_app_nil_r. destruct (str_snoc_cases s) as [->|(r & c & Es)]; [reflexivity|].
    assert (c = "/"%char) as -> by (apply Hs; rewrite Es, los_app; apply in_app_iff; right; now left). replace (py_endswith s "/") with true; [now rewrite orb_true_r|]. symmetry. apply endswith_iff. now exists r.
  - rewrite App by discriminate. destruct (py_endswith (s ++ String.concat "/" (d :: ds)) "/") eqn:E; [apply endswith_iff in E; exfalso; now apply (concat_ends (d :: ds)) in E|].
    destruct (String.eqb_spec (s ++ String.concat "/" (d :: ds)) "") as [X|_]; [|cbn [orb]; now rewrite !str_app_assoc].
    exfalso. destruct s; [|discriminate X]. destruct (H d (or_introl eq_refl)) as (Nd & _). destruct d; [congruence|]. destruct ds; discriminate X.
Qed.
Lemma under_prefix f root ns a : stands f root -> (forall n, In n ns -> name n) -> ns <> [] -> (forall n, In n a -> name n) -> under (below root ns) (below root a) = true -> exists c, a = (ns ++ c)%list.
Proof.
  intros S H N Ha U. destruct (stands_root root f S) as (_ & R1 & R2 & _). apply under_iff in U as (r & E & [->|[s ->]]).
  - rewrite str_app_nil_r in E. exists []. rewrite app_nil_r. exact (below_inj root a ns R1 R2 Ha H E).
  - destruct a as [|x a].
    { exfalso. pose proof (below_length root ns R1 R2) as L. cbn [below] in E. apply (f_equal String.length) in E. rewrite !str_app_length in E. cbn in E. lia. }
    rewrite (below_text root ns), below_text in E by (assumption || discriminate). rewrite !str_app_assoc in E. apply str_app_inv_l in E. apply str_app_inv_l in E. exists (py_split "/" s).
    rewrite <- (split_join "/" (x :: a)) by (discriminate || now apply names_free). change (py_join (String "/" "") (x :: a)) with (String.concat "/" (x :: a)). rewrite E. change ("/" ++ s) with (String "/" s). rewrite split_app.
    f_equal. apply (split_join "/" ns N). now apply names_free.
Qed.

Section top.
  Context (cwd root src tag : string) (ignore : bool) (expand : fs -> string -> list string) (runs : string -> fs -> bool).
  Context (f0 : fs) (S0 : stands f0 root).
  Notation inv := (inv root f0).
  Notation place := (place root).
  Let R1 : root <> "/" := R1 root f0 S0.
  Let R2 : root <> "" := R2 root f0 S0.

  Lemma inv_keeps_weak (T T' : list string -> Prop) {A} (P : fs -> Prop) (p : prog fs A) (Q : A -> fs -> Prop) : (forall ns, T' ns -> T ns) -> keeps (inv T) P p Q ->
    keeps (inv T') (fun g => inv T g /\ P g) p (fun a g => inv T g /\ Q a g).
  Proof.
    intros W K g _ [I Pg]. destruct (K g I Pg) as [A1 A2]. split; [intros x X; apply (inv_weaken root f0 T); [exact W|now apply A1]|]. intros a E. split; [apply A1, final_state|now apply A2].
  Qed.
  Lemma place_ne ns : ns <> [] -> place ns = below root ns. Proof. destruct ns; [congruence|reflexivity]. Qed.
  Lemma child_place ns n : (forall m, In m ns -> name m) -> ns <> [] -> child (place ns) n = place (ns ++ [n]).
  Proof. intros H N. rewrite !place_ne by (assumption || (destruct ns; discriminate)). now rewrite below_snoc. Qed.
  Lemma join_child ns n : (forall m, In m ns -> name m) -> ns <> [] -> name n -> join_path2 (place ns) n = place (ns ++ [n]).
  Proof.
    intros H N Nn. rewrite place_ne by exact N. rewrite (join_place root f0 n ns [n] S0 (name_means n Nn)); [|left; exact N|exact H]. symmetry. apply place_ne. destruct ns; discriminate.
  Qed.

  (** ** Copying *)
  Section copying.
    Context (T T' : list string -> Prop) (W : forall ns, T' ns -> T ns).
    Context (p bn : string) (ds : list string) (Hbn : basename p = bn) (Nbn : name bn) (Hds : forall n, In n ds -> name n) (Nds : ds <> []).
    Context (Tch : forall k, T (ds ++ repeat bn k)).
    Context (Sep : forall ms, T' ms -> (forall n, In n ms -> name n) /\ forall b, ms <> (ds ++ b)%list).

    Lemma repeat_names k : forall n, In n (ds ++ repeat bn k) -> name n.
    Proof. apply names_app. split; [exact Hds|]. intros n I. apply repeat_spec in I as ->. exact Nbn. Qed.
    Lemma chain_ne k : (ds ++ repeat bn k)%list <> []. Proof. destruct ds; [congruence|discriminate]. Qed.
    Lemma chain_snoc k : ((ds ++ repeat bn k) ++ [bn])%list = (ds ++ repeat bn (S k))%list.
    Proof. now rewrite <- app_assoc, <- repeat_cons. Qed.
    Lemma Sep' k : forall ms, T' ms -> (forall n, In n ms -> name n) /\ forall b, ms <> ((ds ++ repeat bn k) ++ b)%list.
    Proof. intros ms M. destruct (Sep ms M) as [A B]. split; [exact A|]. intros b. rewrite <- app_assoc. apply B. Qed.
    Lemma os_write_inv ns c (P : fs -> Prop) : (forall n, In n ns -> name n) -> ns <> [] -> T ns -> keeps (inv T) P (os_write cwd (place ns) c) (fun _ _ => True).
    Proof.
      intros H N Tn. unfold os_write. apply keeps_read. intros g I _. pose proof (inv_stands root f0 S0 T g I) as Sg. destruct (locate cwd true g (place ns)) as [q|] eqn:L; [|apply keeps_raise].
      apply locate_place in L as [-> _]; [|exact Sg|exact H|now apply I].
      assert (K : keeps (inv T) (fun s => s = g) (change (fun f => <[below root ns := NFile c]> f)) (fun _ _ => True)).
      { apply keeps_change. intros s Is _. split; [|exact Logic.I]. apply inv_insert; [exact Is|now apply below_beneath|discriminate]. }
      destruct (node_at g (below root ns)) as [[]|]; try apply keeps_raise; exact K.
    Qed.
    Lemma weak_top {A} (P : fs -> Prop) (q : prog fs A) : keeps (inv T) (fun _ => True) q (fun _ _ => True) -> keeps (inv T') (fun g => inv T g /\ P g) q (fun _ _ => True).
    Proof. intros K. apply (keeps_weaken _ _ (fun g => inv T g /\ True) _ _ (fun a g => inv T g /\ True)); [now apply inv_keeps_weak|intros s _ [Is _]; now split|auto]. Qed.
    Lemma shutil_copy_inv (P : fs -> Prop) : keeps (inv T) P (shutil_copy cwd p (place ds)) (fun _ _ => True).
    Proof.
      unfold shutil_copy. apply keeps_read. intros g I _. destruct (os_stat cwd g p) as [[c| | |]|]; try apply keeps_raise. destruct (e_isdir cwd g (place ds)).
      - rewrite Hbn, child_place by assumption. rewrite <- (app_nil_r ds) at 1. change (@nil string) with (repeat bn 0). rewrite chain_snoc. apply os_write_inv; [apply repeat_names|apply chain_ne|apply Tch].
      - rewrite <- (app_nil_r ds). change (@nil string) with (repeat bn 0). apply os_write_inv; [apply repeat_names|apply chain_ne|apply Tch].
    Qed.
    Lemma inv_grafted k g qa : inv T g -> inv T' (grafted g qa (below root (ds ++ repeat bn k))).
    Proof.
      intros I. pose proof (inv_weaken root f0 T T' g W I) as [E C]. split.
      - intros q O. rewrite grafted_lookup. destruct (carried g qa (below root (ds ++ repeat bn k)) !! q) eqn:K; [|now apply E]. exfalso. apply O. apply carried_under in K as (r & -> & _). apply beneath_app, below_beneath; [exact R1|exact R2|apply chain_ne].
      - intros ms M a b Ea Na t. rewrite grafted_lookup. destruct (carried g qa (below root (ds ++ repeat bn k)) !! below root a) eqn:K; [|now apply (C ms M a b)].
        exfalso. apply carried_under in K as (r & _ & U & _). destruct (Sep' k ms M) as [Hm Hp]. assert (Ha : forall n, In n a -> name n) by (intros y In'; apply Hm; rewrite Ea, in_app_iff; now left).
        destruct (under_prefix f0 root (ds ++ repeat bn k) a S0 (repeat_names k) (chain_ne k) Ha U) as [c ->]. apply (Hp (c ++ b)%list). now rewrite Ea, app_assoc.
    Qed.
    Lemma shutil_copytree_inv k (P : fs -> Prop) : keeps (inv T') (fun g => inv T g /\ P g) (shutil_copytree cwd p (place (ds ++ repeat bn k))) (fun _ _ => True).
    Proof.
      unfold shutil_copytree. eapply keeps_then.
      - apply (inv_keeps_weak T T' P _ (fun _ _ => True) W). rewrite place_ne by apply chain_ne. intros g I _. pose proof (inv_stands root f0 S0 T g I) as Sg. destruct I as [E C].
        destruct (os_makedirs_keeps cwd root g Sg (ds ++ repeat bn k) (S (String.length (below root (ds ++ repeat bn k)))) (fun _ => True) (repeat_names k) (C _ (Tch k)) (ds ++ repeat bn k) []) with (s := g) as [A _]; [now rewrite app_nil_r|apply chain_ne|apply dinv_refl|exact Logic.I|].
        split; [|auto]. intros x X. apply A in X. apply (dinv_inv root g Sg _ T) in X; [|apply repeat_names|now apply inv_self]. destruct X as [E' C']. split; [|exact C']. intros q O. rewrite E' by exact O. now apply E.
      - intros []. apply keeps_read. intros g _ [I _]. pose proof (inv_stands root f0 S0 T g I) as Sg. destruct (locate cwd true g p) as [qa|]; [|apply keeps_raise]. destruct (locate cwd true g (place (ds ++ repeat bn k))) as [qb|] eqn:L; [|apply keeps_raise].
        apply locate_place in L as [-> _]; [|exact Sg|apply repeat_names|apply I, Tch]. destruct (node_at g qa) as [[]|]; try apply keeps_raise. apply keeps_change. intros s _ ->. split; [now apply inv_grafted|exact Logic.I].
    Qed.
    Lemma copytree_inv n : forall k (P : fs -> Prop), keeps (inv T') (fun g => inv T g /\ P g) (copytree cwd ignore n p (place (ds ++ repeat bn k))) (fun _ _ => True).
    Proof.
      induction n as [|n IH]; intros k P; cbn [copytree]; [apply keeps_raise|]. apply keeps_read. intros g _ [I _]. destruct (e_isdir cwd g p); [|apply error_top].
      destruct (e_exists cwd g (place (ds ++ repeat bn k))).
      - assert (E : basename (if e_isdir cwd g (place (ds ++ repeat bn k)) then py_rstrip "/" (py_lstrip "/" p) else p) = bn).
        { destruct (e_isdir cwd g _); [|exact Hbn]. rewrite rstrip_none by (apply lstrip_ends, basename_ends; rewrite Hbn; apply Nbn). now rewrite basename_lstrip. }
        rewrite E, join_child by (apply repeat_names || apply chain_ne || exact Nbn). rewrite chain_snoc. eapply keeps_weaken; [apply (IH (S k) (fun s => s = g))|intros s _ ->; now split|auto].
      - apply or_error_top. eapply keeps_weaken; [apply (shutil_copytree_inv k (fun s => s = g))|intros s _ ->; now split|auto].
    Qed.
    Lemma symlink_chain t k (P : fs -> Prop) : keeps (inv T') (fun g => inv T g /\ P g) (os_symlink cwd t (place (ds ++ repeat bn k))) (fun _ _ => True).
    Proof.
      unfold os_symlink. apply keeps_read. intros g _ [I _]. pose proof (inv_stands root f0 S0 T g I) as Sg. destruct (locate cwd false g (place (ds ++ repeat bn k))) as [q|] eqn:L; [|apply keeps_raise].
      apply locate_place in L as [-> _]; [|exact Sg|apply repeat_names|apply clear_clear_to, I, Tch]. destruct (node_at g _); [apply keeps_raise|]. apply keeps_change. intros s I' ->. split; [|exact Logic.I].
      apply inv_link; [exact S0|exact I'|apply repeat_names|apply chain_ne|apply Sep'].
    Qed.
    (** One file, link or directory goes to a place. *)
    Lemma copy_one_inv (P : fs -> Prop) : keeps (inv T') (fun g => inv T g /\ P g) (copy_one cwd ignore p (place ds)) (fun _ _ => True).
    Proof.
      assert (E0 : ds = (ds ++ repeat bn 0)%list) by (cbn; now rewrite app_nil_r).
      unfold copy_one. apply keeps_read. intros g _ [I _]. destruct (_ && _); [|destruct (e_islink cwd g p); [|destruct (e_isdir cwd g p); [|apply error_top]]].
      - apply or_error_top. eapply keeps_weaken; [apply (weak_top (fun s => s = g)), shutil_copy_inv|intros s _ ->; now split|auto].
      - destruct (os_lstat cwd g p) as [[| |t|]|]; try apply keeps_raise. destruct (e_isdir cwd g (place ds)).
        + rewrite Hbn, join_child by assumption. rewrite E0 at 1. rewrite chain_snoc. eapply keeps_weaken; [apply (symlink_chain t 1 (fun s => s = g))|intros s _ ->; now split|auto].
        + eapply keeps_then.
          * apply (keeps_weaken _ _ (fun h => inv T h /\ h = g) _ (fun _ h => inv T h /\ True) (fun _ h => inv T h /\ True)); [|intros s _ ->; now split|auto]. apply (inv_keeps_weak T T'); [exact W|]. destruct (e_isfile cwd g (place ds)); [|apply keeps_ret_top].
            apply (os_unlink_inv cwd root f0 S0 T ds (fun s => s = g) Hds Nds). intros h Ih. apply clear_clear_to. rewrite E0. apply Ih, Tch.
          * intros []. replace (place ds) with (place (ds ++ repeat bn 0)) by now rewrite <- E0. apply (symlink_chain t 0).
      - replace (place ds) with (place (ds ++ repeat bn 0)) by now rewrite <- E0. eapply keeps_weaken; [apply (copytree_inv (S (size g)) 0 (fun s => s = g))|intros s _ ->; now split|auto].
    Qed.
  End copying.

  (** ** The functions stay in the install directory *)
  Definition stays (p : prog fs unit) : Prop := forall g, In g (states p f0) -> same_but (beneath root) f0 g.
  Lemma keeps_stays (T : list string -> Prop) p Q : (forall ns, T ns -> clear f0 root ns) -> keeps (inv T) (fun _ => True) p Q -> stays p.
  Proof. intros H K g G. destruct (K f0) as [A _]; [now apply inv_self|exact Logic.I|]. now apply A. Qed.
  Lemma same_but_refl P (f : fs) : same_but P f f. Proof. now intros q _. Qed.

  Lemma dodir_makes d ds : means d ds -> clear f0 root ds -> forall g, In g (states (dodir cwd root ignore d) f0) -> dirs_made root ds f0 g.
  Proof.
    intros M C g G. unfold dodir in G. rewrite (join_root root f0 d ds S0 M) in G. destruct (makedirs_keeps cwd root f0 S0 ignore ds (fun _ => True) (proj1 M) C f0) as [A _]; [apply dinv_refl|exact Logic.I|]. now apply A.
  Qed.
  Lemma dobin_stays s d ds : means d ds -> clear f0 root ds -> stays (dobin cwd root src ignore expand runs s d).
  Proof.
    intros M C. unfold dobin. rewrite (join_root root f0 d ds S0 M). apply (keeps_stays (eq ds) _ (fun _ _ => True)); [now intros ? <-|]. apply insert_inv; [exact S0|exact (proj1 M)|reflexivity].
  Qed.
  Lemma join_more a x ms : (forall n, In n a -> name n) -> means x ms -> ms <> [] -> join_path2 (place a) x = place (a ++ ms).
  Proof.
    intros H M N. destruct a as [|n a].
    - cbn [app place]. destruct M as (Hm & s & Hs & ->). unfold join_path2. rewrite lstrip_slashes by (exact Hs || now apply concat_no_slash). replace (py_endswith (root ++ "/") "/") with true by (symmetry; apply endswith_iff; now exists root). rewrite orb_true_r.
      rewrite (place_ne ms N), below_text by assumption. now rewrite str_app_assoc.
    - rewrite place_ne by discriminate. rewrite (join_place root f0 x (n :: a) ms S0 M); [|now right|exact H]. destruct ms; [congruence|reflexivity].
  Qed.
  Lemma names_b l : forallb (fun n => negb (String.eqb n "") && negb (String.eqb n ".") && negb (String.eqb n "..") && negb (char_in "/" n)) l = true -> forall n, In n l -> name n.
  Proof.
    intros H n I. rewrite forallb_forall in H. specialize (H n I). rewrite !andb_true_iff, !negb_true_iff, !String.eqb_neq in H. destruct H as (((A & B) & C) & D). repeat split; [exact A|exact B|exact C|].
    intros K. apply char_in_iff in K. change (char_in "/" n = true) in K. congruence.
  Qed.
  Lemma means_b s ns : forallb (fun n => negb (String.eqb n "") && negb (String.eqb n ".") && negb (String.eqb n "..") && negb (char_in "/" n)) ns = true -> (s = "" \/ s = "/") -> means (s ++ String.concat "/" ns) ns.
  Proof. intros H K. split; [now apply names_b|]. exists s. split; [|reflexivity]. destruct K as [->| ->]; [intros c []|now intros c [<-|[]]]. Qed.
  Definition doc_place := ["usr"; "share"; "doc"; tag].
  Lemma doc_path : name tag -> join_path root ["/usr/share/doc"; tag] = place doc_place.
  Proof.
    intros N. unfold join_path. cbn [fold_left]. rewrite (join_root root f0 "/usr/share/doc" ["usr"; "share"; "doc"] S0) by (apply (means_b "/" ["usr"; "share"; "doc"]); [reflexivity|now right]).
    rewrite (join_more ["usr"; "share"; "doc"] tag [tag]); [reflexivity|now apply names_b|now apply name_means|discriminate].
  Qed.
  Lemma doc_names : name tag -> forall n, In n doc_place -> name n.
  Proof. intros N. unfold doc_place. apply (proj2 (names_app ["usr"; "share"; "doc"] [tag])). split; [now apply names_b|now intros n [<-|[]]]. Qed.
  Lemma dodoc_stays l : name tag -> clear f0 root doc_place -> stays (dodoc cwd root src tag ignore expand runs l).
  Proof.
    intros N C. unfold dodoc. rewrite doc_path by exact N. apply (keeps_stays (eq doc_place) _ (fun _ _ => True)); [now intros ? <-|]. apply insert_inv; [exact S0|now apply doc_names|reflexivity].
  Qed.
  Lemma doinfo_stays l : clear f0 root ["usr"; "share"; "info"] -> stays (doinfo cwd root src ignore expand runs l).
  Proof.
    intros C. unfold doinfo. rewrite (join_root root f0 _ ["usr"; "share"; "info"] S0) by (apply (means_b "" ["usr"; "share"; "info"]); [reflexivity|now left]).
    apply (keeps_stays (eq ["usr"; "share"; "info"]) _ (fun _ _ => True)); [now intros ? <-|]. apply insert_inv; [exact S0|now apply names_b|reflexivity].
  Qed.
  Lemma dolib_stays s d ds : py_startswith cwd "/" = true -> means d ds -> clear f0 root ds -> stays (dolib cwd root ignore runs s d).
  Proof.
    intros A M C. unfold dolib. rewrite (join_root root f0 d ds S0 M). apply (keeps_stays (eq ds) _ (fun _ _ => True)); [now intros ? <-|]. apply lib_inv; [exact S0|exact (proj1 M)|reflexivity|].
    apply startswith_iff in A as [r ->]. apply startswith_iff. unfold join_path2. destruct (_ || _); eexists; rewrite str_app_assoc; reflexivity.
  Qed.
  Definition man_place (sec : string) := ["usr"; "share"; "man"; "man" ++ sec].
  Lemma doman_stays l : (forall sec, clear f0 root (man_place sec)) -> (forall g s p sec, In s l -> In p (glob cwd expand g s) -> section_of p = Some sec -> free_of "/" sec) -> stays (doman cwd root ignore expand runs l).
  Proof.
    intros C F. unfold doman. assert (Mm : means "usr/share/man" ["usr"; "share"; "man"]) by (apply (means_b "" ["usr"; "share"; "man"]); [reflexivity|now left]).
    rewrite (join_root root f0 "usr/share/man" ["usr"; "share"; "man"] S0 Mm).
    set (T := fun ns => ns = ["usr"; "share"; "man"] \/ exists sec, ns = man_place sec). apply (keeps_stays T _ (fun _ _ => True)).
    { intros ns [->|[sec ->]]; [|apply C]. apply (clear_prefix root f0 _ ["man"]). exact (C ""). }
    apply keeps_then_top; [apply makedirs_inv; [exact S0|exact (proj1 Mm)|now left]|]. intros _. apply keeps_each_top. intros s Is. apply keeps_read. intros g _ _. apply keeps_each_top. intros p Ip.
    destruct (section_of p) as [sec|] eqn:E; [|destruct ignore; apply keeps_raise]. assert (Ns : name ("man" ++ sec)).
    { split; [discriminate|]. split; [discriminate|]. split; [discriminate|]. intros K. change (list_ascii_of_string ("man" ++ sec)) with ("m" :: "a" :: "n" :: list_ascii_of_string sec)%char in K. repeat (destruct K as [K|K]; [discriminate K|]). exact (F g s p sec Is Ip E K). }
    assert (Mx : means ("/man" ++ sec) ["man" ++ sec]). { split; [now intros n [<-|[]]|]. exists "/". split; [now intros c [<-|[]]|reflexivity]. }
    rewrite (join_more ["usr"; "share"; "man"] _ _ (proj1 Mm) Mx) by discriminate. change (app ["usr"; "share"; "man"] ["man" ++ sec]) with (man_place sec).
    assert (Hn : forall n, In n (man_place sec) -> name n) by (apply (proj2 (names_app ["usr"; "share"; "man"] ["man" ++ sec])); split; [exact (proj1 Mm)|exact (proj1 Mx)]).
    apply keeps_then_top; [apply makedirs_inv; [exact S0|exact Hn|right; now exists sec]|]. intros _. apply install_inv; [exact S0|exact Hn|right; now exists sec].
  Qed.
  Lemma dosym_stays t x a n : means x (a ++ [n]) -> clear f0 root a -> stays (dosym cwd root ignore t x).
  Proof.
    intros M C. unfold dosym. pose proof (means_dirname x a n M) as Md. rewrite (join_root root f0 _ a S0 Md), (join_root root f0 x _ S0 M). apply (keeps_stays (eq a) _ (fun _ _ => True)); [now intros ? <-|].
    apply keeps_then_top; [apply makedirs_inv; [exact S0|exact (proj1 Md)|reflexivity]|]. intros _. apply or_error_top. apply symlink_inv; [exact S0|exact (proj1 M)|destruct a; discriminate| |].
    - intros g I. apply clear_to_snoc. now apply I.
    - intros ms <-. split; [exact (proj1 Md)|]. intros b E. apply (f_equal (@List.length string)) in E. rewrite !app_length in E. cbn in E. lia.
  Qed.
  Lemma os_rename_states g a b : stands g root -> (forall n, In n a -> name n) -> a <> [] -> (forall n, In n b -> name n) -> b <> [] -> clear_to g root a -> clear_to g root b ->
    forall x, In x (states (os_rename cwd (place a) (place b)) g) -> x = g \/ x = moved g (below root a) (below root b).
  Proof.
    intros Sg Ha Na Hb Nb Ca Cb x. unfold states, os_rename. rewrite ask_eq. destruct (locate cwd false g (place a)) as [qa|] eqn:La; [|now intros [<-|[]]; left]. destruct (locate cwd false g (place b)) as [qb|] eqn:Lb; [|now intros [<-|[]]; left].
    apply locate_place in La as [-> _]; [|exact Sg|exact Ha|exact Ca]. apply locate_place in Lb as [-> _]; [|exact Sg|exact Hb|exact Cb].
    destruct (String.eqb _ _); [destruct (node_at g _); now intros [<-|[]]; left|]. destruct (_ || _); [now intros [<-|[]]; left|].
    destruct (node_at g (below root a)) as [[]|], (node_at g (below root b)) as [[]|]; try destruct (_ || _); try destruct (under _ _); cbn; intros [<-|[<-|[]]] || intros [<-|[]]; auto.
  Qed.
  Lemma moved_same g a b : beneath root a -> beneath root b -> same_but (beneath root) g (moved g a b).
  Proof.
    intros A B q O. rewrite moved_else; [destruct (under a q) eqn:U; [elim O; now apply (beneath_under root a)|reflexivity]|]. destruct (under b q) eqn:U; [elim O; now apply (beneath_under root b)|reflexivity].
  Qed.
  Lemma rename_stays s nm a n : means s (a ++ [n]) -> name nm -> clear f0 root a -> stays (rename cwd root ignore s nm).
  Proof.
    intros M N C. unfold rename, join_path. cbn [fold_left]. pose proof (means_dirname s a n M) as Md. rewrite (join_root root f0 _ a S0 Md), (join_root root f0 s _ S0 M). rewrite (join_more a nm [nm] (proj1 Md) (name_means nm N)) by discriminate.
    assert (K : keeps (same_but (beneath root) f0) (fun g => g = f0) (or_error ignore (os_rename cwd (place (a ++ [n])) (place (a ++ [nm])))) (fun _ _ => True)).
    { apply or_error_top. intros g _ ->. split; [|auto]. intros x X. apply os_rename_states in X as [->| ->]; [apply same_but_refl| |exact S0|exact (proj1 M)|destruct a; discriminate| |destruct a; discriminate|now apply clear_to_snoc|now apply clear_to_snoc].
      - apply moved_same; (apply below_beneath; [exact R1|exact R2|destruct a; discriminate]).
      - apply names_app. split; [exact (proj1 Md)|now intros m [<-|[]]]. }
    intros g G. destruct (K f0 (same_but_refl _ _) eq_refl) as [A _]. now apply A.
  Qed.
  (** What the pattern matches is in the install directory, not through a link. *)
  Lemma remove_stays s : (forall p, In p (glob cwd expand f0 (join_path2 root s)) -> found root f0 p) -> stays (remove cwd root expand s).
  Proof.
    intros F. unfold remove. intros x X. unfold states in X. rewrite ask_eq in X. revert x X. apply (keeps_stays (clear f0 root) _ (fun _ _ => True)); [auto|]. apply keeps_each_top. intros p Ip.
    destruct (F p Ip) as (a & n & Hn & -> & C). rewrite <- place_ne by (destruct a; discriminate). apply unlink_inv; [exact S0|exact Hn|destruct a; discriminate|]. intros g I. apply clear_to_snoc. now apply I.
  Qed.
  Lemma removeDir_stays s : (forall p, In p (glob cwd expand f0 (join_path2 root s)) -> found root f0 p) -> stays (removeDir cwd root ignore expand s).
  Proof.
    intros F. unfold removeDir. intros x X. unfold states in X. rewrite ask_eq in X. revert x X. apply (keeps_stays (clear f0 root) _ (fun _ _ => True)); [auto|]. apply keeps_each_top. intros p Ip.
    destruct (F p Ip) as (a & n & Hn & -> & C). rewrite <- place_ne by (destruct a; discriminate). apply unlinkDir_inv; [exact S0|exact Hn|destruct a; discriminate|]. intros g I. apply clear_to_snoc. now apply I.
  Qed.
  (** insinto *)
  Lemma glob_plain g p : has_magic p = false -> glob cwd expand g p = [p] \/ glob cwd expand g p = [].
  Proof. intros H. unfold glob. rewrite H. destruct (e_lexists cwd g p); auto. Qed.
  Lemma keeps_switch (T T' : list string -> Prop) (p : prog fs unit) : (forall ns, T' ns -> T ns) -> keeps (inv T') (fun g => inv T g /\ True) p (fun _ _ => True) -> keeps (inv (fun _ => False)) (inv T) p (fun _ => inv T').
  Proof.
    intros W K g _ I. destruct (K g) as [A _]; [now apply (inv_weaken root f0 T)|now split|]. split; [intros x X; apply (inv_weaken root f0 T'); [now intros ns []|now apply A]|]. intros [] _. apply A, final_state.
  Qed.
  Definition chains (ds : list string) (l : list string) (ns : list string) : Prop := exists p k, In p l /\ ns = (ds ++ repeat (basename p) k)%list.
  Lemma insinto_loop ds l d (Md : means d ds) : (forall p, In p l -> name (basename p) /\ has_magic p = false) -> List.NoDup (map basename l) ->
    keeps (inv (fun _ => False)) (inv (chains ds l))
      (each (fun p => f <~ ask (fun f => f) ;; if e_exists cwd f p then copy cwd ignore expand p (join_path2 root (join_path2 d (basename p))) else ret tt) l) (fun _ _ => True).
  Proof.
    induction l as [|p l IH]; intros H D; [apply keeps_ret_top|]. cbn [each]. assert (W : forall ns, chains ds l ns -> chains ds (p :: l) ns) by (intros ns (x & k & I & ->); exists x, k; split; [now right|reflexivity]).
    inversion D as [|? ? D1 D2]; subst. destruct (H p (or_introl eq_refl)) as [Np Mp]. pose proof (name_means _ Np) as Mb.
    apply (keeps_then _ _ _ (fun _ => inv (chains ds l))); [|intros []; apply IH; [intros x I; apply H; now right|exact D2]]. apply keeps_switch; [exact W|]. apply keeps_read. intros g Ig [I _].
    destruct (e_exists cwd g p); [|apply keeps_ret_top]. rewrite (join_root root f0 _ (ds ++ [basename p]) S0) by (apply means_join; [exact Md|exact Mb|discriminate]).
    unfold copy. apply keeps_read. intros g' _ ->. assert (K : keeps (inv (chains ds l)) (fun s => s = g) (copy_one cwd ignore p (place (ds ++ [basename p]))) (fun _ _ => True)).
    { eapply keeps_weaken; [apply (copy_one_inv (chains ds (p :: l)) (chains ds l) W p (basename p) (ds ++ [basename p])) with (P := fun _ => True)|intros s _ ->; now split|auto].
      - reflexivity.
      - exact Np.
      - apply names_app. split; [exact (proj1 Md)|exact (proj1 Mb)].
      - destruct ds; discriminate.
      - intros k. exists p, (S k). split; [now left|]. now rewrite <- app_assoc.
      - intros ms (x & k & Ix & ->). split.
        + apply names_app. split; [exact (proj1 Md)|]. intros n In'. apply repeat_spec in In' as ->. apply H. now right.
        + intros b E. rewrite <- app_assoc in E. apply app_inv_head in E. destruct k as [|k]; [discriminate E|]. injection E as E _. apply D1. rewrite <- E. now apply in_map. }
    destruct (glob_plain g p Mp) as [->| ->]; cbn [each]; [|apply keeps_ret_top]. eapply keeps_then; [exact K|]. intros u. apply keeps_ret_top.
  Qed.
  Lemma insinto_stays d ds s : means d ds -> (forall g, (forall p, In p (glob cwd expand g s) -> name (basename p) /\ has_magic p = false) /\ List.NoDup (map basename (glob cwd expand g s))) ->
    clear f0 root ds -> (forall g p k, In p (glob cwd expand g s) -> clear f0 root (ds ++ repeat (basename p) k)) -> stays (insinto cwd root ignore expand d s "").
  Proof.
    intros M G C Ch. unfold insinto. cbn [String.eqb]. rewrite (join_root root f0 d ds S0 M). set (q := each _).
    assert (K : keeps (inv (fun _ => False)) (inv (clear f0 root)) (_ <~ makedirs cwd ignore (place ds);; f <~ ask (λ f : fs, f);; each (fun p => f <~ ask (fun f => f) ;; if e_exists cwd f p then copy cwd ignore expand p (join_path2 root (join_path2 d (basename p))) else ret tt) (glob cwd expand f s)) (fun _ _ => True)).
    { eapply keeps_then; [apply (keeps_switch (clear f0 root) (clear f0 root)); [auto|]; apply (keeps_weaken _ _ (fun _ => True) _ _ (fun _ _ => True)); [now apply makedirs_inv; [|apply (proj1 M)|]|auto|auto]|].
      intros u. apply keeps_read. intros g _ Ig. destruct (G g) as [G1 G2]. eapply keeps_weaken; [apply (insinto_loop ds (glob cwd expand g s) d M G1 G2)| |auto].
      intros h _ ->. apply (inv_weaken root f0 (clear f0 root)); [|exact Ig]. intros ns (p & k & Ip & ->). now apply (Ch g). }
    intros x X. destruct (K f0) as [A _]; [now apply inv_self|now apply inv_self|]. now apply A.
  Qed.
  Lemma insinto_named_stays d ds s nm ms : means d ds -> means nm ms -> ms <> [] -> (forall g, List.length (glob cwd expand g s) <= 1) -> (forall g p, In p (glob cwd expand g s) -> name (basename p)) ->
    clear f0 root ds -> (forall g p k, In p (glob cwd expand g s) -> clear f0 root ((ds ++ ms) ++ repeat (basename p) k)) -> stays (insinto cwd root ignore expand d s nm).
  Proof.
    intros M Mn N L G C Ch. unfold insinto. rewrite (join_root root f0 d ds S0 M). destruct (String.eqb_spec nm "") as [->|_].
    { exfalso. destruct Mn as (Hm & s' & _ & E). destruct s'; [|discriminate E]. destruct ms as [|m ms]; [congruence|]. destruct (Hm m (or_introl eq_refl)) as (Nm & _). destruct m; [congruence|]. destruct ms; discriminate E. }
    rewrite (join_root root f0 _ (ds ++ ms) S0) by (now apply means_join).
    assert (K : keeps (inv (fun _ => False)) (inv (clear f0 root)) (_ <~ makedirs cwd ignore (place ds);; copy cwd ignore expand s (place (ds ++ ms))) (fun _ _ => True)).
    { eapply keeps_then; [apply (keeps_switch (clear f0 root) (clear f0 root)); [auto|]; apply (keeps_weaken _ _ (fun _ => True) _ _ (fun _ _ => True)); [now apply makedirs_inv; [|apply (proj1 M)|]|auto|auto]|].
      intros u. unfold copy. apply keeps_read. intros g _ Ig. specialize (L g). specialize (G g). specialize (Ch g). destruct (glob cwd expand g s) as [|p [|p' l]]; [apply keeps_ret_top| |cbn in L; lia].
      cbn [each]. apply keeps_then_top; [|intros v; apply keeps_ret_top]. eapply keeps_weaken; [apply (copy_one_inv (clear f0 root) (fun _ => False)) with (P := fun _ => True) (bn := basename p)|intros h _ ->; now split|auto].
      - intros ns [].
      - reflexivity.
      - apply G. now left.
      - apply names_app. split; [exact (proj1 M)|exact (proj1 Mn)].
      - destruct ds; [exact N|discriminate].
      - intros k. apply Ch. now left.
      - intros ns []. }
    intros x X. destruct (K f0) as [A _]; [now apply inv_self|now apply inv_self|]. now apply A.
  Qed.
  (** domove, without links in the install directory *)
  Definition linv (g : fs) : Prop := same_but (beneath root) f0 g /\ linkless g root.
  Lemma linv_clear g ns : linv g -> clear g root ns.
  Proof. intros [_ L] a b _ N. apply L. now apply below_beneath. Qed.
  Lemma linv_stands g : linv g -> stands g root. Proof. intros [E _]. exact (stands_same root f0 g E S0). Qed.
  Lemma linv_makedirs ns (P : fs -> Prop) : (forall n, In n ns -> name n) -> keeps linv P (makedirs cwd ignore (place ns)) (fun _ _ => True).
  Proof.
    intros H g Lg _. pose proof (linv_stands g Lg) as Sg. destruct (makedirs_keeps cwd root g Sg ignore ns (fun _ => True) H (linv_clear g ns Lg) g) as [A _]; [apply dinv_refl|exact Logic.I|].
    split; [|auto]. intros x X. apply A in X. destruct Lg as [E L]. split.
    - intros q O. destruct (X q) as [Eq|(_ & _ & a & b & _ & Na & ->)]; [rewrite Eq; now apply E|]. elim O. now apply below_beneath.
    - intros q B t K. destruct (X q) as [Eq|(_ & Eq & _)]; [rewrite Eq in K; now apply (L q B t)|congruence].
  Qed.
  Lemma linv_rename a b (P : fs -> Prop) : (forall n, In n a -> name n) -> a <> [] -> (forall n, In n b -> name n) -> b <> [] -> keeps linv P (os_rename cwd (place a) (place b)) (fun _ _ => True).
  Proof.
    intros Ha Na Hb Nb g Lg _. split; [|auto]. intros x X. apply os_rename_states in X as [->| ->]; [exact Lg| |now apply linv_stands|exact Ha|exact Na|exact Hb|exact Nb|apply clear_clear_to; now apply linv_clear|apply clear_clear_to; now apply linv_clear].
    destruct Lg as [E L]. split.
    - intros q O. rewrite moved_same; [now apply E|now apply below_beneath|now apply below_beneath|exact O].
    - intros q B t. destruct (under (below root b) q) eqn:U.
      + pose proof U as V. apply under_iff in V as (r & -> & _). rewrite moved_there by exact U. apply L, beneath_app. now apply below_beneath.
      + rewrite moved_else by exact U. destruct (under (below root a) q); [discriminate|]. now apply L.
  Qed.
  Definition sound_match (p : string) : Prop := has_magic p = false /\ exists a, a <> [] /\ (forall n, In n a -> name n) /\ p = below root a.
  Lemma linv_move p b (P : fs -> Prop) : sound_match p -> (forall n, In n b -> name n) -> b <> [] -> keeps linv P (move cwd ignore expand p (place b)) (fun _ _ => True).
  Proof.
    intros (Mp & a & Na & Ha & ->) Hb Nb. unfold move. apply keeps_read. intros g _ _. assert (K : keeps linv (fun _ => True) (f <~ ask (fun f => f) ;; if e_isfile cwd f (below root a) || e_islink cwd f (below root a) || e_isdir cwd f (below root a) then or_error ignore (shutil_move cwd (below root a) (place b)) else error ignore) (fun _ _ => True)).
    { apply keeps_read. intros h _ _. destruct (_ || _); [|apply error_top]. apply or_error_top. unfold shutil_move. apply keeps_read. intros h' _ _. rewrite <- (place_ne a Na). destruct (e_isdir cwd h' (place b)); [|now apply linv_rename].
      destruct (bool_decide _); [now apply linv_rename|]. destruct (e_exists cwd h' _); [apply keeps_raise|]. destruct a as [|n a _] using rev_ind; [congruence|].
      destruct (below_parts root f0 S0 a n Ha) as (_ & Bn & Nn & _). rewrite (place_ne (a ++ [n])) by exact Na. rewrite rstrip_none by (apply basename_ends; now rewrite Bn). rewrite Bn.
      assert (Nm : name n) by (apply Ha; rewrite in_app_iff; right; now left). rewrite (place_ne b Nb). assert (Eb : py_endswith (below root b) "/" = false).
      { destruct (py_endswith (below root b) "/") eqn:X; [|reflexivity]. apply endswith_iff in X. rewrite below_text in X by assumption. rewrite <- str_app_assoc in X. exfalso. now apply (concat_ends b Nb Hb) in X. }
      rewrite Eb, <- place_ne by exact Na. replace ((below root b ++ "/") ++ n) with (place (b ++ [n])).
      - apply linv_rename; [exact Ha|exact Na| |destruct b; discriminate]. apply names_app. split; [exact Hb|now intros m [<-|[]]].
      - rewrite place_ne by (destruct b; discriminate). rewrite below_snoc. unfold child. destruct (String.eqb_spec (below root b) "/") as [X|_]; [|now rewrite str_app_assoc].
        exfalso. pose proof (below_length root b R1 R2) as L. rewrite X in L. cbn in L. destruct b; [congruence|]. cbn in L. pose proof R2. destruct root; [congruence|]. cbn in L. lia. }
    destruct (glob_plain g (below root a) Mp) as [->| ->]; cbn [each]; [|apply keeps_ret_top]. apply keeps_then_top; [apply (keeps_weaken _ _ (fun _ => True) _ _ (fun _ _ => True)); [exact K|auto|auto]|]. intros u. apply keeps_ret_top.
  Qed.
  Lemma domove_stays s d ds nm : means d ds -> (nm = "" \/ exists ms, ms <> [] /\ means nm ms) -> linkless f0 root -> (forall g p, In p (glob cwd expand g (join_path2 root s)) -> sound_match p) -> stays (domove cwd root ignore expand s d nm).
  Proof.
    intros M Mn L F. unfold domove. rewrite (join_root root f0 d ds S0 M).
    assert (K : keeps linv (fun _ => True) (_ <~ makedirs cwd ignore (place ds) ;; f <~ ask (fun f => f) ;; each (fun p => move cwd ignore expand p (join_path2 root (join_path2 d (if String.eqb nm "" then basename p else nm)))) (glob cwd expand f (join_path2 root s))) (fun _ _ => True)).
    { apply keeps_then_top; [apply linv_makedirs; exact (proj1 M)|]. intros _. apply keeps_read. intros g _ _. apply keeps_each_top. intros p Ip. pose proof (F g p Ip) as Fp.
      assert (exists ms, ms <> [] /\ means (if String.eqb nm "" then basename p else nm) ms) as (ms & Nms & Mm).
      { destruct Mn as [->|(ms & N1 & M1)].
        - cbn [String.eqb]. destruct Fp as (_ & a & Na & Ha & ->). destruct a as [|n a _] using rev_ind; [congruence|]. destruct (below_parts root f0 S0 a n Ha) as (_ & -> & _). exists [n]. split; [discriminate|]. apply name_means, Ha. rewrite in_app_iff. right. now left.
        - exists ms. split; [exact N1|]. destruct (String.eqb_spec nm "") as [->|_]; [|exact M1]. exfalso. destruct M1 as (Hm & s' & _ & E). destruct s'; [|discriminate E]. destruct ms as [|m ms]; [congruence|]. destruct (Hm m (or_introl eq_refl)) as (Nm & _). destruct m; [congruence|]. destruct ms; discriminate E. }
      rewrite (join_root root f0 _ (ds ++ ms) S0) by now apply means_join. apply linv_move; [exact Fp|apply names_app; split; [exact (proj1 M)|exact (proj1 Mm)]|]. destruct ds; [exact Nms|discriminate]. }
    intros x X. destruct (K f0) as [A _]; [now split|exact Logic.I|]. now apply A.
  Qed.
End top.
