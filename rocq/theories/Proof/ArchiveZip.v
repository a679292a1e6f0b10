(** * Zip archives: packing, and unpacking what was packed *)
From Coq Require Import String Ascii ZArith NArith List Bool Lia.
From stdpp Require Import gmap strings.
From Verif Require Import Model.Py Model.InstallDB Model.Path Model.Fs Model.Trace Model.Actions Model.Index Model.Archive Spec.PathSpec Spec.FsSpec Spec.ActionsSpec Spec.ArchiveSpec.
From Verif Require Import Proof.PyFacts Proof.InstallDBFacts Proof.PathFacts Proof.FsFacts Proof.TraceFacts Proof.ActionsPaths Proof.ActionsFacts Proof.ActionsTop Proof.ActionsExact Proof.ActionsMove Proof.ArchiveFacts Proof.ArchiveTree Proof.ArchiveTrip.
Import ListNotations.
Open Scope string_scope.
Open Scope prog_scope.

(** ** Paths as texts *)
Lemma split_names ns : ns <> [] -> (forall n, In n ns -> name n) -> py_split "/" (String.concat "/" ns) = ns.
Proof.
  intros N H. pose proof (split_below ns N H) as E. rewrite below_text_root in E by assumption. change ("/" ++ String.concat "/" ns) with (String "/" (String.concat "/" ns)) in E. cbn [py_split] in E. now injection E.
Qed.
Lemma concat_ne ns : ns <> [] -> (forall n, In n ns -> name n) -> String.concat "/" ns <> "".
Proof. intros N H E. pose proof (split_names ns N H) as K. rewrite E in K. cbn in K. subst ns. destruct (H "" (or_introl eq_refl)) as [X _]. congruence. Qed.
Lemma concat_relative ns : (forall n, In n ns -> name n) -> py_startswith (String.concat "/" ns) "/" = false.
Proof. intros H. apply not_true_iff_false. intros E. apply startswith_iff in E as [r E]. exact (concat_no_slash ns H r E). Qed.
Lemma concat_endswith ns : ns <> [] -> (forall n, In n ns -> name n) -> py_endswith (String.concat "/" ns) "/" = false.
Proof. intros N H. apply not_true_iff_false. intros E. apply endswith_iff in E. exact (concat_ends ns N H "" E). Qed.
Lemma concat_inj a b : a <> [] -> b <> [] -> (forall n, In n a -> name n) -> (forall n, In n b -> name n) -> String.concat "/" a = String.concat "/" b -> a = b.
Proof. intros Na Nb Ha Hb E. rewrite <- (split_names a Na Ha), <- (split_names b Nb Hb). now rewrite E. Qed.
Lemma join_concat ns x : ns <> [] -> (forall n, In n ns -> name n) -> name x -> os_join (String.concat "/" ns) x = String.concat "/" (ns ++ [x]).
Proof.
  intros N H X. unfold os_join. pose proof (concat_relative [x]) as R. cbn [String.concat] in R. rewrite R by (intros n [<-|[]]; exact X). rewrite (proj2 (String.eqb_neq _ _) (concat_ne ns N H)), concat_endswith by assumption. cbn [orb]. now rewrite concat_snoc.
Qed.
Lemma zip_name_concat ns : ns <> [] -> (forall n, In n ns -> name n) -> zip_name (String.concat "/" ns) = Ok (String.concat "/" ns).
Proof.
  intros N H. unfold zip_name. rewrite concat_relative, split_names by assumption.
  assert (K : forall l acc, (forall n, In n l -> name n) -> fold_left (norm_step false) l acc = (acc ++ l)%list).
  { induction l as [|n l IH]; intros acc Hl; [now rewrite app_nil_r|]. cbn [fold_left]. destruct (Hl n (or_introl eq_refl)) as (N1 & N2 & N3 & _). unfold norm_step at 2. apply String.eqb_neq in N1, N2, N3. rewrite N1, N2, N3. cbn [orb negb]. rewrite IH by (intros m I; apply Hl; now right). now rewrite <- app_assoc. }
  rewrite K by exact H. cbn [app]. change (py_join "/" ns) with (String.concat "/" ns). now rewrite (proj2 (String.eqb_neq _ _) (concat_ne ns N H)).
Qed.
Lemma splitpath_concat ns : ns <> [] -> (forall n, In n ns -> name n) -> splitpath (String.concat "/" ns) = ns /\ splitpath (String.concat "/" ns ++ "/") = ns.
Proof.
  intros N H. split; [rewrite splitpath_plain|rewrite splitpath_slash]; try now apply split_names.
  - now apply concat_ne.
  - exact (concat_ends ns N H "").
Qed.
Lemma subpath_concat a b t : a <> [] -> b <> [] -> (forall n, In n a -> name n) -> (forall n, In n b -> name n) -> t = String.concat "/" b \/ t = String.concat "/" b ++ "/" ->
  subpath (String.concat "/" a) t = true <-> exists k, b = (a ++ k)%list.
Proof.
  intros Na Nb Ha Hb T. unfold subpath. destruct (splitpath_concat a Na Ha) as [-> _]. destruct (splitpath_concat b Nb Hb) as [Eb1 Eb2]. replace (splitpath t) with b by (destruct T as [->| ->]; congruence). apply prefix_iff, String.eqb_eq.
Qed.
Lemma removepathprefix_concat a k t : a <> [] -> (forall n, In n a -> name n) -> (forall n, In n k -> name n) -> t = String.concat "/" (a ++ k) \/ t = String.concat "/" (a ++ k) ++ "/" ->
  removepathprefix (String.concat "/" a) t = Ok (String.concat "/" k).
Proof.
  intros Na Ha Hk T. unfold removepathprefix. destruct (splitpath_concat a Na Ha) as [-> _]. assert (Nb : (a ++ k)%list <> []) by (destruct a; [congruence|discriminate]). assert (Hb : forall n, In n (a ++ k) -> name n) by (apply names_app; now split).
  destruct (splitpath_concat (a ++ k) Nb Hb) as [Eb1 Eb2]. replace (splitpath t) with (a ++ k)%list by (destruct T as [->| ->]; congruence).
  rewrite (proj2 (remove_prefix_iff _ String.eqb_eq a (a ++ k) k) eq_refl). cbn [bind]. destruct k as [|c k]; [reflexivity|]. f_equal. rewrite join_path_comps.
  - reflexivity.
  - now destruct (Hk c (or_introl eq_refl)).
  - intros [r ->]. destruct (Hk (r ++ "/") (or_introl eq_refl)) as (_ & _ & _ & F). apply F. clear. induction r as [|c r IH]; [now left|right; exact IH].
  - apply List.Forall_forall. intros n I. destruct (Hk n (or_intror I)) as (? & _ & _ & ?). now split.
Qed.

(** ** Permission bits *)
Lemma bits_const (c : N) (F : N -> bool) : (forall i, (16 <= i)%N -> F i = false) -> (c < 65536)%N -> forallb (fun i => Bool.eqb (N.testbit c i) (F i)) (map N.of_nat (seq 0 16)) = true -> forall i, N.testbit c i = F i.
Proof.
  intros Hi Lt B i. destruct (N.lt_ge_cases i 16) as [L|L].
  - rewrite forallb_forall in B. apply Bool.eqb_prop, B. rewrite <- (N2Nat.id i). apply in_map. apply in_seq. lia.
  - rewrite Hi by exact L. destruct (N.eq_dec c 0) as [->|Nc]; [apply N.bits_0|]. apply N.bits_above_log2. apply N.log2_lt_pow2; [lia|]. apply N.lt_le_trans with 65536%N; [exact Lt|]. change 65536%N with (2 ^ 16)%N. now apply N.pow_le_mono_r.
Qed.
Lemma bit_100 i : N.testbit 0x100 i = N.eqb i 8.
Proof. revert i. apply bits_const; [|lia|reflexivity]. intros i L. apply N.eqb_neq. lia. Qed.
Lemma bit_8FF i : N.testbit 0x8FF i = (N.ltb i 8 || N.eqb i 11).
Proof. revert i. apply bits_const; [|lia|reflexivity]. intros i L. apply orb_false_iff. split; [apply N.ltb_ge|apply N.eqb_neq]; lia. Qed.
Lemma bit_FFF i : N.testbit 0xFFF i = N.ltb i 12.
Proof. revert i. apply bits_const; [|lia|reflexivity]. intros i L. apply N.ltb_ge. lia. Qed.
Lemma bit_8000 i : N.testbit 0x8000 i = N.eqb i 15.
Proof. revert i. apply bits_const; [|lia|reflexivity]. intros i L. apply N.eqb_neq. lia. Qed.
Lemma bit_FFFF i : N.testbit 0xFFFF i = N.ltb i 16.
Proof. revert i. apply bits_const; [|lia|reflexivity]. intros i L. apply N.ltb_ge. lia. Qed.

Definition zdir (ns : list string) (m : N) : member := mkMember (String.concat "/" ns ++ "/") (N.shiftl (N.land m 0xFFF) 16) "".
Definition zfile (ns : list string) (m : N) (c : string) : member := mkMember (String.concat "/" ns) (N.shiftl (N.lor 0x8000 (N.land m 0xFFF)) 16) c.
Definition zlink (ns : list string) (t : string) : member := mkMember (String.concat "/" ns) symmagic t.

Lemma zip_file_mode ns m c : zip_file_keeps m (zip_mode (zfile ns m c)).
Proof.
  intros i. unfold zip_mode, zfile. cbn [m_attr]. change 0x08FF0000%N with (N.shiftl 0x8FF 16). rewrite N.lor_spec, N.shiftr_spec', N.land_spec, !N.shiftl_spec_high' by lia. replace (i + 16 - 16)%N with i by lia. rewrite N.lor_spec, N.land_spec, bit_100, bit_8FF, bit_FFF, bit_8000. unfold owner_reads, setuid.
  destruct (N.eqb_spec i 8); destruct (N.ltb_spec i 8); destruct (N.eqb_spec i 11); destruct (N.ltb_spec i 12); destruct (N.eqb_spec i 15); destruct (N.testbit m i); try reflexivity; lia.
Qed.
Lemma zip_directory_mode ns m : zip_dir_keeps m (zip_dir_mode (zdir ns m)).
Proof.
  intros i. unfold zip_dir_mode, zdir. cbn [m_attr]. change 0xFFFF0000%N with (N.shiftl 0xFFFF 16). rewrite N.lor_spec, N.shiftr_spec', N.land_spec, !N.shiftl_spec_high' by lia. replace (i + 16 - 16)%N with i by lia. rewrite N.land_spec, bit_100, bit_FFFF, bit_FFF. unfold owner_reads.
  destruct (N.eqb_spec i 8); destruct (N.ltb_spec i 12); destruct (N.ltb_spec i 16); destruct (N.testbit m i); try reflexivity; lia.
Qed.
Lemma file_not_link ns m c : m_attr (zfile ns m c) <> symmagic.
Proof.
  unfold zfile, symmagic. cbn [m_attr]. intros E. apply (f_equal (fun x => N.testbit x (13 + 16))) in E. rewrite N.shiftl_spec_high' in E by lia. replace (13 + 16 - 16)%N with 13%N in E by lia. rewrite N.lor_spec, N.land_spec, bit_FFF, bit_8000 in E. cbn in E. rewrite andb_false_r in E. discriminate E.
Qed.

(** ** Packing *)
Section pack.
  Context (d : disk) (C : string) (SC : stands (nodes d) C) (Rd : real (nodes d)) (order : string -> list string -> list string) (Or : any_listing order).
  Strategy 100 [locate] 1000 [walk].
  Lemma real_dirs ns : ns <> [] -> (forall n, In n ns -> name n) -> nodes d !! below C ns <> None -> dirs_to C (nodes d) ns.
  Proof.
    intros N H E. destruct (real_below d C SC Rd (below C ns) E []) as (ks & Nk & Hk & Ek & Dk); [intros n []|cbn [below]; apply below_beneath; [apply (C1 d C SC)|apply (C2 d C SC)|exact N]|]. cbn [app] in *.
    apply below_inj in Ek; [now subst ks|apply (C1 d C SC)|apply (C2 d C SC)|exact H|exact Hk].
  Qed.
  Lemma locate_rel fl ns : ns <> [] -> (forall n, In n ns -> name n) -> nodes d !! below C ns <> None -> (fl = true -> no_link (nodes d) (below C ns)) -> locate C fl (nodes d) (String.concat "/" ns) = Some (below C ns).
  Proof.
    intros N H E L. rewrite locate_relative, split_names by first [assumption|now apply concat_ne|now apply concat_relative]. pose proof (real_dirs ns N H E) as D. apply walk_reach; [exact H| |].
    - intros a b Ea Na Nb. rewrite node_at_below by first [apply (C1 d C SC)|apply (C2 d C SC)]. now apply (D a b).
    - intros F t. rewrite node_at_below by first [apply (C1 d C SC)|apply (C2 d C SC)]. now apply L.
  Qed.

  Lemma listed ns : (forall n, In n ns -> name n) -> List.NoDup (order (below C ns) (map basename (children (nodes d) (below C ns)))) /\
    forall x, In x (order (below C ns) (map basename (children (nodes d) (below C ns)))) <-> name x /\ nodes d !! below C (ns ++ [x]) <> None.
  Proof.
    intros H. pose proof (Or (below C ns) (map basename (children (nodes d) (below C ns)))) as P. split.
    - apply (Permutation_NoDup (Permutation_sym P)). now apply child_names_once.
    - intros x. rewrite <- (child_names d C SC Rd ns x H). split; apply Permutation_in; [exact P|now apply Permutation_sym].
  Qed.
  Lemma node_rel ns : node_at (nodes d) (below C ns) = match ns with [] => node_at (nodes d) C | _ => nodes d !! below C ns end.
  Proof. destruct ns as [|n ns]; [reflexivity|]. apply node_at_below; first [apply (C1 d C SC)|apply (C2 d C SC)]. Qed.
  Lemma add_eq n ns : ns <> [] -> (forall x, In x ns -> name x) -> nodes d !! below C ns <> None ->
    add_to_archive C order (S n) d (String.concat "/" ns) "" =
      match nodes d !! below C ns with
      | Some NDir => ms <- mapM (fun x => add_to_archive C order n d (String.concat "/" (ns ++ [x])) "") (order (below C ns) (map basename (children (nodes d) (below C ns)))) ;;
                     Ok (zdir ns (mode_of d (below C ns)) :: concat ms)
      | Some (NLink t) => Ok [zlink ns t]
      | Some (NFile c) => Ok [zfile ns (mode_of d (below C ns)) c]
      | _ => Err EOS
      end.
  Proof.
    intros N H E. cbn [add_to_archive]. unfold e_isdir, e_islink, os_stat, os_lstat. pose proof (locate_rel false ns N H E (fun F => False_ind _ (diff_false_true F))) as L0. rewrite L0.
    assert (X : node_at (nodes d) (below C ns) = nodes d !! below C ns) by (apply node_at_below; first [apply (C1 d C SC)|apply (C2 d C SC)]). rewrite X.
    destruct (nodes d !! below C ns) as [[c| |t|]|] eqn:Y; [| | | |congruence].
    - rewrite locate_rel; [|assumption|assumption|rewrite Y; discriminate|intros _ t; rewrite Y; discriminate]. rewrite X; change (String.eqb "" "") with true; cbv iota; rewrite zip_name_concat by assumption. reflexivity.
    - rewrite locate_rel; [|assumption|assumption|rewrite Y; discriminate|intros _ t; rewrite Y; discriminate]. rewrite X. cbn [andb negb]. 
      destruct (listed ns H) as [_ Li]. revert Li. generalize (order (below C ns) (map basename (children (nodes d) (below C ns)))). intros l Li.
      assert (K : Py.mapM (fun x => add_to_archive C order n d (os_join (String.concat "/" ns) x) "") l = Py.mapM (fun x => add_to_archive C order n d (String.concat "/" (ns ++ [x])) "") l).
      { assert (Hl : forall x, In x l -> name x) by (intros x I; now apply Li in I). clear Li. induction l as [|x l IH]; [reflexivity|]. cbn [Py.mapM]. rewrite join_concat by (try assumption; apply Hl; now left). rewrite IH by (intros y I; apply Hl; now right). reflexivity. }
      rewrite K. reflexivity.
    - rewrite andb_false_r. reflexivity.
    - rewrite locate_rel; [|assumption|assumption|rewrite Y; discriminate|intros _ t; rewrite Y; discriminate]. rewrite X. reflexivity.
  Qed.
  Lemma pack_packed n : forall ns A, ns <> [] -> (forall x, In x ns -> name x) -> nodes d !! below C ns <> None -> add_to_archive C order n d (String.concat "/" ns) "" = Ok A -> packed zdir zfile zlink d C n ns A.
  Proof.
    induction n as [|n IH]; intros ns A N H E P; [discriminate P|]. rewrite add_eq in P by assumption. cbn [packed]. destruct (nodes d !! below C ns) as [[c| |t|]|]; try discriminate P; try (injection P as <-; reflexivity).
    destruct (listed ns H) as [Nd Li]. revert P Nd Li. generalize (order (below C ns) (map basename (children (nodes d) (below C ns)))). intros l P Nd Li.
    destruct (Py.mapM _ l) as [As|] eqn:Q; [|discriminate P]. injection P as <-. apply mapM_ok in Q. exists l, As. split; [exact Nd|]. split; [exact Li|]. split; [|reflexivity].
    assert (Hl : forall x, In x l -> name x /\ nodes d !! below C (ns ++ [x]) <> None) by (intros x; apply Li). clear Li Nd. induction Q as [|x A l As Q1 Q2 IQ]; constructor.
    - destruct (Hl x (or_introl eq_refl)) as [Nx Ex]. apply IH; [destruct ns; discriminate|apply names_app; split; [exact H|intros y [<-|[]]; exact Nx]|exact Ex|exact Q1].
    - apply IQ. intros y I. apply Hl. now right.
  Qed.
  Lemma pack_ok n : forall ns, ns <> [] -> (forall x, In x ns -> name x) -> packable d (below C ns) -> (forall q, nodes d !! q <> None -> String.length q < n + String.length (below C ns)) -> exists A, add_to_archive C order n d (String.concat "/" ns) "" = Ok A.
  Proof.
    induction n as [|n IH]; intros ns N H [E P] L; [specialize (L _ E); cbn in L; lia|]. rewrite add_eq by assumption. pose proof (P _ (or_introl eq_refl)) as P0. destruct (nodes d !! below C ns) as [[c| |t|]|] eqn:Y; try congruence; try (eexists; reflexivity).
    destruct (listed ns H) as [_ Li]. revert Li. generalize (order (below C ns) (map basename (children (nodes d) (below C ns)))). intros l Li.
    assert (Hl : forall x, In x l -> name x /\ nodes d !! below C (ns ++ [x]) <> None) by (intros x; apply Li). clear Li.
    assert (K : exists As, Py.mapM (fun x => add_to_archive C order n d (String.concat "/" (ns ++ [x])) "") l = Ok As).
    { induction l as [|x l IHl]; [now exists []|]. destruct (Hl x (or_introl eq_refl)) as [Nx Ex]. assert (Bx : below C (ns ++ [x]) = below C ns ++ "/" ++ x) by (apply below_child; first [apply (C1 d C SC)|apply (C2 d C SC)]).
      destruct (IH (ns ++ [x])%list) as [A QA].
      - destruct ns; discriminate.
      - apply names_app; split; [exact H|intros y [<-|[]]; exact Nx].
      - split; [exact Ex|]. intros q Q. apply P. rewrite Bx in Q. right. now apply (at_or_in_up _ x).
      - intros q Q. specialize (L q Q). rewrite Bx, str_app_length. change (String.length ("/" ++ x)) with (Datatypes.S (String.length x)). lia.
      - destruct IHl as [As QAs]; [intros y I; apply Hl; now right|]. exists (A :: As). cbn [Py.mapM]. rewrite QA, QAs. reflexivity. }
    destruct K as [As ->]. eexists. reflexivity.
  Qed.

  (** The name of a member says what it is. *)
  Definition described (ns : list string) (m : member) : Prop :=
    exists ks, let q := below C (ns ++ ks) in (forall x, In x ks -> name x) /\
      ((nodes d !! q = Some NDir /\ m = zdir (ns ++ ks) (mode_of d q)) \/ (exists c, nodes d !! q = Some (NFile c) /\ m = zfile (ns ++ ks) (mode_of d q) c) \/ exists t, nodes d !! q = Some (NLink t) /\ m = zlink (ns ++ ks) t).
  Lemma packed_described n : forall ns A, packed zdir zfile zlink d C n ns A -> forall m, In m A -> described ns m.
  Proof.
    induction n as [|n IH]; intros ns A P m I; [contradiction|]. cbn [packed] in P. destruct (nodes d !! below C ns) as [[c| |t|]|] eqn:Y; try contradiction.
    - subst A. destruct I as [<-|[]]. exists []. cbn zeta. rewrite app_nil_r. split; [intros x []|]. right; left. now exists c.
    - destruct P as (xs & As & _ & Ch & F & ->). destruct I as [<-|I].
      + exists []. cbn zeta. rewrite app_nil_r. split; [intros x []|]. now left.
      + apply in_concat in I as (B & IB & Im). assert (K : exists x, In x xs /\ packed zdir zfile zlink d C n (ns ++ [x]) B).
        { clear Ch. induction F as [|x A0 l l' F1 F2 IF]; [destruct IB|]. destruct IB as [->|IB]; [exists x; split; [now left|exact F1]|]. destruct (IF IB) as (y & Iy & Py). exists y. split; [now right|exact Py]. }
        destruct K as (x & Ix & Px). destruct (IH _ _ Px m Im) as (ks & Hk & K). apply Ch in Ix as [Nx _]. rewrite <- !app_assoc in K. cbn [app] in K. exists (x :: ks). cbn zeta. split; [intros y [<-|J]; [exact Nx|now apply Hk]|exact K].
    - subst A. destruct I as [<-|[]]. exists []. cbn zeta. rewrite app_nil_r. split; [intros x []|]. right; right. now exists t.
  Qed.
  Context (whole : list member) (Wd : forall m, In m whole -> exists x, name x /\ described [x] m).
  Lemma read_back m : In m whole -> py_endswith (m_name m) "/" = false -> zip_read whole (m_name m) = m_data m.
  Proof.
    intros I E. unfold zip_read. destruct (List.find (fun m' => String.eqb (m_name m') (m_name m)) (rev whole)) as [m'|] eqn:F.
    - apply find_some in F as [I' F]. apply String.eqb_eq in F. apply in_rev in I'. destruct (Wd m I) as (x & Nx & ks & Hk & K). destruct (Wd m' I') as (x' & Nx' & ks' & Hk' & K').
      assert (Hn : forall n, In n ([x] ++ ks) -> name n) by (apply names_app; split; [intros y [<-|[]]; exact Nx|exact Hk]). assert (Hn' : forall n, In n ([x'] ++ ks') -> name n) by (apply names_app; split; [intros y [<-|[]]; exact Nx'|exact Hk']).
      assert (D : forall ns k, m_name (zdir ns k) = String.concat "/" ns ++ "/") by reflexivity.
      destruct K as [[_ ->]|K]; [rewrite D in E; assert (py_endswith (String.concat "/" ([x] ++ ks) ++ "/") "/" = true) by (apply endswith_iff; now eexists); congruence|].
      destruct K' as [[_ ->]|K']; [rewrite D in F; rewrite <- F in E; assert (py_endswith (String.concat "/" ([x'] ++ ks') ++ "/") "/" = true) by (apply endswith_iff; now eexists); congruence|].
      assert (W : m_name m = String.concat "/" ([x] ++ ks) /\ m_name m' = String.concat "/" ([x'] ++ ks')) by (split; [destruct K as [(? & _ & ->)|(? & _ & ->)]|destruct K' as [(? & _ & ->)|(? & _ & ->)]]; reflexivity).
      destruct W as [W W']. rewrite W, W' in F. apply concat_inj in F; try assumption; try discriminate. rewrite F in K'.
      destruct K as [(c & K1 & ->)|(t & K1 & ->)]; destruct K' as [(c' & K1' & ->)|(t' & K1' & ->)]; rewrite K1 in K1'; try discriminate K1'; injection K1' as <-; reflexivity.
    - exfalso. apply in_rev in I. apply (find_none _ _ F m) in I. rewrite String.eqb_refl in I. discriminate I.
  Qed.
End pack.
