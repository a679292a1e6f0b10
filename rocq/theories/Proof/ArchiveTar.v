(** * Tar archives: the round trip *)
From Coq Require Import String Ascii ZArith NArith List Bool Lia.
From stdpp Require Import gmap strings.
From Verif Require Import Model.Py Model.InstallDB Model.Path Model.Fs Model.Trace Model.Actions Model.Index Model.Archive Spec.PathSpec Spec.FsSpec Spec.ActionsSpec Spec.ArchiveSpec.
From Verif Require Import Proof.PyFacts Proof.InstallDBFacts Proof.PathFacts Proof.FsFacts Proof.TraceFacts Proof.ActionsPaths Proof.ActionsFacts Proof.ActionsTop Proof.ActionsExact Proof.ActionsMove Proof.ArchiveFacts Proof.ArchiveTree Proof.ArchiveTrip Proof.ArchiveZip Proof.ArchiveZipTop Proof.ArchiveTop.
Import ListNotations.
Open Scope string_scope.
Open Scope prog_scope.

Definition tdir (ns : list string) (m : N) : tmember := mkTar (String.concat "/" ns) (N.land m 0xFFF) ADir.
Definition tfile (ns : list string) (m : N) (c : string) : tmember := mkTar (String.concat "/" ns) (N.land m 0xFFF) (AFile c).
Definition tlink (ns : list string) (t : string) : tmember := mkTar (String.concat "/" ns) 0x1FF (ALink t).
Lemma tar_mode m : all_bits m (N.land m 0xFFF).
Proof. intros i. now rewrite N.land_spec, bit_FFF. Qed.

Lemma lstrip_names ns : (forall n, In n ns -> name n) -> py_lstrip "/" (String.concat "/" ns) = String.concat "/" ns.
Proof. intros H. change (String.concat "/" ns) with ("" ++ String.concat "/" ns) at 1. apply lstrip_slashes; [intros c []|now apply concat_no_slash]. Qed.
Lemma rstrip_names ns : ns <> [] -> (forall n, In n ns -> name n) -> py_rstrip "/" (String.concat "/" ns) = String.concat "/" ns.
Proof. intros N H. apply rstrip_none. exact (concat_ends ns N H ""). Qed.
Lemma dirname_free n : free_of "/" n -> dirname n = "".
Proof.
  intros F. unfold dirname. assert (E : py_rfind slash n = None) by (apply rfind_none; exact F). now rewrite E.
Qed.
Lemma dirname_names a n : (forall x, In x (a ++ [n]) -> name x) -> dirname (String.concat "/" (a ++ [n])) = String.concat "/" a.
Proof.
  intros H. apply names_app in H as [Ha Hn]. assert (Nn : free_of "/" n) by (apply Hn; now left). destruct (nil_or_not a) as [->|Na].
  - cbn [app String.concat]. now apply dirname_free.
  - rewrite concat_snoc by exact Na. apply dirname_under; [now apply concat_ne|exact (concat_ends a Na Ha "")|exact Nn].
Qed.

Section tarpack.
  Context (d : disk) (C : string) (SC : stands (nodes d) C) (Rd : real (nodes d)) (order : string -> list string -> list string) (Or : any_listing order).
  Strategy 100 [locate] 1000 [walk].
  Lemma tar_eq n ns : ns <> [] -> (forall x, In x ns -> name x) -> nodes d !! below C ns <> None ->
    tar_add C order (S n) d (String.concat "/" ns) (String.concat "/" ns) =
      match nodes d !! below C ns with
      | Some NDir => ms <- mapM (fun x => tar_add C order n d (String.concat "/" (ns ++ [x])) (String.concat "/" (ns ++ [x]))) (order (below C ns) (map basename (children (nodes d) (below C ns)))) ;;
                     Ok (tdir ns (mode_of d (below C ns)) :: concat ms)
      | Some (NLink t) => Ok [tlink ns t]
      | Some (NFile c) => Ok [tfile ns (mode_of d (below C ns)) c]
      | _ => Err EOS
      end.
  Proof.
    intros N H E. cbn [tar_add]. pose proof (locate_rel d C SC Rd false ns N H E (fun F => False_ind _ (diff_false_true F))) as L0. rewrite L0, lstrip_names by exact H.
    assert (X : node_at (nodes d) (below C ns) = nodes d !! below C ns) by (apply node_at_below; first [apply (C1 d C SC)|apply (C2 d C SC)]). rewrite X.
    destruct (nodes d !! below C ns) as [[c| |t|]|] eqn:Y; try reflexivity.
    destruct (listed d C SC Rd order Or ns H) as [_ Li]. revert Li. generalize (order (below C ns) (map basename (children (nodes d) (below C ns)))). intros l Li.
    assert (K : Py.mapM (fun x => tar_add C order n d (os_join (String.concat "/" ns) x) (os_join (String.concat "/" ns) x)) l = Py.mapM (fun x => tar_add C order n d (String.concat "/" (ns ++ [x])) (String.concat "/" (ns ++ [x]))) l).
    { assert (Hl : forall x, In x l -> name x) by (intros x I; now apply Li in I). clear Li. induction l as [|x l IH]; [reflexivity|]. cbn [Py.mapM]. rewrite join_concat by (try assumption; apply Hl; now left). rewrite IH by (intros y I; apply Hl; now right). reflexivity. }
    rewrite K. reflexivity.
  Qed.
  Lemma tar_packed n : forall ns A, ns <> [] -> (forall x, In x ns -> name x) -> nodes d !! below C ns <> None -> tar_add C order n d (String.concat "/" ns) (String.concat "/" ns) = Ok A -> packed tdir tfile tlink d C n ns A.
  Proof.
    induction n as [|n IH]; intros ns A N H E P; [discriminate P|]. rewrite tar_eq in P by assumption. cbn [packed]. destruct (nodes d !! below C ns) as [[c| |t|]|]; try discriminate P; try (injection P as <-; reflexivity).
    destruct (listed d C SC Rd order Or ns H) as [Nd Li]. revert P Nd Li. generalize (order (below C ns) (map basename (children (nodes d) (below C ns)))). intros l P Nd Li.
    destruct (Py.mapM _ l) as [As|] eqn:Q; [|discriminate P]. injection P as <-. apply mapM_ok in Q. exists l, As. split; [exact Nd|]. split; [exact Li|]. split; [|reflexivity].
    assert (Hl : forall x, In x l -> name x /\ nodes d !! below C (ns ++ [x]) <> None) by (intros x; apply Li). clear Li Nd. induction Q as [|x A l As Q1 Q2 IQ]; constructor.
    - destruct (Hl x (or_introl eq_refl)) as [Nx Ex]. apply IH; [destruct ns; discriminate|apply names_app; split; [exact H|intros y [<-|[]]; exact Nx]|exact Ex|exact Q1].
    - apply IQ. intros y I. apply Hl. now right.
  Qed.
  Lemma tar_ok n : forall ns, ns <> [] -> (forall x, In x ns -> name x) -> packable d (below C ns) -> (forall q, nodes d !! q <> None -> String.length q < n + String.length (below C ns)) -> exists A, tar_add C order n d (String.concat "/" ns) (String.concat "/" ns) = Ok A.
  Proof.
    induction n as [|n IH]; intros ns N H [E P] L; [specialize (L _ E); cbn in L; lia|]. rewrite tar_eq by assumption. pose proof (P _ (or_introl eq_refl)) as P0. destruct (nodes d !! below C ns) as [[c| |t|]|] eqn:Y; try congruence; try (eexists; reflexivity).
    destruct (listed d C SC Rd order Or ns H) as [_ Li]. revert Li. generalize (order (below C ns) (map basename (children (nodes d) (below C ns)))). intros l Li.
    assert (Hl : forall x, In x l -> name x /\ nodes d !! below C (ns ++ [x]) <> None) by (intros x; apply Li). clear Li.
    assert (K : exists As, Py.mapM (fun x => tar_add C order n d (String.concat "/" (ns ++ [x])) (String.concat "/" (ns ++ [x]))) l = Ok As).
    { induction l as [|x l IHl]; [now exists []|]. destruct (Hl x (or_introl eq_refl)) as [Nx Ex]. assert (Bx : below C (ns ++ [x]) = below C ns ++ "/" ++ x) by (apply below_child; first [apply (C1 d C SC)|apply (C2 d C SC)]).
      destruct (IH (ns ++ [x])%list) as [A QA].
      - destruct ns; discriminate.
      - apply names_app; split; [exact H|intros y [<-|[]]; exact Nx].
      - split; [exact Ex|]. intros q Q. apply P. rewrite Bx in Q. right. now apply (at_or_in_up _ x).
      - intros q Q. specialize (L q Q). rewrite Bx, str_app_length. change (String.length ("/" ++ x)) with (Datatypes.S (String.length x)). lia.
      - destruct IHl as [As QAs]; [intros y I; apply Hl; now right|]. exists (A :: As). cbn [Py.mapM]. rewrite QA, QAs. reflexivity. }
    destruct K as [As ->]. eexists. reflexivity.
  Qed.
End tarpack.

Section extract.
  Context (root : string) (umask : N) (inst : bool).
  Strategy 100 [locate] 1000 [walk].
  Lemma locate_named fl f ns : stands f root -> ns <> [] -> (forall n, In n ns -> name n) -> locate root fl f (String.concat "/" ns) = locate root fl f (below root ns).
  Proof. intros S N H. rewrite (locate_below root root fl f ns S H). now rewrite locate_relative, split_names by first [assumption|now apply concat_ne|now apply concat_relative]. Qed.
  Section fresh.
    Context (e : disk) (ns : list string) (S : stands (nodes e) root) (H : forall n, In n ns -> name n) (N : ns <> []) (D : dirs_to root (nodes e) ns) (K : nodes e !! below root ns = None).
    Notation P := (below root ns).
    Notation t := (String.concat "/" ns).
    Lemma named fl : locate root fl (nodes e) t = Some P.
    Proof. rewrite locate_named by assumption. apply (locate_fresh root root e ns S H N D K fl). now left. Qed.
    Lemma none : node_at (nodes e) P = None.
    Proof. apply (node_fresh root e ns S); assumption. Qed.
    Lemma dir_there : (String.eqb (dirname t) "" || e_exists root (nodes e) (dirname t)) = true.
    Proof.
      destruct (exists_last N) as (a & n & Ea). rewrite Ea at 1 2. rewrite dirname_names by (rewrite <- Ea; exact H). destruct (nil_or_not a) as [->|Na]; [reflexivity|]. assert (Ha : forall x, In x a -> name x) by (intros x I; apply H; rewrite Ea, in_app_iff; now left).
      apply orb_true_iff. right. unfold e_exists, os_stat. rewrite locate_named by assumption. pose proof (parent_there root root e ns S H D a n Ea) as X. exact X.
    Qed.
    Lemma extract_head m (q : prog disk unit) Q : t_name m = t -> does q e Q -> (tar_extract root umask m = (d <~ ask (fun d => d) ;; _ <~ (if String.eqb (dirname t) "" || e_exists root (nodes d) (dirname t) then ret tt else lift umask (os_makedirs root (Datatypes.S (String.length (dirname t))) (dirname t))) ;; q)) -> does (tar_member root umask inst m) e Q.
    Proof.
      intros Tm Dq Ex. unfold tar_member. apply does_ask. rewrite Tm. unfold e_isfile, e_islink, os_stat, os_lstat. rewrite !named, none. cbn [orb]. rewrite andb_false_r.
      eapply does_then; [apply does_ret with (R := fun x => x = e); reflexivity|]. intros x ->. rewrite Ex. apply does_ask. rewrite dir_there. eapply does_then; [apply does_ret with (R := fun x => x = e); reflexivity|]. intros x ->. exact Dq.
    Qed.
    Lemma chmod_named e' x m k (Q : disk -> Prop) : adds root e e' ns x m -> (forall t, x <> NLink t) -> (forall e2, adds root e e2 ns x k -> Q e2) -> does (try_except (os_chmod root t k) is_os_error (ret tt)) e' Q.
    Proof.
      intros A Nl W. pose proof (adds_stands root _ _ _ _ _ S N A) as S'. pose proof (adds_dirs root _ _ _ _ _ S H D A) as D'. pose proof A as (X & _). destruct (stands_root root _ S) as (_ & R1 & R2 & _).
      assert (L : locate root true (nodes e') t = Some P) by (rewrite locate_named by assumption; apply locate_reached; [exact S'|exact H|exact N|exact D'|intros u; rewrite X, lookup_insert; intros E; injection E as ->; now apply (Nl u)]).
      assert (Nd : node_at (nodes e') P = Some x) by (rewrite node_at_below by assumption; rewrite X; apply lookup_insert).
      assert (E : os_chmod root t k e' = ([mkDisk (nodes e') (<[ P := k ]> (modes e'))], Ok tt)) by (unfold os_chmod; rewrite ask_eq, L, Nd; reflexivity).
      unfold does, result, final, try_except. rewrite E. split; [reflexivity|]. cbn [fst List.last]. apply W. eapply adds_chmod. exact A.
    Qed.
    Lemma tar_file_fresh m c : does (tar_member root umask inst (tfile ns m c)) e (fun e' => adds root e e' ns (NFile c) (N.land m 0xFFF)).
    Proof.
      eapply extract_head; [reflexivity| |unfold tar_extract; cbn [t_name t_what tfile]; rewrite rstrip_names by assumption; reflexivity].
      eapply does_then with (Q := fun e' => exists k, adds root e e' ns (NFile c) k).
      - assert (W : write_file root t c (nodes e) = write_file root P c (nodes e)).
        { unfold write_file. rewrite !ask_eq. unfold os_stat. rewrite named, (locate_fresh root root e ns S H N D K true P) by now left. rewrite none.
          assert (E1 : os_write root t "" (nodes e) = ([<[ P := NFile "" ]> (nodes e)], Ok tt)) by (unfold os_write; rewrite ask_eq, named, none; reflexivity).
          assert (E2 : os_write root P "" (nodes e) = ([<[ P := NFile "" ]> (nodes e)], Ok tt)) by (unfold os_write; rewrite ask_eq, (locate_fresh root root e ns S H N D K true P), none by (now left); reflexivity).
          unfold andthen. rewrite E1, E2. cbn [List.last]. assert (Sg : stands (<[ P := NFile "" ]> (nodes e)) root) by exact (adds_stands root _ _ _ _ _ S N (settle_adds root umask e ns (NFile "") K)).
          unfold os_write. rewrite !ask_eq, locate_named by assumption. reflexivity. }
        unfold does, result, final, lift. rewrite W, (write_fresh root root e ns S H N D K). cbn [fst snd]. split; [reflexivity|]. cbn [settle_all List.last]. eexists. exact (adds_over root umask _ _ _ _ _ (NFile c) (settle_adds root umask e ns (NFile "") K)).
      - intros e' [k A]. eapply chmod_named; [exact A|intros u; discriminate|]. intros e2 A2. exact A2.
    Qed.
    Lemma tar_dir_fresh m : does (tar_member root umask inst (tdir ns m)) e (fun e' => adds root e e' ns NDir (N.land m 0xFFF)).
    Proof.
      eapply extract_head; [reflexivity| |unfold tar_extract; cbn [t_name t_what tdir]; rewrite rstrip_names by assumption; reflexivity].
      apply does_ask. unfold e_lexists, os_lstat. rewrite named, none. eapply does_then with (Q := fun e' => adds root e e' ns NDir (new_mode umask NDir)).
      - eapply lift_does; [unfold os_mkdir; rewrite ask_eq, named, none; reflexivity|]. now apply settle_adds.
      - intros e' A. eapply chmod_named; [exact A|intros u; discriminate|]. intros e2 A2. exact A2.
    Qed.
    Lemma tar_link_fresh u : does (tar_member root umask inst (tlink ns u)) e (fun e' => adds root e e' ns (NLink u) 0).
    Proof.
      eapply extract_head; [reflexivity| |unfold tar_extract; cbn [t_name t_what tlink]; rewrite rstrip_names by assumption; reflexivity].
      apply does_ask. unfold e_lexists, os_lstat. rewrite named, none. eapply does_then; [apply does_ret with (R := fun x => x = e); reflexivity|]. intros x ->. eapply lift_does; [unfold os_symlink; rewrite ask_eq, named, none; reflexivity|].
      destruct (settle_adds root umask e ns (NLink u) K) as (X & _ & Z). split; [exact X|]. split; [|exact Z]. intros W. now elim (W u).
    Qed.
  End fresh.
End extract.

Section tround.
  Context (d : disk) (C : string) (SC : stands (nodes d) C) (Rd : real (nodes d)) (order : string -> list string -> list string) (Or : any_listing order) (n : nat).
  Context (xs : list string) (Tp : to_pack d C xs).
  Notation pack := (Py.mapM (fun x => tar_add_to_archive C order n d x "") xs).
  Lemma tar_pack_all : paths_shorter d n -> exists As, pack = Ok As.
  Proof.
    intros L. destruct Tp as [_ H]. induction xs as [|x l IH]; [now exists []|]. destruct IH as [As IH]; [split; [destruct Tp as [T _]; now inversion T|intros y I; apply H; now right]|intros y I; apply H; now right|].
    destruct (H x (or_introl eq_refl)) as [Nx Px]. rewrite <- (cx d C SC) in Px. destruct (tar_ok d C SC Rd order Or n [x]) as [A QA]; [discriminate|intros y [<-|[]]; exact Nx|exact Px|intros q Q; specialize (L q Q); lia|].
    exists (A :: As). cbn [Py.mapM]. cbn [String.concat] in QA. unfold tar_add_to_archive in IH |- *. cbn [String.eqb] in IH |- *. rewrite QA, IH. reflexivity.
  Qed.
  Context (As : list (list tmember)) (Q : pack = Ok As).
  Lemma tar_tops : Forall2 (fun x => packed tdir tfile tlink d C n [x]) xs As.
  Proof.
    pose proof Q as K. apply mapM_ok in K. destruct Tp as [_ H]. clear Tp Q. induction K as [|x A l As0 K1 K2 IK]; constructor.
    - destruct (H x (or_introl eq_refl)) as [Nx [Px _]]. rewrite <- (cx d C SC) in Px. apply (tar_packed d C SC Rd order Or n [x] A); [discriminate|intros y [<-|[]]; exact Nx|exact Px|exact K1].
    - apply IK. intros y I. apply H. now right.
  Qed.
  Context (cwd : string) (umask : N) (e : disk) (T : string).
  Notation whole := (concat As).
  Lemma tar_members inst e1 : stands (nodes e1) T -> (forall x, In x xs -> nothing_at e1 (T ++ "/" ++ x)) ->
    does (tar_unpack_dir cwd umask inst whole T) e1 (fun e' => all_copied all_bits all_bits d e' C T xs /\ only_in e1 e' T xs).
  Proof.
    intros S E. destruct (stands_root T _ S) as (_ & R1 & R2 & _). assert (B : forall x, below T [x] = T ++ "/" ++ x) by (intros x; now apply one_below). assert (Bc : forall x, below C [x] = C ++ "/" ++ x) by (intros x; apply (cx d C SC)).
    unfold tar_unpack_dir. apply does_ask. assert (L : locate cwd true (nodes e1) T = Some T) by (pose proof (locate_below cwd T true (nodes e1) [] S (fun x I => False_ind _ I)) as L; rewrite walk_nil in L; exact L).
    rewrite L, node_at_map by exact R1. rewrite (root_there T _ S).
    pose proof (unpack_tops tdir tfile tlink d C SC Rd T [] (fun x I => False_ind _ I) (tar_member T umask inst) whole all_bits all_bits (fun m => N.land m 0xFFF) (fun m => N.land m 0xFFF) tar_mode tar_mode) as Z. cbn [app] in Z.
    match type of Z with ?A1 -> ?A2 -> ?A3 -> _ => assert (Z1 : A1); [intros e0 ns (S0 & H0 & N0 & D0 & E0) X I; now apply tar_dir_fresh|]; assert (Z2 : A2); [intros e0 ns c (S0 & H0 & N0 & D0 & E0) X I; now apply tar_file_fresh|]; assert (Z3 : A3); [intros e0 ns t (S0 & H0 & N0 & D0 & E0) X I; now apply tar_link_fresh|] end.
    specialize (Z Z1 Z2 Z3). clear Z1 Z2 Z3.
    eapply does_weaken; [apply (Z n xs As e1 tar_tops (fun m I => I))|].
    - apply Tp.
    - intros y I. now apply Tp.
    - exact S.
    - intros y I. rewrite B. now apply E.
    - intros e' (_ & K1 & K2). split.
      + intros x I. specialize (K1 x I). now rewrite B, Bc in K1.
      + intros q O. apply K2. intros y I. rewrite B. now apply O.
  Qed.
  Lemma tar_round_trip clean : placed (nodes e) T -> nothing_at e T \/ (clean = true /\ nodes e !! T = Some NDir) ->
    does (unpack_tar cwd umask whole T clean) e (fun e' => all_copied all_bits all_bits d e' C T xs /\ new_directory e e' T xs).
  Proof.
    intros Pl K. unfold unpack_tar. eapply does_then with (Q := emptied e T).
    - destruct K as [K|[-> K]]; [now apply prepare_fresh|now apply prepare_clean].
    - intros e1 (S1 & D1 & E1 & O1). eapply does_weaken; [apply tar_members; [exact S1|]|].
      + intros x I q J. apply E1. now apply (at_or_in_up T x).
      + intros e' [K1 K2]. split; [exact K1|]. assert (Up : forall x q, at_or_in (T ++ "/" ++ x) q -> beneath T q) by (intros x q; apply at_or_in_up). split; [|split].
        * destruct (K2 T) as [K3 _]; [intros x _ J; apply Up in J as [r J]; symmetry in J; now apply longer in J|]. now rewrite K3.
        * intros q B Nq. destruct (existsb (fun x => under (T ++ "/" ++ x) q) xs) eqn:G.
          -- apply existsb_exists in G as (x & Ix & U). exists x. split; [exact Ix|]. now apply under_spec.
          -- exfalso. apply Nq. destruct (K2 q) as [K3 _]; [|rewrite K3; now apply E1]. intros x Ix J. apply under_spec in J. assert (existsb (fun x => under (T ++ "/" ++ x) q) xs = true) by (apply existsb_exists; now exists x). congruence.
        * intros q J. apply (same_at_trans e e1 e'); [now apply O1|]. apply K2. intros x _ J'. apply J. right. now apply (Up x).
  Qed.
  Lemma tar_no_clean : placed (nodes e) T -> nodes e !! T <> None -> unpack_tar cwd umask whole T false e = ([], Err EOS).
  Proof. intros Pl K. unfold unpack_tar, andthen. now rewrite (prepare_exists cwd umask e T Pl K). Qed.
End tround.
