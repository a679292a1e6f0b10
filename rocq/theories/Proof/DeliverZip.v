(** * Packages of the old format delivered *)
From Coq Require Import String Ascii ZArith NArith List Bool Lia.
From stdpp Require Import gmap strings.
From Verif Require Import Model.Py Model.InstallDB Model.Path Model.Fs Model.Trace Model.Actions Model.Index Model.Archive Model.Deliver Spec.PathSpec Spec.FsSpec Spec.ActionsSpec Spec.ArchiveSpec Spec.DeliverSpec.
From Verif Require Import Proof.PyFacts Proof.InstallDBFacts Proof.PathFacts Proof.FsFacts Proof.TraceFacts Proof.ActionsPaths Proof.ActionsFacts Proof.ActionsTop Proof.ActionsExact Proof.ActionsMove Proof.ArchiveFacts Proof.ArchiveTree Proof.ArchiveTrip Proof.ArchiveZip Proof.ArchiveTar Proof.ArchiveZipTop Proof.ArchiveTop Proof.DeliverFacts Proof.DeliverTar Proof.DeliverTop.
Import ListNotations.
Open Scope string_scope.
Open Scope prog_scope.

(** ** One member *)
Section zipmember.
  Context (rs : list string) (HR : forall n, In n rs -> name n) (umask : N) (cwd : string).
  Notation T := (below "/" rs).
  Notation sp := (below T).
  Strategy 100 [locate] 1000 [walk].

  Lemma z_loc fl (g : fs) ns : destined g rs -> ns <> [] -> (forall n, In n ns -> name n) -> locate cwd fl g (sp ns) = walk 40 fl g T ns.
  Proof. intros D _ H. now apply dest_loc. Qed.
  Lemma z_abs : T = "/" \/ absolute T.
  Proof. destruct (nil_or_not rs) as [->|N]; [now left|right; apply below_absolute; [now left|exact HR|exact N]]. Qed.
  Lemma z_dir a n : (forall x, In x (a ++ [n]) -> name x) -> dirname (sp (a ++ [n])) = sp a /\ basename (sp (a ++ [n])) = n.
  Proof. intros H. apply names_app in H as [Ha Hn]. apply below_dirname; [exact z_abs|exact Ha|apply Hn; now left]. Qed.
  Lemma z_top : sp [] = "" \/ forall g, destined g rs -> e_exists cwd g (sp []) = true.
  Proof. right. intros g D. unfold e_exists, os_stat. cbn [below fold_left]. rewrite (dest_located rs cwd true g D), (dest_dir rs g D). reflexivity. Qed.
  Lemma z_some ns : ns <> [] -> (forall n, In n ns -> name n) -> sp ns <> "".
  Proof. intros N H E. assert (A : absolute (sp ns)) by (apply below_absolute; [exact z_abs|exact H|exact N]). destruct A as (r & _ & X). rewrite E in X. discriminate X. Qed.
  Lemma z_join ns : ns <> [] -> (forall n, In n ns -> name n) -> os_join T (String.concat "/" ns) = sp ns.
  Proof.
    intros N H. unfold os_join. rewrite concat_relative by exact H. destruct (nil_or_not rs) as [->|Nr]; [cbn; now rewrite below_text_root|].
    assert (A : absolute T) by (apply below_absolute; [now left|exact HR|exact Nr]). assert (R2 : T <> "") by (destruct A as (r & _ & ->); discriminate). rewrite (proj2 (String.eqb_neq _ _) R2).
    assert (R3 : py_endswith T "/" = false). { apply not_true_iff_false. intros E. apply endswith_iff in E. rewrite below_text_root in E by assumption. apply (concat_ends rs Nr HR "/"). exact E. }
    rewrite R3. cbn [orb]. rewrite (below_text T ns); [reflexivity|now apply absolute_root|exact R2|exact N].
  Qed.
  Lemma z_len a : (forall n, In n a -> name n) -> List.length a <= String.length (sp a).
  Proof.
    intros H. destruct (nil_or_not a) as [->|N]; [cbn; lia|]. rewrite <- z_join by assumption. unfold os_join. rewrite concat_relative by exact H.
    assert (L : forall l : list string, (forall x, In x l -> name x) -> List.length l <= String.length (String.concat "/" l)).
    { induction l as [|x l IH]; intros Hl; [cbn; lia|]. assert (Nx : x <> "") by (destruct (Hl x) as (Y & _); [now left|exact Y]). destruct l as [|y l]; [cbn; destruct x; [congruence|cbn; lia]|]. change (String.concat "/" (x :: y :: l)) with (x ++ "/" ++ String.concat "/" (y :: l)). rewrite !str_app_length.
      specialize (IH (fun z J => Hl z (or_intror J))). destruct x; [congruence|]. cbn [List.length String.length] in *. lia. }
    specialize (L a H). destruct (_ || _); rewrite !str_app_length; lia.
  Qed.

  Context (ms : list member) (ns : list string) (H : forall n, In n ns -> name n) (N : ns <> []) (m : member).
  Notation P := (below T ns).
  Context (Out : out_path "install" (m_name m) = Some (String.concat "/" ns)).

  (** The directory of a file *)
  Lemma z_parents a n e : ns = (a ++ [n])%list -> (rs ++ a)%list <> [] -> ~ ends_blank (sp a) -> real (nodes e) -> destined (nodes e) rs -> opens rs (nodes e) ns ->
    does (lift umask (check_dir cwd (sp a))) e (fun e' => paved rs umask e e' ns) /\ (nodes e !! P <> None -> does (lift umask (check_dir cwd (sp a))) e (fun e' => e' = e)).
  Proof.
    intros Ea Nr Bl Re De O. assert (Ha := prefix_names a [n] ns Ea H). assert (B : forall n, In n (rs ++ a) -> name n) by (apply names_app; now split).
    assert (St : py_rstrip "/" (py_strip (sp a)) = sp a).
    { pose proof (below_starts (rs ++ a) Nr B "") as S1. rewrite str_app_nil_r, below_app in S1. rewrite strip_plain; [|intros r X; rewrite X in S1; discriminate S1|exact S1|exact Bl]. apply rstrip_none. intros E. rewrite <- below_app, below_text_root in E by assumption. exact (concat_ends (rs ++ a) Nr B "/" E). }
    assert (Q : check_dir cwd (sp a) (nodes e) = (if e_exists cwd (nodes e) (sp a) then ret tt else os_makedirs cwd (Datatypes.S (String.length (sp a))) (sp a)) (nodes e)) by (unfold check_dir; rewrite ask_eq, St; reflexivity).
    assert (L : forall R : disk -> Prop, does (lift umask (if e_exists cwd (nodes e) (sp a) then ret tt else os_makedirs cwd (Datatypes.S (String.length (sp a))) (sp a))) e R -> does (lift umask (check_dir cwd (sp a))) e R) by (intros R; unfold does, result, final, lift; now rewrite Q).
    destruct (nil_or_not a) as [->|Na].
    - assert (X : e_exists cwd (nodes e) (sp []) = true) by (destruct z_top as [Z|Z]; [|now apply Z]; exfalso; cbn [below fold_left] in Z; destruct z_abs as [Y|(r & _ & Y)]; rewrite Y in Z; discriminate Z). rewrite X in L. split; [|intros _; apply L; apply lift_does_nil; reflexivity].
      apply L. apply lift_does_nil; [reflexivity|]. apply (paved_already rs HR umask e ns [] n); try assumption. congruence.
    - assert (Ka := O a [n] Ea Na (fun X => nil_cons (eq_sym X))). assert (Oa : opens rs (nodes e) a) by (intros b c E Nb Nc; apply (O b (c ++ [n])%list); [rewrite Ea, E; now rewrite app_assoc|exact Nb|destruct c; discriminate]).
      rewrite (exists_a rs HR cwd sp z_loc (nodes e) a Re De Ha Na Oa Ka) in L. split.
      + apply L. destruct Ka as [Ka|Ka]; rewrite Ka.
        * apply (pave rs HR umask cwd sp z_loc z_dir z_top z_some e ns a n); try assumption. pose proof (z_len a Ha). lia.
        * apply lift_does_nil; [reflexivity|]. apply (paved_already rs HR umask e ns a n); try assumption. now intros _.
      + intros X. apply L. assert (Y : nodes e !! sp a = Some NDir) by (apply (DeliverFacts.real_dirs rs HR (nodes e) ns Re H X N) with (b := [n]); [exact Ea|exact Na|discriminate]). rewrite Y. apply lift_does_nil; reflexivity.
  Qed.
  (** What a file or link is put on: its directory is there and the place is free. *)
  Lemma z_ready a n e (q : prog disk unit) (R : disk -> Prop) : ns = (a ++ [n])%list -> (rs ++ a)%list <> [] -> ~ ends_blank (sp a) -> real (nodes e) -> destined (nodes e) rs -> opens rs (nodes e) ns -> nodes e !! P <> Some NDir -> nodes e !! P <> Some NOther ->
    (forall e1, (forall x k (M : BinNums.N -> Prop) e2, adds T e1 e2 ns x k -> M k -> put rs umask e e2 ns x M) -> destined (nodes e1) rs -> dirs rs (nodes e1) ns -> nodes e1 !! P = None -> does q e1 R) ->
    does (_ <~ lift umask (check_dir cwd (dirname P)) ;; d <~ ask (fun d => d) ;; _ <~ (if e_isfile cwd (nodes d) P || e_islink cwd (nodes d) P then lift umask (os_unlink cwd P) else ret tt) ;; q) e R.
  Proof.
    intros Ea Nr Bl Re De O K1 K2 Q. assert (Dn : dirname P = sp a) by (rewrite Ea; apply z_dir; rewrite <- Ea; exact H). rewrite Dn. destruct (z_parents a n e Ea Nr Bl Re De O) as [Pv Id]. unfold e_isfile, e_islink. destruct (nodes e !! P) as [x|] eqn:X.
    - assert (Dd : dirs rs (nodes e) ns) by (apply (DeliverFacts.real_dirs rs HR); try assumption; rewrite X; discriminate).
      eapply does_then; [apply Id; discriminate|]. intros e' ->. apply does_ask. rewrite (lstat_there rs HR cwd sp z_loc (nodes e) ns) by assumption. rewrite X.
      assert (Y : (match os_stat cwd (nodes e) P with Some (NFile _) => true | _ => false end || match Some x with Some (NLink _) => true | _ => false end) = true).
      { destruct x as [c| |u|]; try congruence; [|apply orb_true_r]. rewrite (stat_there rs HR cwd sp z_loc (nodes e) ns); try assumption; [now rewrite X|intros u; rewrite X; discriminate]. }
      rewrite Y. assert (E : os_unlink cwd P (nodes e) = ([delete P (nodes e)], Ok tt)).
      { unfold os_unlink. rewrite ask_eq, (reach rs HR cwd sp z_loc) by (assumption || discriminate). rewrite (node_there rs HR), X by assumption. destruct x; [reflexivity|congruence|reflexivity|congruence]. }
      eapply does_then; [apply (lift_does umask _ e _ (fun e1 => without rs e e1 ns) E); apply settle_without|]. intros e1 Wo. assert (F : nodes e1 !! P = None) by (rewrite (proj1 Wo); apply lookup_delete).
      assert (R1 := without_real rs e e1 ns Re H ltac:(rewrite X; congruence) Wo). assert (D1 := without_destined rs HR e e1 ns De H N Wo).
      assert (Pa : paved rs umask e1 e1 ns). { apply (paved_already rs HR umask e1 ns a n); try assumption. intros Na. rewrite (proj1 Wo), lookup_delete_ne; [apply (Dd a [n]); [exact Ea|exact Na|discriminate]|]. intros Z. apply place_inj in Z; [|exact HR|exact H|exact (prefix_names a [n] ns Ea H)]. rewrite <- Z in Ea. apply (f_equal (@List.length string)) in Ea. rewrite app_length in Ea. cbn in Ea. lia. }
      apply (Q e1); try assumption; [|apply Pa]. intros x' k M e2 A Mk. apply (put_without rs umask e e1 _ _ _ _ Wo). exact (put_paved rs HR umask e1 e1 e2 ns x' k M Pa H N F A Mk).
    - eapply does_then; [exact Pv|]. intros e1 Pa. apply does_ask. assert (F : nodes e1 !! P = None) by exact (paved_free rs HR umask ns H e e1 X Pa). pose proof Pa as (D1 & R1 & Dd & _).
      assert (O1 : opens rs (nodes e1) ns) by (intros u v Eu Nu Nv; right; now apply (Dd u v)). rewrite (stat_absent rs HR cwd sp z_loc (nodes e1) ns), (lstat_absent rs HR cwd sp z_loc (nodes e1) ns) by assumption. cbn [orb].
      eapply does_then; [apply does_ret with (R := fun x => x = e1); reflexivity|]. intros x ->. apply (Q e1); try assumption. intros x' k M e2 A Mk. exact (put_paved rs HR umask e e1 e2 ns x' k M Pa H N F A Mk).
  Qed.

  Lemma z_chmod e x k k' : nodes e !! P = None -> destined (nodes e) rs -> dirs rs (nodes e) ns -> (forall t, x <> NLink t) -> forall e1, adds T e e1 ns x k -> does (os_chmod cwd P k') e1 (fun e2 => adds T e e2 ns x k').
  Proof.
    intros F D Dd Nl e1 A. pose proof A as (X & _ & _). assert (D1 : destined (nodes e1) rs) by (rewrite X; now apply destined_insert). assert (Dd1 : dirs rs (nodes e1) ns) by (rewrite X; now apply dirs_insert).
    assert (L : nodes e1 !! P = Some x) by (rewrite X; apply lookup_insert).
    apply chmod_does with (q := P); [apply (reach rs HR cwd sp z_loc); try assumption; intros _ u; rewrite L; intros E; injection E as ->; now apply (Nl u)|rewrite (node_there rs HR) by assumption; rewrite L; discriminate|]. eapply adds_chmod. exact A.
  Qed.
  Lemma z_file_put e a n c : py_endswith (m_name m) "/" = false -> m_attr m <> symmagic -> zip_read ms (m_name m) = c -> ns = (a ++ [n])%list -> (rs ++ a)%list <> [] -> ~ ends_blank (sp a) -> real (nodes e) -> destined (nodes e) rs -> opens rs (nodes e) ns -> nodes e !! P <> Some NDir -> nodes e !! P <> Some NOther ->
    does (unpack_member cwd umask ms T "install" m) e (fun e' => put rs umask e e' ns (NFile c) (eq (zip_mode m))).
  Proof.
    intros E1 E2 E3 Ea Nr Bl Re De O K1 K2. unfold unpack_member. rewrite Out, z_join, E1 by assumption. cbv zeta iota. apply (z_ready a n); try assumption. intros e1 Put D1 Dd F. apply N.eqb_neq in E2. rewrite E2, E3.
    eapply does_then with (Q := fun e' => exists k, adds T e1 e' ns (NFile c) k).
    - assert (L : locate cwd true (nodes e1) P = Some P) by (apply (reach rs HR cwd sp z_loc); try assumption; intros _ u; rewrite F; discriminate).
      assert (E : write_file cwd P c (nodes e1) = ([<[ P := NFile "" ]> (nodes e1); <[ P := NFile c ]> (<[ P := NFile "" ]> (nodes e1))], Ok tt)).
      { unfold write_file. rewrite ask_eq. unfold os_stat. rewrite L, (node_there rs HR), F by assumption. assert (W1 : os_write cwd P "" (nodes e1) = ([<[ P := NFile "" ]> (nodes e1)], Ok tt)) by (unfold os_write; rewrite ask_eq, L, (node_there rs HR), F by assumption; reflexivity).
        unfold andthen. rewrite W1. cbn [List.last]. assert (L' : locate cwd true (<[ P := NFile "" ]> (nodes e1)) P = Some P).
        { apply (reach rs HR cwd sp z_loc); try assumption; [now apply destined_insert|now apply dirs_insert|]. intros _ u. rewrite lookup_insert. discriminate. }
        unfold os_write. rewrite ask_eq, L', (node_there rs HR), lookup_insert by assumption. reflexivity. }
      unfold does, result, final, lift. rewrite E. cbn [fst snd]. split; [reflexivity|]. cbn [settle_all List.last]. eexists. exact (adds_over T umask _ _ _ _ _ (NFile c) (settle_adds T umask e1 ns (NFile "") F)).
    - intros e2 [k A]. eapply does_weaken; [apply (z_chmod e1 (NFile c) k (zip_mode m) F D1 Dd); [intros t; discriminate|exact A]|]. intros e3 A'. apply (Put (NFile c) (zip_mode m) (eq (zip_mode m)) e3 A' eq_refl).
  Qed.
  Lemma z_link_put e a n u M : py_endswith (m_name m) "/" = false -> m_attr m = symmagic -> zip_read ms (m_name m) = u -> ns = (a ++ [n])%list -> (rs ++ a)%list <> [] -> ~ ends_blank (sp a) -> real (nodes e) -> destined (nodes e) rs -> opens rs (nodes e) ns -> nodes e !! P <> Some NDir -> nodes e !! P <> Some NOther ->
    does (unpack_member cwd umask ms T "install" m) e (fun e' => put rs umask e e' ns (NLink u) M).
  Proof.
    intros E1 E2 E3 Ea Nr Bl Re De O K1 K2. unfold unpack_member. rewrite Out, z_join, E1 by assumption. cbv zeta iota. apply (z_ready a n); try assumption. intros e1 Put D1 Dd F. rewrite E2, N.eqb_refl, E3.
    assert (O1 : opens rs (nodes e1) ns) by (intros x y Eu Nu Nv; right; now apply (Dd x y)). apply does_ask. unfold e_isdir. rewrite (stat_absent rs HR cwd sp z_loc (nodes e1) ns) by assumption. eapply does_then; [apply does_ret with (R := fun x => x = e1); reflexivity|]. intros x ->.
    eapply lift_does; [unfold os_symlink; rewrite ask_eq, (reach rs HR cwd sp z_loc) by (assumption || discriminate); rewrite (node_there rs HR), F by assumption; reflexivity|].
    destruct (settle_adds T umask e1 ns (NLink u) F) as (X & Y & Z).
    destruct (Put (NLink u) 0%N (fun _ => True) (settle umask e1 (<[ P := NLink u ]> (nodes e1)))) as (P1 & P2 & P3 & _ & P5); [|exact Logic.I|]; [split; [exact X|]; split; [intros V; now elim (V u)|exact Z]|].
    split; [exact P1|]. split; [exact P2|]. split; [exact P3|]. split; [intros V; now elim (V u)|exact P5].
  Qed.
  Lemma z_dir_put e : py_endswith (m_name m) "/" = true -> real (nodes e) -> destined (nodes e) rs -> opens rs (nodes e) ns -> nodes e !! P = None \/ nodes e !! P = Some NDir ->
    does (unpack_member cwd umask ms T "install" m) e (fun e' => if match nodes e !! P with Some NDir => true | _ => false end then e' = e else put rs umask e e' ns NDir (eq (zip_dir_mode m))).
  Proof.
    intros E1 Re De O K. unfold unpack_member. rewrite Out, z_join, E1 by assumption. cbv zeta iota. apply does_ask. unfold e_isdir. destruct K as [K|K].
    - rewrite (stat_absent rs HR cwd sp z_loc (nodes e) ns) by assumption. rewrite K. assert (Hx : forall n, In n (ns ++ ["install"]) -> name n) by (apply names_app; split; [exact H|]; intros n [<-|[]]; exact install_name).
      assert (Ox : opens rs (nodes e) (ns ++ ["install"])). { intros a b Ea Na Nb. destruct (exists_last Nb) as (b' & y & Eb). subst b. rewrite app_assoc in Ea. apply app_inj_tail in Ea as [Ea _]. destruct (nil_or_not b') as [->|Nb']; [rewrite app_nil_r in Ea; subst a; now left|now apply (O a b')]. }
      eapply does_then; [apply (pave rs HR umask cwd sp z_loc z_dir z_top z_some e (ns ++ ["install"]) ns "install" (Datatypes.S (String.length P)) Re De Hx eq_refl N); [|exact Ox|exact K]; pose proof (z_len ns H); lia|].
      intros e1 (D1 & R1 & Dd & Ot). assert (L : nodes e1 !! P = Some NDir) by (apply (Dd ns ["install"] eq_refl N); discriminate). assert (Dn : dirs rs (nodes e1) ns) by (intros a b Ea Na Nb; apply (Dd a (b ++ ["install"])%list); [rewrite Ea; now rewrite app_assoc|exact Na|destruct b; discriminate]).
      apply chmod_does with (q := P); [apply (reach rs HR cwd sp z_loc); try assumption; intros _ u; rewrite L; discriminate|rewrite (node_there rs HR) by assumption; rewrite L; discriminate|].
      split; [exact D1|]. split; [exact R1|]. split; [exact L|]. split; [intros _; unfold mode_of; cbn [modes]; now rewrite lookup_insert|].
      intros q Nq. assert (Mq : mode_of (mkDisk (nodes e1) (<[ P := zip_dir_mode m ]> (modes e1))) q = mode_of e1 q) by (unfold mode_of; cbn [modes]; rewrite lookup_insert_ne by congruence; reflexivity).
      destruct (Ot q) as [[S1 S2]|[(S1 & S2 & S3) (b & c & Eb & Nb & Nc & Eq)]]; [left; split; [exact S1|intros Z; rewrite Mq; now apply S2]|]. right. split; [split; [exact S1|]; split; [exact S2|now rewrite Mq]|].
      destruct (exists_last Nc) as (c' & y & Ec). subst c. rewrite app_assoc in Eb. apply app_inj_tail in Eb as [Eb _]. exists b, c'. split; [exact Eb|]. split; [exact Nb|]. split; [|exact Eq]. intros ->. rewrite app_nil_r in Eb. apply Nq. now rewrite Eq, Eb.
    - assert (Dd : dirs rs (nodes e) ns) by (apply (DeliverFacts.real_dirs rs HR); try assumption; rewrite K; discriminate). rewrite (stat_there rs HR cwd sp z_loc (nodes e) ns); try assumption; [|intros u; rewrite K; discriminate]. rewrite K. apply does_ret. reflexivity.
  Qed.
End zipmember.

(** ** The package file *)
Lemma own_name C order n d p : add_to_archive C order (Datatypes.S n) d p p = add_to_archive C order (Datatypes.S n) d p "".
Proof. cbn [add_to_archive]. destruct (_ && _); [reflexivity|]. destruct (os_lstat _ _ _) as [[]|]; try reflexivity; destruct (locate _ _ _ _) as [q|]; try reflexivity; destruct (node_at _ _) as [[]|]; try reflexivity; change (String.eqb "" "") with true; cbv iota; now destruct (String.eqb p ""). Qed.

Definition zip_brings (whole : list member) (rs : list string) (ns : list string) (m : member) (x : node) (K : N -> Prop) : Prop :=
  out_path "install" (m_name m) = Some (String.concat "/" ns) /\
  match x with
  | NFile c => py_endswith (m_name m) "/" = false /\ m_attr m <> symmagic /\ zip_read whole (m_name m) = c /\ K = eq (zip_mode m) /\ exists a n, ns = (a ++ [n])%list /\ (rs ++ a)%list <> [] /\ ~ ends_blank (below (below "/" rs) a)
  | NLink u => py_endswith (m_name m) "/" = false /\ m_attr m = symmagic /\ zip_read whole (m_name m) = u /\ exists a n, ns = (a ++ [n])%list /\ (rs ++ a)%list <> [] /\ ~ ends_blank (below (below "/" rs) a)
  | NDir => py_endswith (m_name m) "/" = true /\ K = eq (zip_dir_mode m)
  | NOther => False
  end.

Section ziptop.
  Context (d e : disk) (pkg : string) (rs : list string) (umask : N) (cwd : string).
  Notation I := (below pkg ["install"]).
  Notation T := (below "/" rs).
  Context (SP : stands (nodes d) pkg) (Rd : real (nodes d)) (order : string -> list string -> list string) (Or : any_listing order).
  Context (ls : list (list string)) (Th : things d I ls).

  Definition zip_member (ns : list string) : member :=
    match what_of d pkg ns with
    | NFile c => zfile ("install" :: ns) (mode_of d (below I ns)) c
    | NLink t => zlink ("install" :: ns) t
    | _ => zdir ("install" :: ns) (mode_of d (below I ns))
    end.
  Lemma zip_leaf n ns : In ns ls -> add_to_archive pkg order (Datatypes.S n) d (os_join "install" (String.concat "/" ns)) (os_join "install" (String.concat "/" ns)) = Ok [zip_member ns].
  Proof.
    intros K. pose proof (leaf_listing d pkg SP Rd order Or ls Th ns K) as Lf. destruct Th as [_ H]. destruct (H ns K) as (N & Hn & E). rewrite install_join by assumption. rewrite own_name. assert (Ex : nodes d !! below I ns <> None) by (intros X; rewrite X in E; exact E).
    rewrite (add_eq d pkg SP Rd order Or n ("install" :: ns)) by first [discriminate|now apply with_install|exact Ex]. change (below pkg ("install" :: ns)) with (below I ns). unfold zip_member, what_of. destruct (nodes d !! below I ns) as [[c| |t|]|]; try contradiction; try reflexivity. rewrite Lf by reflexivity. reflexivity.
  Qed.
  Context (control : list member) (Ctl : forall m, In m control -> subpath "install" (m_name m) = false).
  Definition zip_members : list member := map zip_member ls.
  Lemma pack_zip_eq n : pack_zip order pkg (Datatypes.S n) d control (map (String.concat "/") ls) = Ok (control ++ zip_members)%list.
  Proof.
    unfold pack_zip. assert (K : forall l, (forall ns, In ns l -> In ns ls) -> Py.mapM (fun p => let arc := os_join "install" p in add_to_archive pkg order (Datatypes.S n) d arc arc) (map (String.concat "/") l) = Ok (map (fun ns => [zip_member ns]) l)).
    { induction l as [|ns l IH]; intros Sub; [reflexivity|]. cbn [map Py.mapM]. cbv zeta in *. rewrite zip_leaf by (apply Sub; now left). rewrite IH by (intros k J; apply Sub; now right). reflexivity. }
    rewrite K by easy. cbn [bind]. f_equal. f_equal. unfold zip_members. clear K Th. induction ls as [|ns l IH]; [reflexivity|]. cbn [map concat app]. now rewrite IH.
  Qed.
  Lemma member_named ns : In ns ls -> m_name (zip_member ns) = String.concat "/" ("install" :: ns) \/ m_name (zip_member ns) = String.concat "/" ("install" :: ns) ++ "/".
  Proof. intros _. unfold zip_member. destruct (what_of d pkg ns); [now left|now right|now left|now right]. Qed.
  Lemma member_under ns : In ns ls -> subpath "install" (m_name (zip_member ns)) = true /\ out_path "install" (m_name (zip_member ns)) = Some (String.concat "/" ns).
  Proof.
    intros K. pose proof (member_named ns K) as M. destruct Th as [_ H]. destruct (H ns K) as (N & Hn & _). assert (Hi : forall n, In n ["install"] -> name n) by (intros n [<-|[]]; exact install_name).
    assert (S1 : subpath "install" (m_name (zip_member ns)) = true) by (apply (subpath_concat ["install"] ("install" :: ns)); [discriminate|discriminate|exact Hi|now apply with_install|exact M|now exists ns]).
    split; [exact S1|]. unfold out_path. change (String.eqb "install" "") with false. cbv iota. rewrite S1. change "install" with (String.concat "/" ["install"]) at 1. now rewrite (removepathprefix_concat ["install"] ns _ (fun X => nil_cons (eq_sym X)) Hi Hn M).
  Qed.
  Lemma member_read ns : In ns ls -> py_endswith (m_name (zip_member ns)) "/" = false -> zip_read (control ++ zip_members) (m_name (zip_member ns)) = m_data (zip_member ns).
  Proof.
    intros K F. unfold zip_read. destruct (List.find (fun m' => String.eqb (m_name m') (m_name (zip_member ns))) (rev (control ++ zip_members))) as [m'|] eqn:Q.
    - apply List.find_some in Q as [J Eq]. apply String.eqb_eq in Eq. apply in_rev in J. apply in_app_iff in J as [J|J]; [apply Ctl in J; rewrite Eq, (proj1 (member_under ns K)) in J; discriminate J|]. unfold zip_members in J. apply in_map_iff in J as (k & <- & Jk).
      destruct Th as [_ H]. destruct (H ns K) as (N & Hn & _). destruct (H k Jk) as (Nk & Hk & _). destruct (member_under ns K) as [_ U]. destruct (member_under k Jk) as [_ V]. rewrite Eq, U in V. injection V as V. apply concat_inj in V; try assumption. now subst k.
    - exfalso. assert (J : In (zip_member ns) (rev (control ++ zip_members))) by (rewrite <- in_rev, in_app_iff; right; unfold zip_members; now apply in_map). pose proof (List.find_none _ _ Q _ J) as Z. cbn beta in Z. rewrite String.eqb_refl in Z. discriminate Z.
  Qed.
  Context (Fit : old_fits d I T ls).
  Definition zip_modes (ns : list string) : N -> Prop := match what_of d pkg ns with NFile _ => eq (zip_mode (zip_member ns)) | _ => eq (zip_dir_mode (zip_member ns)) end.
  Lemma pack_zip_brings : Forall2 (fun ns m => zip_brings (control ++ zip_members) rs ns m (what_of d pkg ns) (zip_modes ns)) ls zip_members.
  Proof.
    assert (K : forall ns, In ns ls -> zip_brings (control ++ zip_members) rs ns (zip_member ns) (what_of d pkg ns) (zip_modes ns)).
    { intros ns J. split; [now apply member_under|]. pose proof (member_read ns J) as Rr. destruct Th as [_ H]. destruct (H ns J) as (N & Hn & E).
      assert (Room : nodes d !! below I ns <> Some NDir -> exists a n, ns = (a ++ [n])%list /\ (rs ++ a)%list <> [] /\ ~ ends_blank (below T a)).
      { intros X. destruct (exists_last N) as (a & n & Ea). exists a, n. split; [exact Ea|]. rewrite Ea in J, X. destruct (Fit a n J X) as [F1 F2]. split; [|exact F2]. intros Z. apply F1. rewrite <- below_app, Z. reflexivity. }
      unfold zip_modes, zip_member, what_of in *. destruct (nodes d !! below I ns) as [[c| |t|]|] eqn:Y; try contradiction; cbn [default] in *.
      - assert (F : py_endswith (m_name (zfile ("install" :: ns) (mode_of d (below I ns)) c)) "/" = false) by (apply concat_endswith; [discriminate|now apply with_install]). split; [exact F|]. split; [apply file_not_link|]. split; [now apply Rr|]. split; [reflexivity|]. apply Room. discriminate.
      - split; [|reflexivity]. apply endswith_iff. now exists (String.concat "/" ("install" :: ns)).
      - assert (F : py_endswith (m_name (zlink ("install" :: ns) t)) "/" = false) by (apply concat_endswith; [discriminate|now apply with_install]). split; [exact F|]. split; [reflexivity|]. split; [now apply Rr|]. apply Room. discriminate. }
    unfold zip_members at 2. revert K. generalize (control ++ zip_members)%list. intros whole K. clear Th Fit. induction ls as [|ns l IH]; constructor; [apply K; now left|apply IH; intros k J; apply K; now right].
  Qed.

  Context (Re : real (nodes e)) (De : destined (nodes e) rs) (Wl : forall ns, In ns ls -> welcome (nodes e) T ns (nodes d !! below I ns)).
  Lemma zip_delivered : exists ms, (forall n, pack_zip order pkg (Datatypes.S n) d control (map (String.concat "/") ls) = Ok ms) /\
    does (deliver_zip cwd umask ms T) e (fun e' => in_place zip_file_keeps (fun _ _ => True) d e' I T ls /\ old_dirs d e e' I T ls /\ nothing_else umask e e' T ls /\ real (nodes e') /\ destined (nodes e') rs).
  Proof.
    exists (control ++ zip_members)%list. split; [exact pack_zip_eq|]. unfold deliver_zip, unpack_dir_flat, unpack_file_cond. destruct De as [HR D].
    assert (Fl : List.filter (fun m => subpath "install" (m_name m)) (control ++ zip_members) = zip_members).
    { rewrite List.filter_app. assert (F1 : List.filter (fun m => subpath "install" (m_name m)) control = []) by (clear - Ctl; induction control as [|m l IH]; [reflexivity|]; cbn [List.filter]; rewrite Ctl by (now left); apply IH; intros k J; apply Ctl; now right).
      rewrite F1. cbn [app]. unfold zip_members. assert (K : forall ns, In ns ls -> subpath "install" (m_name (zip_member ns)) = true) by (intros ns J; now apply member_under). clear - K. induction ls as [|ns l IH]; [reflexivity|]. cbn [map List.filter]. rewrite K by (now left). f_equal. apply IH. intros k J. apply K. now right. }
    eapply does_same; [symmetry; apply (each_filter (fun m => subpath "install" (m_name m)))|]. rewrite Fl.
    eapply does_weaken; [apply (fold_all rs HR umask (unpack_member cwd umask (control ++ zip_members) T "install") (zip_brings (control ++ zip_members) rs) true) with (what := what_of d pkg) (modes_ := zip_modes)|].
    - intros ns m x K s (B1 & B2) Hn N Rs Ds [O W]. cbn [andb]. destruct x as [c| |t|].
      + destruct B2 as (B2 & B3 & B4 & -> & a & n & Ea & Nr & Bl). assert (Y : match nodes s !! below T ns with Some NDir => true | _ => false end = false) by (destruct (nodes s !! below T ns) as [[]|]; try reflexivity; discriminate W). rewrite Y.
        apply (z_file_put rs HR umask cwd _ ns Hn N m B1 s a n c B2 B3 B4 Ea Nr Bl Rs Ds O); intros X; rewrite X in W; [discriminate W|exact W].
      + destruct B2 as (B2 & ->). apply (z_dir_put rs HR umask cwd _ ns Hn N m B1 s B2 Rs Ds O). destruct (nodes s !! below T ns) as [[]|]; try contradiction; try (now left); try (now right); now elim W.
      + destruct B2 as (B2 & B3 & B4 & a & n & Ea & Nr & Bl). assert (Y : match nodes s !! below T ns with Some NDir => true | _ => false end = false) by (destruct (nodes s !! below T ns) as [[]|]; try reflexivity; discriminate W). rewrite Y.
        apply (z_link_put rs HR umask cwd _ ns Hn N m B1 s a n t K B2 B3 B4 Ea Nr Bl Rs Ds O); intros X; rewrite X in W; [discriminate W|exact W].
      + contradiction.
    - exact Re.
    - exact De.
    - intros ns J. destruct Th as [_ H]. destruct (H ns J) as (N & Hn & _). now split.
    - apply Th.
    - exact (things_apart d pkg SP Rd ls Th).
    - intros ns J. specialize (Wl ns J). destruct Th as [_ H]. destruct (H ns J) as (_ & _ & E). unfold allowed, what_of. destruct (nodes d !! below I ns); [exact Wl|contradiction].
    - exact pack_zip_brings.
    - intros e' (R' & D' & P & O). split; [|split; [|now split]].
      + intros ns J. destruct (P ns J) as [P1 P2]. pose proof (Wl ns J) as [_ W]. destruct Th as [_ H]. destruct (H ns J) as (_ & _ & E). unfold zip_modes, zip_member, what_of in P1, P2. cbn [andb] in P2.
        destruct (nodes d !! below I ns) as [x|] eqn:X; [|contradiction]. cbn [default] in *. split; [exact P1|]. destruct x as [c| |t|]; try exact Logic.I. assert (Y : match nodes e !! below T ns with Some NDir => true | _ => false end = false) by (destruct (nodes e !! below T ns) as [[]|]; try reflexivity; discriminate W). rewrite Y in P2. rewrite <- P2 by discriminate. apply zip_file_mode.
      + intros ns J X. destruct (P ns J) as [_ P2]. pose proof (Wl ns J) as [_ W]. rewrite X in W. unfold zip_modes, zip_member, what_of in P2. rewrite X in P2. cbn [andb default] in P2. specialize (P2 ltac:(discriminate)). destruct (nodes e !! below T ns) as [[]|]; try contradiction; try exact P2; try (now elim W). rewrite <- P2. apply zip_directory_mode.
  Qed.
End ziptop.
