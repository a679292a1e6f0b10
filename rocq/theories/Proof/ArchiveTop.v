(** * Archives: into a new directory, into an old one, and only some members *)
From Coq Require Import String Ascii ZArith NArith List Bool Lia.
From stdpp Require Import gmap strings.
From Verif Require Import Model.Py Model.InstallDB Model.Path Model.Fs Model.Trace Model.Actions Model.Index Model.Archive Spec.PathSpec Spec.FsSpec Spec.ActionsSpec Spec.ArchiveSpec.
From Verif Require Import Proof.PyFacts Proof.InstallDBFacts Proof.PathFacts Proof.FsFacts Proof.TraceFacts Proof.ActionsPaths Proof.ActionsFacts Proof.ActionsTop Proof.ActionsExact Proof.ActionsMove Proof.ArchiveFacts Proof.ArchiveTree Proof.ArchiveTrip Proof.ArchiveZip Proof.ArchiveZipTop.
Import ListNotations.
Open Scope string_scope.
Open Scope prog_scope.

Lemma rmtree_at (f : fs) P q : rmtree f P !! q = if under P q then None else f !! q.
Proof.
  unfold rmtree. destruct (under P q) eqn:U.
  - apply map_filter_lookup_None. right. intros m _ K. cbn in K. congruence.
  - destruct (f !! q) eqn:Q; [apply map_filter_lookup_Some; now split|apply map_filter_lookup_None; now left].
Qed.

Section prepare.
  Context (cwd : string) (umask : N) (e : disk) (T : string) (Pl : placed (nodes e) T).
  Strategy 100 [locate] 1000 [walk].
  Definition emptied (e1 : disk) : Prop := stands (nodes e1) T /\ nodes e1 !! T = Some NDir /\ (forall q, beneath T q -> nodes e1 !! q = None) /\ forall q, ~ at_or_in T q -> same_at e e1 q.
  Lemma stands_child f P t : stands f P -> name t -> f !! (P ++ "/" ++ t) = Some NDir -> stands f (P ++ "/" ++ t).
  Proof.
    intros S Nt E. destruct (stands_root P f S) as (_ & R1 & R2 & _). pose proof S as (rs & Nr & Hr & Er & Dr). exists (rs ++ [t])%list. split; [destruct rs; discriminate|]. split; [apply names_app; split; [exact Hr|intros y [<-|[]]; exact Nt]|].
    assert (B : below "/" (rs ++ [t]) = P ++ "/" ++ t) by (rewrite below_app, <- Er; now apply one_below). split; [now symmetry|].
    intros a b Ea Na. destruct (nil_or_not b) as [->|Nb]; [rewrite app_nil_r in Ea; subst a; now rewrite B|]. destruct (exists_last Nb) as (b' & z & Eb). rewrite Eb, app_assoc in Ea. apply app_inj_tail in Ea as [Ea _]. now apply (Dr a b').
  Qed.
  Lemma fresh_adds e1 e2 P t m : T = P ++ "/" ++ t -> stands (nodes e1) P -> name t -> (forall q, at_or_in T q -> nodes e1 !! q = None) -> (forall q, ~ at_or_in T q -> same_at e e1 q) -> adds P e1 e2 [t] NDir m -> emptied e2.
  Proof.
    intros ET S Nt E O A. destruct (stands_root P _ S) as (_ & R1 & R2 & _). pose proof (adds_stands P e1 e2 [t] NDir m S (fun X => nil_cons (eq_sym X)) A) as S2. pose proof A as (A1 & _). rewrite one_below, <- ET in A1 by assumption.
    assert (X : nodes e2 !! T = Some NDir) by (rewrite A1; apply lookup_insert).
    split; [rewrite ET; apply stands_child; [exact S2|exact Nt|now rewrite <- ET]|]. split; [exact X|]. split.
    - intros q B. rewrite A1, lookup_insert_ne; [apply E; now right|]. intros <-. destruct B as [r B]. symmetry in B. now apply longer in B.
    - intros q Q. apply (same_at_trans e e1 e2); [now apply O|]. apply (adds_same _ _ _ _ _ _ q A). rewrite one_below by assumption. rewrite <- ET. intros ->. apply Q. now left.
  Qed.
  Lemma prepare_fresh clean : nothing_at e T -> does (prepare cwd umask T clean) e emptied.
  Proof.
    intros E. destruct Pl as (P & t & S & Nt & ET). destruct (stands_root P _ S) as (_ & R1 & R2 & _). assert (H : forall x, In x [t] -> name x) by (intros x [<-|[]]; exact Nt). assert (D : dirs_to P (nodes e) [t]) by (intros a b Ea Na Nb; exfalso; destruct a as [|a0 [|a1 a]]; [congruence| |discriminate Ea]; injection Ea as _ Ea; now destruct b).
    assert (B : below P [t] = T) by (rewrite one_below by assumption; now symmetry). assert (K : nodes e !! below P [t] = None) by (rewrite B; apply E; now left).
    unfold prepare. apply does_ask. pose proof (locate_fresh cwd P e [t] S H (fun X => nil_cons (eq_sym X)) D K true T) as L. unfold e_exists, os_stat. rewrite L by (left; now symmetry). rewrite (node_fresh P e [t] S) by (try discriminate; assumption). cbn [andb].
    eapply does_then; [apply does_ret with (R := fun e1 => e1 = e); reflexivity|]. intros e1 ->. eapply lift_does; [apply (makedirs_fresh cwd P e [t] S H (fun X => nil_cons (eq_sym X)) D K); left; now symmetry|].
    eapply fresh_adds; [exact ET|exact S|exact Nt|exact E|intros q _; apply same_at_refl|]. apply settle_adds. exact K.
  Qed.
  Lemma one_dirs P f t : dirs_to P f [t].
  Proof. intros a b Ea Na Nb. exfalso. destruct a as [|a0 [|a1 a]]; [congruence| |discriminate Ea]. injection Ea as _ Ea. now destruct b. Qed.
  Lemma prepare_clean : nodes e !! T = Some NDir -> does (prepare cwd umask T true) e emptied.
  Proof.
    intros E. destruct Pl as (P & t & S & Nt & ET). destruct (stands_root P _ S) as (_ & R1 & R2 & _). assert (H : forall x, In x [t] -> name x) by (intros x [<-|[]]; exact Nt).
    assert (B : below P [t] = T) by (rewrite one_below by assumption; now symmetry).
    assert (L : forall fl, locate cwd fl (nodes e) T = Some T) by (intros fl; rewrite <- B; apply locate_reached; [exact S|exact H|discriminate|apply one_dirs|intros u; rewrite B, E; discriminate]).
    assert (Nd : node_at (nodes e) T = Some NDir) by (rewrite <- B, node_at_below by assumption; now rewrite B).
    unfold prepare. apply does_ask. unfold e_exists, os_stat. rewrite L, Nd. cbn [andb].
    assert (Rm : shutil_rmtree cwd T (nodes e) = ([rmtree (nodes e) T], Ok tt)) by (unfold shutil_rmtree; rewrite ask_eq, L, Nd; replace (String.eqb T "/") with false by (rewrite <- B; symmetry; now apply not_top); reflexivity).
    set (e1 := settle umask e (rmtree (nodes e) T)). eapply does_then; [apply (lift_does umask _ _ _ (fun x => x = e1) Rm); reflexivity|]. intros x ->.
    assert (N1 : forall q, nodes e1 !! q = if under T q then None else nodes e !! q) by (intros q; apply rmtree_at).
    assert (O1 : forall q, ~ at_or_in T q -> same_at e e1 q).
    { intros q Q. assert (U : under T q = false) by (apply not_true_iff_false; intros U; apply Q; now apply under_spec). split; [now rewrite N1, U|]. intros Ne. unfold e1. rewrite settle_mode, rmtree_at, U. now destruct (nodes e !! q). }
    assert (S1 : stands (nodes e1) P) by (apply (stands_same P (nodes e)); [|exact S]; intros q Q; apply O1; intros J; apply Q; rewrite ET in J; now apply (at_or_in_up P t)).
    assert (E1 : forall q, at_or_in T q -> nodes e1 !! q = None) by (intros q Q; apply under_spec in Q; now rewrite N1, Q).
    assert (K : nodes e1 !! below P [t] = None) by (rewrite B; apply E1; now left).
    eapply lift_does; [apply (makedirs_fresh cwd P e1 [t] S1 H (fun X => nil_cons (eq_sym X)) (one_dirs P _ t) K); left; now symmetry|].
    eapply fresh_adds; [exact ET|exact S1|exact Nt|exact E1|exact O1|]. apply settle_adds. exact K.
  Qed.
  Lemma prepare_exists : nodes e !! T <> None -> prepare cwd umask T false e = ([], Err EOS).
  Proof.
    intros E. destruct Pl as (P & t & S & Nt & ET). destruct (stands_root P _ S) as (_ & R1 & R2 & _). assert (H : forall x, In x [t] -> name x) by (intros x [<-|[]]; exact Nt).
    assert (B : below P [t] = T) by (rewrite one_below by assumption; now symmetry).
    assert (L : locate cwd false (nodes e) T = Some T) by (rewrite <- B; pose proof (locate_reach cwd P false (nodes e) [t] S H (one_dirs P _ t) (fun X _ => False_ind _ (diff_false_true X))) as L; exact L).
    assert (Nd : node_at (nodes e) T = nodes e !! T) by (rewrite <- B; now apply node_at_below).
    destruct (below_parts P _ S [] t H) as (Dn & Bn & Nn & Nb). cbn [app] in Dn, Bn. rewrite B in Dn, Bn. cbn [below] in Dn.
    unfold prepare. rewrite ask_eq, andb_false_r. unfold lift.
    assert (M : os_makedirs cwd (Datatypes.S (String.length T)) T (nodes e) = ([], Err EOS)).
    { cbn [os_makedirs]. rewrite ask_eq, Bn, (proj2 (String.eqb_neq _ _) Nn), Dn, Bn, (proj2 (String.eqb_neq _ _) Nn), (proj2 (String.eqb_neq _ _) R2). cbn [negb andb]. rewrite e_exists_root by exact S. cbn [negb]. unfold os_mkdir. rewrite ask_eq, L, Nd. destruct (nodes e !! T); [reflexivity|congruence]. }
    unfold andthen, ret. cbn [fst snd List.last]. rewrite M. reflexivity.
  Qed.
End prepare.

(** ** Some of the members *)
Lemma select {M} (P : string -> list M -> Prop) (h : M -> bool) xs As : Forall2 P xs As -> forall sel : string -> bool, (forall x A, In x xs -> P x A -> forall m, In m A -> h m = sel x) ->
  exists Bs, Forall2 P (List.filter sel xs) Bs /\ List.filter h (concat As) = concat Bs.
Proof.
  intros F sel Hs. induction F as [|x A xs As F1 F2 IF]; [exists []; split; [constructor|reflexivity]|]. destruct IF as (Bs & G1 & G2); [intros y B I; apply Hs; now right|]. cbn [concat List.filter]. rewrite List.filter_app, G2.
  assert (K : List.filter h A = if sel x then A else []).
  { pose proof (Hs x A (or_introl eq_refl) F1) as K. clear - K. induction A as [|m A IA]; [now destruct (sel x)|]. cbn [List.filter]. rewrite (K m (or_introl eq_refl)), IA by (intros m' I; apply K; now right). now destruct (sel x). }
  rewrite K. destruct (sel x); [exists (A :: Bs); split; [now constructor|reflexivity]|exists Bs; now split].
Qed.

Lemma final_is {S} (p : prog S unit) s (Q : S -> Prop) : does p s Q -> result p s = Ok tt /\ Q (final p s). Proof. intros H. exact H. Qed.
Lemma does_same {S} (p q : prog S unit) s (Q : S -> Prop) : p s = q s -> does p s Q -> does q s Q.
Proof. intros E. unfold does, result, final. now rewrite E. Qed.

Section round.
  Context (d : disk) (C : string) (SC : stands (nodes d) C) (Rd : real (nodes d)) (order : string -> list string -> list string) (Or : any_listing order) (n : nat).
  Context (xs : list string) (Tp : to_pack d C xs) (As : list (list member)) (Q : Py.mapM (fun x => add_to_archive C order n d x "") xs = Ok As).
  Context (Td : forall x, In x xs -> tidy d (C ++ "/" ++ x)) (cwd : string) (umask : N) (e : disk) (T : string) (Tb : ~ ends_blank T).
  Notation whole := (concat As).
  Lemma all_members e1 : stands (nodes e1) T -> (forall x, In x xs -> nothing_at e1 (T ++ "/" ++ x)) ->
    does (unpack_file_cond cwd umask (fun _ => true) whole T "") e1 (fun e' => all_copied zip_file_keeps zip_dir_keeps d e' C T xs /\ only_in e1 e' T xs).
  Proof.
    intros S E. destruct (stands_root T _ S) as (_ & R1 & R2 & _). assert (B : forall x, below T [x] = T ++ "/" ++ x) by (intros x; now apply one_below). assert (Bc : forall x, below C [x] = C ++ "/" ++ x) by (intros x; apply (cx d C SC)).
    eapply does_same; [reflexivity|]. unfold unpack_file_cond.
    pose proof (zip_tops d C SC Rd order Or n xs Tp As Q cwd T umask Td Tb [] (fun x I => False_ind _ I) n xs As e1 (tops d C SC Rd order Or n xs Tp As Q) (fun m I => I)) as Z. cbn [String.concat app] in Z.
    eapply does_weaken; [apply Z|].
    - apply Tp.
    - intros y I. now apply Tp.
    - exact S.
    - intros y I. rewrite B. now apply E.
    - intros e' (_ & K1 & K2). split.
      + intros x I. specialize (K1 x I). now rewrite B, Bc in K1.
      + intros q O. apply K2. intros y I. rewrite B. now apply O.
  Qed.
  (** Into a directory that is not there, or that is emptied first *)
  Lemma zip_round_trip clean : placed (nodes e) T -> nothing_at e T \/ (clean = true /\ nodes e !! T = Some NDir) ->
    does (unpack_zip cwd umask whole T clean) e (fun e' => all_copied zip_file_keeps zip_dir_keeps d e' C T xs /\ new_directory e e' T xs).
  Proof.
    intros Pl K. unfold unpack_zip. eapply does_then with (Q := emptied e T).
    - destruct K as [K|[-> K]]; [now apply prepare_fresh|now apply prepare_clean].
    - intros e1 (S1 & D1 & E1 & O1). eapply does_weaken; [apply all_members; [exact S1|]|].
      + intros x I q J. apply E1. now apply (at_or_in_up T x).
      + intros e' [K1 K2]. split; [exact K1|]. assert (Up : forall x q, at_or_in (T ++ "/" ++ x) q -> beneath T q) by (intros x q; apply at_or_in_up). split; [|split].
        * destruct (K2 T) as [K3 _]; [intros x _ J; apply Up in J as [r J]; symmetry in J; now apply longer in J|]. now rewrite K3.
        * intros q B Nq. destruct (existsb (fun x => under (T ++ "/" ++ x) q) xs) eqn:G.
          -- apply existsb_exists in G as (x & Ix & U). exists x. split; [exact Ix|]. now apply under_spec.
          -- exfalso. apply Nq. destruct (K2 q) as [K3 _]; [|rewrite K3; now apply E1]. intros x Ix J. apply under_spec in J. assert (existsb (fun x => under (T ++ "/" ++ x) q) xs = true) by (apply existsb_exists; now exists x). congruence.
        * intros q J. apply (same_at_trans e e1 e'); [now apply O1|]. apply K2. intros x _ J'. apply J. right. now apply (Up x).
  Qed.
  Lemma zip_no_clean : placed (nodes e) T -> nodes e !! T <> None -> unpack_zip cwd umask whole T false e = ([], Err EOS).
  Proof. intros Pl K. unfold unpack_zip, andthen. now rewrite (prepare_exists cwd umask e T Pl K). Qed.

  Lemma named_in y m : name y -> described d C [y] m -> exists ks, (forall x, In x ks -> name x) /\ (m_name m = String.concat "/" ([y] ++ ks) \/ m_name m = String.concat "/" ([y] ++ ks) ++ "/").
  Proof. intros Ny (ks & Hk & K). exists ks. split; [exact Hk|]. destruct K as [[_ ->]|[(c & _ & ->)|(t & _ & ->)]]; cbn [m_name zdir zfile zlink]; auto. Qed.
  Lemma subpath_top x y m : name x -> name y -> described d C [y] m -> subpath x (m_name m) = String.eqb x y.
  Proof.
    intros Nx Ny De. destruct (named_in y m Ny De) as (ks & Hk & K). assert (Hy : forall z, In z ([y] ++ ks) -> name z) by (apply names_app; split; [intros z [<-|[]]; exact Ny|exact Hk]).
    pose proof (subpath_concat [x] ([y] ++ ks) (m_name m) (fun X => nil_cons (eq_sym X)) (fun X => nil_cons (eq_sym X)) (fun z I => match I with or_introl E => eq_ind x name Nx z E | or_intror F => False_ind _ F end) Hy K) as S. cbn [String.concat] in S.
    destruct (String.eqb_spec x y) as [->|Ne]; [apply S; now exists ks|]. apply not_true_iff_false. intros X. apply S in X as [k X]. injection X as X _. congruence.
  Qed.
  Lemma top_part h sel : (forall x m, In x xs -> described d C [x] m -> h (m_name m) = sel x) ->
    exists Bs, Forall2 (fun x => packed zdir zfile zlink d C n [x]) (List.filter sel xs) Bs /\ List.filter (fun m => h (m_name m)) whole = concat Bs /\ incl (concat Bs) whole.
  Proof.
    intros Hs. destruct (select _ (fun m => h (m_name m)) xs As (tops d C SC Rd order Or n xs Tp As Q) sel) as (Bs & F & E).
    - intros x A Ix P m Im. apply Hs; [exact Ix|]. exact (packed_described d C n [x] A P m Im).
    - exists Bs. split; [exact F|]. split; [exact E|]. rewrite <- E. intros m I. apply List.filter_In in I. apply I.
  Qed.
  (** Those chosen, with nothing in their places *)
  Lemma zip_some h sel : stands (nodes e) T -> (forall x m, In x xs -> described d C [x] m -> h (m_name m) = sel x) -> (forall x, In x xs -> sel x = true -> nothing_at e (T ++ "/" ++ x)) ->
    does (unpack_file_cond cwd umask h whole T "") e (fun e' => all_copied zip_file_keeps zip_dir_keeps d e' C T (List.filter sel xs) /\ only_in e e' T (List.filter sel xs)).
  Proof.
    intros S Hs E. destruct (stands_root T _ S) as (_ & R1 & R2 & _). assert (B : forall x, below T [x] = T ++ "/" ++ x) by (intros x; now apply one_below). assert (Bc : forall x, below C [x] = C ++ "/" ++ x) by (intros x; apply (cx d C SC)).
    destruct (top_part h sel Hs) as (Bs & F & Eb & I). eapply does_same; [symmetry; apply each_filter|]. rewrite Eb.
    pose proof (zip_tops d C SC Rd order Or n xs Tp As Q cwd T umask Td Tb [] (fun x I => False_ind _ I) n (List.filter sel xs) Bs e F I) as Z. cbn [String.concat app] in Z.
    eapply does_weaken; [apply Z|].
    - apply List.NoDup_filter, Tp.
    - intros y J. apply List.filter_In in J. now apply Tp.
    - exact S.
    - intros y J. apply List.filter_In in J as [J1 J2]. rewrite B. now apply E.
    - intros e' (_ & K1 & K2). split.
      + intros x J. specialize (K1 x J). now rewrite B, Bc in K1.
      + intros q O. apply K2. intros y J. rewrite B. now apply O.
  Qed.
  Lemma zip_dir_only x : stands (nodes e) T -> In x xs -> nothing_at e (T ++ "/" ++ x) ->
    does (unpack_dir cwd umask x whole T) e (fun e' => copied zip_file_keeps zip_dir_keeps d e' (C ++ "/" ++ x) (T ++ "/" ++ x) /\ only_in e e' T [x]).
  Proof.
    intros S Ix E. assert (Nx : name x) by now apply Tp. unfold unpack_dir. assert (Fi : forall y, In y (List.filter (String.eqb x) xs) <-> y = x) by (intros y; rewrite List.filter_In, String.eqb_eq; split; [now intros [_ ->]|intros ->; now split]).
    eapply does_weaken; [apply (zip_some (subpath x) (String.eqb x) S)|].
    - intros y m Iy De. apply subpath_top; [exact Nx|now apply Tp|exact De].
    - intros y Iy Ey. apply String.eqb_eq in Ey. now subst y.
    - intros e' [K1 K2]. split; [apply K1; now apply Fi|]. intros q O. apply K2. intros y J. apply Fi in J. subst y. apply O. now left.
  Qed.
  Lemma zip_files ps : stands (nodes e) T -> (forall x, In x ps -> name x) -> (forall x, In x ps -> In x xs -> nodes d !! (C ++ "/" ++ x) <> Some NDir /\ nothing_at e (T ++ "/" ++ x)) ->
    does (unpack_files cwd umask ps whole T) e (fun e' => (forall x, In x ps -> In x xs -> copied zip_file_keeps zip_dir_keeps d e' (C ++ "/" ++ x) (T ++ "/" ++ x)) /\ only_in e e' T (List.filter (fun x => existsb (String.eqb x) xs) ps)).
  Proof.
    intros S Np K. set (sel := fun x => existsb (String.eqb x) ps). assert (Se : forall x, sel x = true <-> In x ps) by (intros x; unfold sel; rewrite existsb_exists; split; [intros (y & Iy & Ey); apply String.eqb_eq in Ey; now subst|intros I; exists x; split; [exact I|apply String.eqb_refl]]).
    unfold unpack_files. eapply does_weaken; [apply (zip_some _ sel S)|].
    - intros x m Ix De. cbn beta. assert (Nx : name x) by now apply Tp. destruct De as (ks & Hk & De). assert (Hx : forall z, In z ([x] ++ ks) -> name z) by (apply names_app; split; [intros z [<-|[]]; exact Nx|exact Hk]).
      assert (One : forall p, In p ps -> m_name m = p -> ks = [] /\ p = x /\ nodes d !! (C ++ "/" ++ x) <> Some NDir).
      { intros p Ip E. pose proof (Np p Ip) as Hp. assert (Hp1 : forall z, In z [p] -> name z) by (intros z [<-|[]]; exact Hp). destruct De as [[Nd ->]|De].
        - exfalso. cbn [m_name zdir] in E. destruct Hp as (_ & _ & _ & Fp). apply Fp. rewrite <- E. clear. induction (String.concat "/" ([x] ++ ks)) as [|c r IH]; [now left|right; exact IH].
        - assert (Mn : m_name m = String.concat "/" ([x] ++ ks)) by (destruct De as [(c & _ & ->)|(t & _ & ->)]; reflexivity). rewrite Mn in E. change p with (String.concat "/" [p]) in E. apply concat_inj in E; [|discriminate|discriminate|exact Hx|exact Hp1]. injection E as E1 E2. subst. split; [reflexivity|]. split; [reflexivity|].
          cbn [app] in De. rewrite <- (cx d C SC). destruct De as [(c & Nd & _)|(t & Nd & _)]; rewrite Nd; discriminate. }
      destruct (sel x) eqn:Sx.
      + apply Se in Sx. apply existsb_exists. destruct (K x Sx Ix) as [Nd _]. exists x. split; [exact Sx|]. rewrite <- (cx d C SC) in Nd.
        assert (Ek : ks = []).
        { destruct (nil_or_not ks) as [->|Nk]; [reflexivity|]. exfalso. destruct (exists_last Nk) as (a & z & Ez).
          assert (Pr : nodes d !! below C ([x] ++ ks) <> None) by (destruct De as [[D0 _]|[(c & D0 & _)|(t & D0 & _)]]; rewrite D0; discriminate).
          pose proof (real_dirs d C SC Rd ([x] ++ ks) (fun X => nil_cons (eq_sym X)) Hx Pr) as D0. apply Nd. apply (D0 [x] ks eq_refl); [discriminate|exact Nk]. }
        subst ks. rewrite app_nil_r in De. destruct De as [[D0 _]|[(c & _ & ->)|(t & _ & ->)]]; [congruence| |]; cbn [m_name zfile zlink String.concat]; apply String.eqb_refl.
      + apply not_true_iff_false. intros X. apply existsb_exists in X as (p & Ip & Ep). apply String.eqb_eq in Ep. destruct (One p Ip Ep) as (_ & -> & _). assert (sel x = true) by now apply Se. congruence.
    - intros x Ix Sx. apply Se in Sx. now apply K.
    - intros e' [K1 K2]. split; [intros x Ip Ix; apply K1; apply List.filter_In; split; [exact Ix|now apply Se]|]. intros q O. apply K2. intros y J. apply List.filter_In in J as [J1 J2]. apply Se in J2. apply O. apply List.filter_In. split; [exact J2|]. apply existsb_exists. exists y. split; [exact J1|apply String.eqb_refl].
  Qed.
  (** The content of a directory, without the directory *)
  Lemma zip_flat x ys : stands (nodes e) T -> In x xs -> nodes d !! (C ++ "/" ++ x) = Some NDir -> content d (C ++ "/" ++ x) ys -> (forall y, In y ys -> nothing_at e (T ++ "/" ++ y)) ->
    does (unpack_dir_flat cwd umask x whole T) e (fun e' => all_copied zip_file_keeps zip_dir_keeps d e' (C ++ "/" ++ x) T ys /\ only_in e e' T ys).
  Proof.
    intros S Ix Dx Co E. assert (Nx : name x) by now apply Tp. assert (Hx : forall z, In z [x] -> name z) by (intros z [<-|[]]; exact Nx). destruct (stands_root T _ S) as (_ & R1 & R2 & R3). assert (B : forall x, below T [x] = T ++ "/" ++ x) by (intros z; now apply one_below).
    destruct (top_part (subpath x) (String.eqb x)) as (Bs & F & Eb & I); [intros y m Iy De; apply subpath_top; [exact Nx|now apply Tp|exact De]|].
    unfold unpack_dir_flat. eapply does_same; [symmetry; apply each_filter|]. rewrite Eb.
    assert (Fx : List.filter (String.eqb x) xs = [x]).
    { destruct Tp as [Nd _]. clear - Nd Ix. induction xs as [|y l IH]; [destruct Ix|]. inversion Nd as [|? ? N1 N2]; subst. cbn [List.filter]. destruct (String.eqb_spec x y) as [->|Ne].
      - f_equal. clear - N1. induction l as [|z l IH]; [reflexivity|]. cbn [List.filter]. destruct (String.eqb_spec y z) as [->|]; [destruct N1; now left|]. apply IH. intros J. apply N1. now right.
      - apply IH; [destruct Ix as [->|Ix]; [congruence|exact Ix]|exact N2]. }
    rewrite Fx in F. destruct Bs as [|A [|A' Bs]]; [inversion F| |inversion F as [|? ? ? ? _ F']; inversion F']. apply Forall2_cons in F as [Pk _]. cbn [concat] in *. rewrite app_nil_r in *.
    destruct n as [|k]; [contradiction|]. cbn [packed] in Pk. rewrite (cx d C SC), Dx in Pk. destruct Pk as (zs & Zs & Nd & Ch & Fz & ->).
    assert (Ch' : forall y, In y zs <-> In y ys). { intros y. rewrite Ch, (Co y). cbn [app]. change [x; y] with ([x] ++ [y])%list. rewrite below_child by first [apply (C1 d C SC)|apply (C2 d C SC)]. rewrite (cx d C SC). now rewrite str_app_assoc. }
    cbn [each]. eapply does_then with (Q := fun e1 => e1 = e).
    - unfold unpack_member. assert (O : out_path x (m_name (zdir [x] (mode_of d (C ++ "/" ++ x)))) = Some "").
      { unfold out_path. cbn [m_name zdir]. destruct Nx as (Nx0 & _). rewrite (proj2 (String.eqb_neq _ _) Nx0). change x with (String.concat "/" [x]) at 1 3.
        rewrite (proj2 (subpath_concat [x] [x] (String.concat "/" [x] ++ "/") (fun X => nil_cons (eq_sym X)) (fun X => nil_cons (eq_sym X)) Hx Hx (or_intror eq_refl))) by now exists [].
        pose proof (removepathprefix_concat [x] [] (String.concat "/" [x] ++ "/") (fun X => nil_cons (eq_sym X)) Hx (fun z I => False_ind _ I) (or_intror eq_refl)) as Rm. cbn [String.concat] in Rm |- *. now rewrite Rm. }
      rewrite O. replace (py_endswith (m_name (zdir [x] (mode_of d (C ++ "/" ++ x)))) "/") with true by (symmetry; apply endswith_iff; now exists x).
      apply does_ask. assert (J : os_join T "" = T ++ "/").
      { unfold os_join. rewrite (proj2 (String.eqb_neq _ _) R2). replace (py_startswith "" "/") with false by reflexivity. replace (py_endswith T "/") with false by (symmetry; apply not_true_iff_false; intros X; apply R3; apply endswith_iff in X; exact X). cbn [orb]. now rewrite str_app_nil_r. }
      rewrite J. replace (e_isdir cwd (nodes e) (T ++ "/")) with true; [now apply does_ret|]. symmetry. unfold e_isdir, os_stat.
      assert (L : locate cwd true (nodes e) (T ++ "/") = Some T).
      { pose proof S as (rs & Nr & Hr & Er & Dr). rewrite Er, locate_abs, split_below_slash by first [assumption|now apply below_starts]. rewrite walk_cons. cbn [String.eqb orb]. rewrite walk_dirs; [|exact Hr|].
        - rewrite walk_cons. cbn [String.eqb orb]. apply walk_nil.
        - intros a b Ea Na. rewrite node_at_map; [now apply (Dr a b)|]. apply absolute_root, below_absolute; [now left|intros m J'; apply Hr; rewrite Ea, in_app_iff; now left|exact Na]. }
      rewrite L. pose proof S as (rs & Nr & Hr & Er & Dr). rewrite node_at_map by exact R1. rewrite Er, (Dr rs []); [reflexivity|now rewrite app_nil_r|exact Nr].
    - intros e1 ->.
      pose proof (zip_tops d C SC Rd order Or (Datatypes.S k) xs Tp As Q cwd T umask Td Tb [x] Hx k zs Zs e Fz (fun m J => I m (or_intror J)) Nd) as Z. cbn [String.concat app] in Z.
      eapply does_weaken; [apply Z|].
      + intros y J. now apply Ch in J.
      + exact S.
      + intros y J. rewrite B. apply E. now apply Ch'.
      + intros e' (_ & K1 & K2). split.
        * intros y J. apply Ch' in J. specialize (K1 y J). rewrite B in K1. change [x; y] with ([x] ++ [y])%list in K1. rewrite below_child in K1 by first [apply (C1 d C SC)|apply (C2 d C SC)]. rewrite (cx d C SC) in K1. exact K1.
        * intros q O. apply K2. intros y J. rewrite B. apply O. now apply Ch'.
  Qed.
End round.

(** ** A file that is not an archive *)
Section binary.
  Context (cwd : string) (umask : N) (e : disk) (T : string) (clean : bool) (Pl : placed (nodes e) T) (K : nothing_at e T \/ (clean = true /\ nodes e !! T = Some NDir)).
  Context (P n c : string) (SP : stands (nodes e) P) (Nn : name n) (F : nodes e !! (P ++ "/" ++ n) = Some (NFile c)) (Out : ~ at_or_in T (P ++ "/" ++ n)).
  Strategy 100 [locate] 1000 [walk].
  Lemma binary_copied : does (unpack_binary cwd umask (P ++ "/" ++ n) T clean) e
    (fun e' => nodes e' !! (T ++ "/" ++ n) = Some (NFile c) /\ mode_of e' (T ++ "/" ++ n) = N.ldiff 0x1B6 umask /\ new_directory e e' T [n]).
  Proof.
    unfold unpack_binary. eapply does_then with (Q := emptied e T).
    - destruct K as [K0|[-> K0]]; [now apply prepare_fresh|now apply prepare_clean].
    - intros e1 (S1 & D1 & E1 & O1). apply does_ask. assert (Hn : forall x, In x [n] -> name x) by (intros x [<-|[]]; exact Nn). destruct (stands_root P _ SP) as (_ & P1 & P2 & _). destruct (stands_root T _ S1) as (_ & T1 & T2 & T3).
      assert (BP : below P [n] = P ++ "/" ++ n) by now apply one_below. assert (BT : below T [n] = T ++ "/" ++ n) by now apply one_below.
      assert (SP1 : stands (nodes e1) P).
      { pose proof SP as (rs & Nr & Hr & Er & Dr). exists rs. split; [exact Nr|]. split; [exact Hr|]. split; [exact Er|]. intros a b Ea Na. destruct (O1 (below "/" a)) as [X _]; [|rewrite X; now apply (Dr a b)].
        intros A. apply Out. assert (Z : at_or_in (below "/" a) (P ++ "/" ++ n)).
        { right. assert (Q : P ++ "/" ++ n = below (below "/" a) (b ++ [n])) by (rewrite <- below_app, app_assoc, <- Ea, below_app, <- Er; now symmetry). rewrite Q. eexists. apply below_text; [|intros X; rewrite X in *|destruct b; discriminate].
          - apply absolute_root, below_absolute; [now left| |exact Na]. intros x J. apply Hr. rewrite Ea, in_app_iff. now left.
          - assert (A' : absolute (below "/" a)) by (apply below_absolute; [now left| |exact Na]; intros x J; apply Hr; rewrite Ea, in_app_iff; now left). rewrite X in A'. destruct A' as (r & _ & A'). discriminate A'. }
        destruct A as [A|[r A]]; rewrite A in Z; [exact Z|]. destruct Z as [Z|[r' Z]]; right; [exists r; now rewrite Z|]. exists (r ++ "/" ++ r'). now rewrite Z, !str_app_assoc. }
      assert (F1 : nodes e1 !! (P ++ "/" ++ n) = Some (NFile c)) by (destruct (O1 (P ++ "/" ++ n) Out) as [X _]; now rewrite X).
      assert (L : locate cwd true (nodes e1) (P ++ "/" ++ n) = Some (P ++ "/" ++ n)) by (rewrite <- BP; apply locate_reached; [exact SP1|exact Hn|discriminate|apply one_dirs|intros u; rewrite BP, F1; discriminate]).
      unfold os_stat. rewrite L. assert (Nd : node_at (nodes e1) (P ++ "/" ++ n) = Some (NFile c)) by (rewrite <- BP, node_at_below by assumption; now rewrite BP). rewrite Nd.
      assert (Bn : basename (P ++ "/" ++ n) = n) by (apply basename_under; apply Nn). rewrite Bn.
      assert (J : os_join T n = below T [n]). { unfold os_join. pose proof (concat_relative [n] Hn) as R. cbn [String.concat] in R. rewrite R, (proj2 (String.eqb_neq _ _) T2). replace (py_endswith T "/") with false by (symmetry; apply not_true_iff_false; intros E; apply T3; apply endswith_iff in E; exact E). cbn [orb]. now rewrite BT. }
      rewrite J. assert (K1 : nodes e1 !! below T [n] = None) by (apply E1; rewrite BT; now exists n). pose proof (write_fresh cwd T e1 [n] S1 Hn (fun X => nil_cons (eq_sym X)) (one_dirs T (nodes e1) n) K1 c) as W.
      unfold does, result, final, lift. rewrite W. cbn [fst snd settle_all List.last]. split; [reflexivity|]. pose proof (settle_adds T umask e1 [n] (NFile "") K1) as A0. pose proof (adds_over T umask _ _ _ _ _ (NFile c) A0) as A1. pose proof A0 as (_ & Md & _). rewrite Md in A1 by discriminate.
      pose proof A1 as (X1 & X2 & _). cbn [nodes settle] in X1. rewrite <- BT. split; [cbn [nodes settle]; rewrite lookup_insert; reflexivity|]. split; [apply X2; discriminate|]. split; [|split].
      + cbn [nodes settle]. rewrite !lookup_insert_ne; [exact D1| |]; intros Z; rewrite BT in Z; now apply longer in Z.
      + intros q Bq Nq. exists n. split; [now left|]. left. rewrite <- BT. destruct (decide (q = below T [n])) as [Eq|Ne]; [exact Eq|]. exfalso. apply Nq. cbn [nodes settle]. rewrite !lookup_insert_ne by congruence. now apply E1.
      + intros q Q. apply (same_at_trans e e1); [now apply O1|]. apply (adds_same _ _ _ _ _ _ q A1). intros ->. apply Q. right. rewrite BT. now exists n.
  Qed.
End binary.
