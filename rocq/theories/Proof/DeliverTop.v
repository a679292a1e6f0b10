(** * Packages delivered *)
From Coq Require Import String Ascii ZArith NArith List Bool Lia.
From stdpp Require Import gmap strings.
From Verif Require Import Model.Py Model.InstallDB Model.Path Model.Fs Model.Trace Model.Actions Model.Index Model.Archive Model.Deliver Spec.PathSpec Spec.FsSpec Spec.ActionsSpec Spec.ArchiveSpec Spec.DeliverSpec.
From Verif Require Import Proof.PyFacts Proof.InstallDBFacts Proof.PathFacts Proof.FsFacts Proof.TraceFacts Proof.ActionsPaths Proof.ActionsFacts Proof.ActionsTop Proof.ActionsExact Proof.ActionsMove Proof.ArchiveFacts Proof.ArchiveTree Proof.ArchiveTrip Proof.ArchiveZip Proof.ArchiveTar Proof.DeliverFacts Proof.DeliverTar.
Import ListNotations.
Open Scope string_scope.
Open Scope prog_scope.

(** ** One after the other *)
Section fold.
  Context {M : Type} (rs : list string) (HR : forall n, In n rs -> name n) (umask : N) (h : M -> prog disk unit).
  Notation T := (below "/" rs).
  (** What a member brings: a thing, with modes as said; [old]: a directory that is there stays as it is *)
  Context (brings : list string -> M -> node -> (N -> Prop) -> Prop) (old : bool).
  Definition allowed (f : fs) (ns : list string) (x : node) : Prop := welcome f T ns (Some x).
  Context (Step : forall ns m x K s, brings ns m x K -> (forall n, In n ns -> name n) -> ns <> [] -> real (nodes s) -> destined (nodes s) rs -> allowed (nodes s) ns x ->
    does (h m) s (fun s' => if old && match nodes s !! below T ns with Some NDir => true | _ => false end then s' = s else put rs umask s s' ns x K)).

  Context (e : disk) (ls : list (list string)) (Re : real (nodes e)) (De : destined (nodes e) rs).
  Context (Hls : forall ns, In ns ls -> ns <> [] /\ forall n, In n ns -> name n) (Nd : List.NoDup ls) (Apart : forall a b, In a ls -> In (a ++ b)%list ls -> b = []).
  Context (what : list string -> node) (modes_ : list string -> N -> Prop).
  Context (Ready : forall ns, In ns ls -> allowed (nodes e) ns (what ns)).

  Definition placed_ (s : disk) (ns : list string) : Prop :=
    nodes s !! below T ns = Some (what ns) /\ ((forall t, what ns <> NLink t) -> if old && match nodes e !! below T ns with Some NDir => true | _ => false end then mode_of s (below T ns) = mode_of e (below T ns) else modes_ ns (mode_of s (below T ns))).
  Definition so_far (done : list (list string)) (s : disk) : Prop :=
    real (nodes s) /\ destined (nodes s) rs /\ (forall ns, In ns done -> placed_ s ns) /\ nothing_else umask e s T done.

  Lemma names_in ns : In ns ls -> forall n, In n ns -> name n. Proof. intros I. now apply Hls. Qed.
  (** Places still to come *)
  Lemma to_come done l s ns : ls = (done ++ l)%list -> so_far done s -> In ns l -> nodes s !! below T ns = nodes e !! below T ns /\ (nodes e !! below T ns <> None -> mode_of s (below T ns) = mode_of e (below T ns)).
  Proof.
    intros El (_ & _ & _ & O) I. assert (Il : In ns ls) by (rewrite El, in_app_iff; now right).
    destruct (O (below T ns)) as [S|[(ns' & a & b & I' & E' & Na & Nb & X) _]]; [|exact S|].
    - intros ns' I' X. assert (Il' : In ns' ls) by (rewrite El, in_app_iff; now left). apply place_inj in X; [|exact HR|now apply names_in|now apply names_in]. subst ns'. rewrite El in Nd.
      apply in_split in I as (l1 & l2 & ->). rewrite app_assoc in Nd. apply List.NoDup_remove_2 in Nd. apply Nd. rewrite !in_app_iff. left. now left.
    - exfalso. assert (Il' : In ns' ls) by (rewrite El, in_app_iff; now left). apply place_inj in X; [|exact HR|now apply names_in|apply (prefix_names a b ns' E'); now apply names_in]. subst a. apply Nb. apply (Apart ns b); [exact Il|now rewrite <- E'].
  Qed.
  Lemma still done l s ns : ls = (done ++ l)%list -> so_far done s -> In ns l -> allowed (nodes s) ns (what ns).
  Proof.
    intros El Sf I. assert (Il : In ns ls) by (rewrite El, in_app_iff; now right). destruct (Ready ns Il) as [W1 W2]. split; [|destruct (to_come done l s ns El Sf I) as [X _]; rewrite X; exact W2].
    intros a b E Na Nb. destruct Sf as (_ & _ & _ & O). destruct (O (below T a)) as [[S _]|[_ (_ & S & _)]]; [|rewrite S; now apply (W1 a b)|now right].
    intros ns' I' X. assert (Il' : In ns' ls) by (rewrite El, in_app_iff; now left). apply place_inj in X; [|exact HR|apply (prefix_names a b ns E); now apply names_in|now apply names_in]. subst a. apply Nb. apply (Apart ns' b); [exact Il'|now rewrite <- E].
  Qed.
  Lemma advance done l s s' ns : ls = (done ++ ns :: l)%list -> so_far done s ->
    (if old && match nodes s !! below T ns with Some NDir => true | _ => false end then s' = s else put rs umask s s' ns (what ns) (modes_ ns)) -> so_far (done ++ [ns]) s'.
  Proof.
    intros El Sf. destruct (to_come done (ns :: l) s ns El Sf (or_introl eq_refl)) as [X Xm]. pose proof (still done (ns :: l) s ns El Sf (or_introl eq_refl)) as [_ Al]. pose proof Sf as (Rs & Ds & Pl & O). assert (Il : In ns ls) by (rewrite El, in_app_iff; right; now left). destruct (old && _) eqn:Old.
    - intros ->. apply andb_true_iff in Old as [Old1 Old2]. destruct (nodes s !! below T ns) as [[]|] eqn:Y; try discriminate Old2. split; [exact Rs|]. split; [exact Ds|]. split.
      + intros k I. apply in_app_iff in I as [I|[<-|[]]]; [now apply Pl|]. split; [rewrite Y; congruence|]. intros _. rewrite Old1, <- X. cbn [andb]. apply Xm. rewrite <- X. discriminate.
      + intros q Nq. destruct (O q) as [S|[(k & a & b & I & Z) W]]; [intros k I; apply Nq; rewrite in_app_iff; now left|now left|right]. split; [|exact W]. exists k, a, b. split; [rewrite in_app_iff; now left|exact Z].
    - intros (D' & R' & Pn & Pm & Po). split; [exact R'|]. split; [exact D'|]. split.
      + intros k I. apply in_app_iff in I as [I|[<-|[]]].
        * destruct (Pl k I) as [P1 P2]. assert (Ne : below T k <> below T ns).
          { intros E. assert (Ik : In k ls) by (rewrite El, in_app_iff; now left). apply place_inj in E; [|exact HR|now apply names_in|now apply names_in]. subst k. rewrite El in Nd. apply List.NoDup_remove_2 in Nd. apply Nd. rewrite in_app_iff. now left. }
          destruct (Po (below T k) Ne) as [[S1 S2]|[(S1 & _) _]]; [|congruence]. split; [congruence|]. intros V. rewrite S2 by congruence. now apply P2.
        * split; [exact Pn|]. intros V. rewrite <- X, Old. now apply Pm.
      + intros q Nq. assert (Nd1 : forall k, In k done -> q <> below T k) by (intros k I; apply Nq; rewrite in_app_iff; now left). assert (Ne : q <> below T ns) by (apply Nq; rewrite in_app_iff; right; now left).
        destruct (O q Nd1) as [[S1 S2]|[(k & a & b & I & Z) (W1 & W2 & W3)]]; destruct (Po q Ne) as [[T1 T2]|[(T1 & T2 & T3) (b' & c' & Z')]].
        * left. split; [congruence|]. intros V. rewrite T2 by congruence. now apply S2.
        * right. split; [exists ns, b', c'; split; [rewrite in_app_iff; right; now left|exact Z']|]. split; [congruence|]. split; [exact T2|exact T3].
        * right. split; [exists k, a, b; split; [rewrite in_app_iff; now left|exact Z]|]. split; [exact W1|]. split; [congruence|]. rewrite T2 by congruence. exact W3.
        * congruence.
  Qed.
  Lemma fold_all ms : Forall2 (fun ns m => brings ns m (what ns) (modes_ ns)) ls ms -> does (each h ms) e (so_far ls).
  Proof.
    intros F. apply does_weaken with (Q := fun s => exists done l, ls = (done ++ l)%list /\ Forall2 (fun ns m => brings ns m (what ns) (modes_ ns)) l [] /\ so_far done s).
    - apply (does_each h (fun k s => exists done l, ls = (done ++ l)%list /\ Forall2 (fun ns m => brings ns m (what ns) (modes_ ns)) l k /\ so_far done s)).
      + exists [], ls. split; [reflexivity|]. split; [exact F|]. split; [exact Re|]. split; [exact De|]. split; [intros ns []|]. intros q _. left. now split.
      + intros m k s (done & l & El & Fl & Sf) _. inversion Fl as [|ns m' l' k' B Fk E1 E2]. subst l m' k'. assert (Il : In ns ls) by (rewrite El, in_app_iff; right; now left).
        eapply does_weaken; [apply (Step ns m (what ns) (modes_ ns) s B); [now apply names_in|now apply Hls|apply Sf|apply Sf|apply (still done (ns :: l') s ns El Sf); now left]|].
        intros s' W. exists (done ++ [ns])%list, l'. split; [rewrite El; now rewrite <- app_assoc|]. split; [exact Fk|]. exact (advance done l' s s' ns El Sf W).
    - intros s (done & l & El & Fl & Sf). inversion Fl as [E1|]. subst l. rewrite app_nil_r in El. rewrite El. exact Sf.
  Qed.
End fold.

(** ** What a build produced *)
Section produced.
  Context (d : disk) (pkg : string) (SP : stands (nodes d) pkg) (Rd : real (nodes d)).
  Notation I := (below pkg ["install"]).
  Context (ls : list (list string)) (Th : things d I ls).
  Lemma at_install ns : below I ns = below pkg ("install" :: ns). Proof. reflexivity. Qed.
  Lemma install_name : name "install". Proof. split; [discriminate|]. split; [discriminate|]. split; [discriminate|]. intros [E|K]; [discriminate E|]. repeat (destruct K as [E|K]; [discriminate E|]). destruct K. Qed.
  Lemma with_install ns : (forall n, In n ns -> name n) -> forall n, In n ("install" :: ns) -> name n.
  Proof. intros H n [<-|K]; [exact install_name|now apply H]. Qed.
  Lemma parents_dirs ns a b : (forall n, In n ns -> name n) -> nodes d !! below I ns <> None -> ns = (a ++ b)%list -> b <> [] -> nodes d !! below I a = Some NDir.
  Proof.
    intros H K E Nb. destruct (nodes d !! below I ns) as [x|] eqn:X; [|congruence]. destruct (Rd _ _ X) as (ks & _ & Hk & Ek & D). destruct SP as (ps & Np & Hp & Ep & _). rewrite at_install, Ep, <- below_app in Ek.
    apply below_slash_inj in Ek; [|apply names_app; split; [exact Hp|now apply with_install]|exact Hk]. rewrite at_install, Ep, <- below_app. apply (D (ps ++ "install" :: a)%list b); [rewrite <- Ek, E; now rewrite <- app_assoc|destruct ps; discriminate|exact Nb].
  Qed.
  Lemma things_apart a b : In a ls -> In (a ++ b)%list ls -> b = [].
  Proof.
    intros Ia Ib. destruct b as [|x b]; [reflexivity|]. exfalso. destruct Th as [_ H]. destruct (H a Ia) as (_ & _ & Ka). destruct (H _ Ib) as (Nb & Hb & Kb). assert (Ex : nodes d !! below I (a ++ x :: b) <> None) by (intros X; rewrite X in Kb; exact Kb).
    rewrite (parents_dirs (a ++ x :: b) a (x :: b) Hb Ex eq_refl (fun X => nil_cons (eq_sym X))) in Ka. assert (Nx : name x) by (apply Hb; rewrite in_app_iff; right; now left). specialize (Ka x Nx).
    destruct b as [|y b]; [now apply Ex|]. assert (Z : (a ++ x :: y :: b = (a ++ [x]) ++ y :: b)%list) by now rewrite <- app_assoc. rewrite (parents_dirs (a ++ x :: y :: b) (a ++ [x]) (y :: b) Hb Ex Z (fun X => nil_cons (eq_sym X))) in Ka. discriminate Ka.
  Qed.
End produced.

(** ** Paths of the destination *)
Section destpaths.
  Context (rs : list string) (cwd : string).
  Notation T := (below "/" rs).
  Strategy 100 [locate] 1000 [walk].
  Lemma dest_loc fl (g : fs) ns : destined g rs -> (forall n, In n ns -> name n) -> locate cwd fl g (below T ns) = walk 40 fl g T ns.
  Proof.
    intros [HR D] Hn. rewrite <- below_app. destruct (nil_or_not (rs ++ ns)) as [E|A]; [apply app_eq_nil in E as [-> ->]; reflexivity|].
    assert (B : forall n, In n (rs ++ ns) -> name n) by (apply names_app; now split). pose proof (below_starts (rs ++ ns) A B "") as S1. rewrite str_app_nil_r in S1. rewrite locate_abs, split_below by assumption. rewrite walk_cons. cbn [String.eqb orb].
    rewrite walk_dirs; [reflexivity|exact HR|]. intros a b E Na. rewrite node_at_map; [now apply (D a b)|]. apply absolute_root, below_absolute; [now left| |exact Na]. intros n J. apply HR. rewrite E, in_app_iff. now left.
  Qed.
  Lemma dest_located fl (g : fs) : destined g rs -> locate cwd fl g T = Some T.
  Proof. intros D. change (locate cwd fl g T) with (locate cwd fl g (below T [])). rewrite (dest_loc fl g [] D) by (intros n []). reflexivity. Qed.
  Lemma dest_dir (g : fs) : destined g rs -> node_at g T = Some NDir.
  Proof.
    intros [HR D]. destruct (nil_or_not rs) as [->|N]; [reflexivity|]. rewrite node_at_map; [apply (D rs []); [now rewrite app_nil_r|exact N]|]. apply absolute_root, below_absolute; [now left|exact HR|exact N].
  Qed.
End destpaths.
Lemma land_bits m : all_bits m (N.land m 0xFFF).
Proof. intros i. now rewrite N.land_spec, bit_FFF. Qed.

(** ** The archive install.tar *)
Lemma install_join ns : ns <> [] -> (forall n, In n ns -> name n) -> os_join "install" (String.concat "/" ns) = String.concat "/" ("install" :: ns).
Proof. intros N H. unfold os_join. rewrite concat_relative by exact H. destruct ns; [congruence|reflexivity]. Qed.
Lemma strip_install ns : ns <> [] -> py_lstrip "install" (String.concat "/" ("install" :: ns)) = "/" ++ String.concat "/" ns.
Proof. destruct ns as [|n ns]; [congruence|]. intros _. reflexivity. Qed.
Lemma lstrip_slash s : py_lstrip "/" ("/" ++ s) = py_lstrip "/" s. Proof. reflexivity. Qed.

Definition tar_mode (d : disk) (q : string) : N := match nodes d !! q with Some (NLink _) => 0x1FF%N | _ => N.land (mode_of d q) 0xFFF end.
Definition thing_of (x : node) : entry := match x with NFile c => AFile c | NLink t => ALink t | _ => ADir end.
Definition tar_brings (ns : list string) (m : tmember) (x : node) (K : N -> Prop) : Prop :=
  t_name m = String.concat "/" ns /\ t_what m = thing_of x /\ x <> NOther /\ K = eq (t_mode m).

Section tarpacked.
  Context (d : disk) (pkg : string) (SP : stands (nodes d) pkg) (Rd : real (nodes d)) (order : string -> list string -> list string) (Or : any_listing order).
  Notation I := (below pkg ["install"]).
  Context (ls : list (list string)) (Th : things d I ls).
  Definition what_of (ns : list string) : node := default NOther (nodes d !! below I ns).

  Lemma leaf_listing ns : In ns ls -> nodes d !! below I ns = Some NDir -> order (below I ns) (map basename (children (nodes d) (below I ns))) = [].
  Proof.
    intros K X. destruct Th as [_ H]. destruct (H ns K) as (N & Hn & E). rewrite X in E. destruct (listed d pkg SP Rd order Or ("install" :: ns) (with_install ns Hn)) as [_ Li]. change (below pkg ("install" :: ns)) with (below I ns) in Li.
    destruct (order _ _) as [|x l]; [reflexivity|]. exfalso. destruct (proj1 (Li x) (or_introl eq_refl)) as [Nx Ex]. apply Ex. exact (E x Nx).
  Qed.
  Lemma tar_leaf n ns : In ns ls -> tar_add_to_archive pkg order (S n) d (os_join "install" (String.concat "/" ns)) (py_lstrip "install" (os_join "install" (String.concat "/" ns))) =
    Ok [mkTar (String.concat "/" ns) (tar_mode d (below I ns)) (thing_of (what_of ns))].
  Proof.
    intros K. pose proof (leaf_listing ns K) as Lf. destruct Th as [_ H]. destruct (H ns K) as (N & Hn & E). rewrite install_join, strip_install by assumption. unfold tar_add_to_archive. change (String.eqb ("/" ++ String.concat "/" ns) "") with false. cbv iota. cbn [tar_add].
    assert (Ex : nodes d !! below I ns <> None) by (intros X; rewrite X in E; exact E).
    rewrite (locate_rel d pkg SP Rd false ("install" :: ns)) by first [discriminate|now apply with_install|exact Ex]. rewrite lstrip_slash, lstrip_names by exact Hn. change (below pkg ("install" :: ns)) with (below I ns).
    assert (X : node_at (nodes d) (below I ns) = nodes d !! below I ns) by (apply (node_at_below pkg (nodes d) ("install" :: ns)); first [apply (C1 d pkg SP)|apply (C2 d pkg SP)]). rewrite X. unfold tar_mode, what_of.
    destruct (nodes d !! below I ns) as [[c| |t|]|] eqn:Y; try contradiction; try reflexivity. rewrite Lf by reflexivity. reflexivity.
  Qed.
  Lemma pack_tar_leaves n l : (forall ns, In ns l -> In ns ls) -> Py.mapM (fun p => let arc := os_join "install" p in tar_add_to_archive pkg order (S n) d arc (py_lstrip "install" arc)) (map (String.concat "/") l) =
    Ok (map (fun ns => [mkTar (String.concat "/" ns) (tar_mode d (below I ns)) (thing_of (what_of ns))]) l).
  Proof.
    induction l as [|ns l IH]; intros Sub; [reflexivity|]. cbn [map Py.mapM]. cbv zeta. rewrite tar_leaf by (apply Sub; now left). cbv zeta in IH. rewrite IH by (intros k K; apply Sub; now right). reflexivity.
  Qed.
  Definition tar_members : list tmember := map (fun ns => mkTar (String.concat "/" ns) (tar_mode d (below I ns)) (thing_of (what_of ns))) ls.
  Lemma pack_tar_eq n : pack_tar order pkg (S n) d (map (String.concat "/") ls) = Ok tar_members.
  Proof.
    unfold pack_tar. rewrite pack_tar_leaves by easy. cbn [bind]. f_equal. unfold tar_members. clear Th. induction ls as [|ns l IH]; [reflexivity|]. cbn [map concat app]. now rewrite IH.
  Qed.
  Lemma pack_tar_brings : Forall2 (fun ns m => tar_brings ns m (what_of ns) (eq (tar_mode d (below I ns)))) ls tar_members.
  Proof.
    unfold tar_members. assert (K : forall ns, In ns ls -> what_of ns <> NOther).
    { intros ns J. destruct Th as [_ H]. destruct (H ns J) as (_ & _ & E). unfold what_of. destruct (nodes d !! below I ns) as [[]|]; cbn [default]; try contradiction; discriminate. }
    clear Th. revert K. induction ls as [|ns l IH]; intros K; constructor; [|apply IH; intros k J; apply K; now right]. split; [reflexivity|]. split; [reflexivity|]. split; [apply K; now left|reflexivity].
  Qed.
End tarpacked.

Section tartop.
  Context (d e : disk) (pkg : string) (rs : list string) (umask : N) (cwd : string).
  Notation I := (below pkg ["install"]).
  Notation T := (below "/" rs).
  Context (SP : stands (nodes d) pkg) (Rd : real (nodes d)) (order : string -> list string -> list string) (Or : any_listing order).
  Context (ls : list (list string)) (Th : things d I ls) (Re : real (nodes e)) (De : destined (nodes e) rs) (Wl : forall ns, In ns ls -> welcome (nodes e) T ns (nodes d !! below I ns)).
  Strategy 100 [locate] 1000 [walk].

  Lemma tar_delivered : exists ms, (forall n, pack_tar order pkg (Datatypes.S n) d (map (String.concat "/") ls) = Ok ms) /\
    does (deliver_tar cwd umask ms T) e (fun e' => in_place all_bits all_bits d e' I T ls /\ nothing_else umask e e' T ls /\ real (nodes e') /\ destined (nodes e') rs).
  Proof.
    exists (tar_members d pkg ls). split; [exact (pack_tar_eq d pkg SP Rd order Or ls Th)|]. unfold deliver_tar, tar_unpack_dir. apply does_ask. rewrite dest_located, dest_dir by exact De. destruct De as [HR D].
    eapply does_weaken; [apply (fold_all rs HR umask (tar_member T umask true) tar_brings false) with (what := what_of d pkg) (modes_ := fun ns => eq (tar_mode d (below I ns)))|].
    - intros ns m x K s (B1 & B2 & B3 & ->) Hn N Rs Ds [O W]. cbn [andb]. destruct x as [c| |t|]; cbn [thing_of] in B2.
      + apply (tar_file_put rs HR umask ns Hn N m B1 s c B2 Rs Ds O); intros X; rewrite X in W; [discriminate W|exact W].
      + apply (tar_dir_put rs HR umask ns Hn N m B1 s B2 Rs Ds O). destruct (nodes s !! below T ns) as [[]|]; try contradiction; try (now left); try (now right); now elim W.
      + apply (tar_link_put rs HR umask ns Hn N m B1 s t B2 Rs Ds O); intros X; rewrite X in W; [discriminate W|exact W].
      + congruence.
    - exact Re.
    - exact De.
    - intros ns J. destruct Th as [_ H]. destruct (H ns J) as (N & Hn & _). now split.
    - apply Th.
    - exact (things_apart d pkg SP Rd ls Th).
    - intros ns J. specialize (Wl ns J). destruct Th as [_ H]. destruct (H ns J) as (_ & _ & E). unfold allowed, what_of. destruct (nodes d !! below I ns); [exact Wl|contradiction].
    - exact (pack_tar_brings d pkg ls Th).
    - intros e' (R' & D' & P & O). split; [|now split]. intros ns J. destruct (P ns J) as [P1 P2]. destruct Th as [_ H]. destruct (H ns J) as (_ & _ & E). unfold what_of in P1, P2. unfold tar_mode in P2. cbn [andb] in P2.
      destruct (nodes d !! below I ns) as [x|]; [|contradiction]. cbn [default] in *. split; [exact P1|]. destruct x as [c| |t|]; try exact Logic.I; rewrite <- P2 by discriminate; apply land_bits.
  Qed.
End tartop.
