(** * Unpacking install.tar *)
From Coq Require Import String Ascii ZArith NArith List Bool Lia.
From stdpp Require Import gmap strings.
From Verif Require Import Model.Py Model.InstallDB Model.Path Model.Fs Model.Trace Model.Actions Model.Index Model.Archive Model.Deliver Spec.PathSpec Spec.FsSpec Spec.ActionsSpec Spec.ArchiveSpec Spec.DeliverSpec.
From Verif Require Import Proof.PyFacts Proof.InstallDBFacts Proof.PathFacts Proof.FsFacts Proof.TraceFacts Proof.ActionsPaths Proof.ActionsFacts Proof.ActionsTop Proof.ActionsExact Proof.ActionsMove Proof.ArchiveFacts Proof.ArchiveTree Proof.ArchiveTrip Proof.ArchiveZip Proof.ArchiveTar Proof.DeliverFacts.
Import ListNotations.
Open Scope string_scope.
Open Scope prog_scope.

(** Directories made on the way have the permissions the umask leaves. *)
Lemma lift_new_dir umask {A} (p : prog fs A) d q : (forall g, In g (states p (nodes d)) -> g !! q = None \/ g !! q = Some NDir) -> nodes d !! q = None -> final p (nodes d) !! q = Some NDir ->
  mode_of (final (lift umask p) d) q = N.ldiff 0x1FF umask.
Proof.
  intros H. assert (G : forall l e, (forall g, In g l -> g !! q = None \/ g !! q = Some NDir) -> (nodes e !! q = None \/ nodes e !! q = Some NDir /\ mode_of e q = N.ldiff 0x1FF umask) -> List.last l (nodes e) !! q = Some NDir -> mode_of (List.last (settle_all umask e l) e) q = N.ldiff 0x1FF umask).
  { induction l as [|g l IH]; intros e Hl He La; [cbn in La |- *; destruct He as [He|[_ He]]; [congruence|exact He]|]. cbn [settle_all]. rewrite last_from. assert (La' : List.last l g !! q = Some NDir) by (rewrite <- La; f_equal; symmetry; apply last_from). clear La. apply IH; [intros x I; apply Hl; now right| |exact La'].
    cbn [nodes settle]. rewrite settle_mode. destruct (Hl g (or_introl eq_refl)) as [Z|Z]; [now left|right]. split; [exact Z|]. rewrite Z. destruct He as [He|[He1 He2]]; [now rewrite He|now rewrite He1]. }
  intros K E. unfold final, lift. cbn [fst]. apply G; [|now left|exact E]. intros g I. apply H. right. exact I.
Qed.

(** Something put at a place, with the directories on the way *)
Section put.
  Context (rs : list string) (HR : forall n, In n rs -> name n) (umask : N).
  Notation T := (below "/" rs).
  (** Only the directories *)
  Definition paved (e e' : disk) (a : list string) : Prop :=
    destined (nodes e') rs /\ real (nodes e') /\ dirs rs (nodes e') a /\
    forall q, same_at e e' q \/ (new_dir umask e e' q /\ exists b c, a = (b ++ c)%list /\ b <> [] /\ c <> [] /\ q = below T b).
  Definition put (e e' : disk) (ns : list string) (x : node) (m : N -> Prop) : Prop :=
    destined (nodes e') rs /\ real (nodes e') /\ nodes e' !! below T ns = Some x /\ ((forall t, x <> NLink t) -> m (mode_of e' (below T ns))) /\
    forall q, q <> below T ns -> same_at e e' q \/ (new_dir umask e e' q /\ exists b c, ns = (b ++ c)%list /\ b <> [] /\ c <> [] /\ q = below T b).

  Lemma real_insert f ns x : real f -> (forall n, In n ns -> name n) -> ns <> [] -> destined f rs -> dirs rs f ns -> (f !! below T ns = Some NDir -> x = NDir) -> real (<[ below T ns := x ]> f).
  Proof.
    intros R H N [_ D0] D K p y L. destruct (decide (below T ns = p)) as [<-|Ne].
    - exists (rs ++ ns)%list. assert (Nz : (rs ++ ns)%list <> []) by (destruct rs; [exact N|discriminate]). assert (Hz : forall n, In n (rs ++ ns) -> name n) by (apply names_app; now split).
      split; [exact Nz|]. split; [exact Hz|]. split; [apply at_below|].
      intros a b E Na Nb. rewrite lookup_insert_ne.
      + apply app_eq_app in E as (l & [[E1 E2]|[E1 E2]]); [apply (D0 a l E1 Na)|]. destruct l as [|z l]; [rewrite app_nil_r in E1; subst a; apply (D0 rs []); [now rewrite app_nil_r|exact Na]|]. subst a. rewrite below_app. apply (D (z :: l) b E2); [discriminate|exact Nb].
      + rewrite at_below. intros X. apply below_slash_inj in X; [|exact Hz|exact (prefix_names a b _ E Hz)]. rewrite <- X in E. apply (f_equal (@List.length string)) in E. rewrite !app_length in E. destruct b; [congruence|]. cbn in E. lia.
    - rewrite lookup_insert_ne in L by exact Ne. destruct (R p y L) as (ks & Nk & Hk & Ek & Dk). exists ks. split; [exact Nk|]. split; [exact Hk|]. split; [exact Ek|]. intros a b E Na Nb. destruct (decide (below T ns = below "/" a)) as [X|X]; [|rewrite lookup_insert_ne by exact X; now apply (Dk a b)].
      rewrite X, lookup_insert. f_equal. apply K. rewrite X. now apply (Dk a b).
  Qed.
  Lemma destined_insert f ns x : destined f rs -> (forall n, In n ns -> name n) -> ns <> [] -> destined (<[ below T ns := x ]> f) rs.
  Proof.
    intros [_ D] H N. split; [exact HR|]. intros a b E Na. rewrite lookup_insert_ne; [now apply (D a b)|]. rewrite at_below. intros X. apply below_slash_inj in X; [|apply names_app; now split|exact (prefix_names a b rs E HR)].
    rewrite <- X in E. apply (f_equal (@List.length string)) in E. rewrite !app_length in E. destruct ns; [congruence|cbn in E; lia].
  Qed.
  Lemma dirs_insert f ns x : dirs rs f ns -> (forall n, In n ns -> name n) -> dirs rs (<[ below T ns := x ]> f) ns.
  Proof.
    intros D H a b E Na Nb. rewrite lookup_insert_ne; [now apply (D a b)|]. intros X. apply place_inj in X; [|exact HR|exact H|exact (prefix_names a b ns E H)]. rewrite <- X in E. apply (f_equal (@List.length string)) in E. rewrite app_length in E. destruct b; [congruence|cbn in E; lia].
  Qed.

  (** The parents, whichever text is used for them *)
  Section parents.
    Context (cwd : string) (sp : list string -> string).
    Context (Loc : forall fl g ns, destined g rs -> ns <> [] -> (forall n, In n ns -> name n) -> locate cwd fl g (sp ns) = walk 40 fl g T ns).
    Context (Dir : forall a n, (forall x, In x (a ++ [n]) -> name x) -> dirname (sp (a ++ [n])) = sp a /\ basename (sp (a ++ [n])) = n).
    Context (Top : sp [] = "" \/ forall g, destined g rs -> e_exists cwd g (sp []) = true).
    Context (Some_ : forall ns, ns <> [] -> (forall n, In n ns -> name n) -> sp ns <> "").

    Lemma exists_a f a : real f -> destined f rs -> (forall n, In n a -> name n) -> a <> [] -> opens rs f a -> f !! below T a = None \/ f !! below T a = Some NDir ->
      e_exists cwd f (sp a) = match f !! below T a with Some _ => true | None => false end.
    Proof.
      intros R D H N O [K|K]; unfold e_exists.
      - rewrite (stat_absent rs HR cwd sp Loc f a); try assumption. now rewrite K.
      - rewrite (stat_there rs HR cwd sp Loc f a); try assumption; [reflexivity|apply (real_dirs rs HR f a R H); [rewrite K; discriminate|exact N]|intros t; rewrite K; discriminate].
    Qed.
    Lemma pave e ns a n k : real (nodes e) -> destined (nodes e) rs -> (forall n, In n ns -> name n) -> ns = (a ++ [n])%list -> a <> [] -> List.length a < k -> opens rs (nodes e) ns -> nodes e !! below T a = None ->
      does (lift umask (os_makedirs cwd k (sp a))) e (fun e' => paved e e' ns).
    Proof.
      intros R D H Ea N L O K. assert (Ha := prefix_names a [n] ns Ea H). assert (Oa : opens rs (nodes e) a) by (intros b c E Nb Nc; apply (O b (c ++ [n])%list); [rewrite Ea, E; now rewrite app_assoc|exact Nb|destruct c; discriminate]).
      destruct (mk_dirs rs HR cwd sp Loc Dir Top Some_ k (nodes e) a R D Ha N L Oa K) as (Ok & W & St). split; [exact Ok|]. rewrite <- (lift_nodes umask) in W. set (e' := final (lift umask _) e) in *. destruct W as [M W].
      assert (Dd : dirs rs (nodes e') ns).
      { intros b c E Nb Nc. destruct (exists_last Nc) as (c' & n' & Ec). subst c. rewrite Ea, app_assoc in E. apply app_inj_tail in E as [E _]. specialize (W b c' E Nb). destruct (M (below T b)) as [Y|(_ & Y & _)]; [|exact Y]. destruct (O b (c' ++ [n])%list) as [Q|Q]; [rewrite Ea, E; now rewrite app_assoc|exact Nb|destruct c'; discriminate| |]; congruence. }
      split; [exact (made_destined rs HR (nodes e) (nodes e') a D Ha M)|]. split; [|split; [exact Dd|]].
      - intros p y X. destruct (M p) as [Y|(Y & Z & b & c & E & Nb & ->)].
        + rewrite Y in X. destruct (R p y X) as (ks & Nk & Hk & Ek & Dk). exists ks. split; [exact Nk|]. split; [exact Hk|]. split; [exact Ek|]. intros b c E Nb Nc. destruct (M (below "/" b)) as [Z|(Z1 & Z2 & _)]; [rewrite Z; now apply (Dk b c)|exact Z2].
        + exists (rs ++ b)%list. split; [destruct rs; [exact Nb|discriminate]|]. split; [apply names_app; split; [exact HR|exact (prefix_names b c a E Ha)]|]. split; [apply at_below|]. intros u v Eu Nu Nv.
          destruct (made_destined rs HR (nodes e) (nodes e') a D Ha M) as [_ D0]. apply app_eq_app in Eu as (l & [[E1 E2]|[E1 E2]]); [apply (D0 u l E1 Nu)|]. destruct l as [|z l]; [rewrite app_nil_r in E1; subst u; apply (D0 rs []); [now rewrite app_nil_r|exact Nu]|]. subst u. rewrite below_app.
          apply (Dd (z :: l) (v ++ c ++ [n])%list); [rewrite Ea, E, E2; now rewrite <- !app_assoc|discriminate|destruct v; [congruence|discriminate]].
      - intros q. assert (Sq : forall g, In g (states (os_makedirs cwd k (sp a)) (nodes e)) -> g !! q = nodes e !! q \/ nodes e !! q = None /\ g !! q = Some NDir) by (intros g I; destruct (St g I q) as [X|(X & Y & _)]; auto).
        destruct (M q) as [Y|(Y & Z & b & c & E & Nb & Eq)].
        + left. split; [exact Y|]. intros X. apply lift_mode. intros g I. destruct (Sq g I) as [Z|[Z _]]; congruence.
        + right. split; [|exists b, (c ++ [n])%list; split; [rewrite Ea, E; now rewrite app_assoc|]; split; [exact Nb|]; split; [destruct c; discriminate|exact Eq]]. split; [exact Y|]. split; [exact Z|]. apply lift_new_dir; [|exact Y|unfold e' in Z; rewrite lift_nodes in Z; exact Z]. intros g I. destruct (Sq g I) as [X|[_ X]]; [left; congruence|now right].
    Qed.
    (** Nothing to be made *)
    Lemma paved_already e ns a n : real (nodes e) -> destined (nodes e) rs -> (forall n, In n ns -> name n) -> ns = (a ++ [n])%list -> (a <> [] -> nodes e !! below T a = Some NDir) -> paved e e ns.
    Proof.
      intros R D H Ea K. split; [exact D|]. split; [exact R|]. split; [|intros q; left; now split]. intros b c E Nb Nc. destruct (exists_last Nc) as (c' & n' & Ec). subst c. rewrite Ea, app_assoc in E. apply app_inj_tail in E as [E _]. assert (Na : a <> []) by (rewrite E; destruct b; [congruence|discriminate]).
      destruct (nil_or_not c') as [->|Nc']; [rewrite app_nil_r in E; subst b; now apply K|]. apply (real_dirs rs HR (nodes e) a R) with (b := c'); try assumption; [exact (prefix_names a [n] ns Ea H)|rewrite (K Na); discriminate].
    Qed.
  End parents.

  (** Put on a paved way *)
  Lemma put_paved e e1 e2 ns x m (M : N -> Prop) : paved e e1 ns -> (forall n, In n ns -> name n) -> ns <> [] -> nodes e1 !! below T ns = None -> adds T e1 e2 ns x m -> M m -> put e e2 ns x M.
  Proof.
    intros (D & R & Dd & O) H N K (E & Md & Ot) Mm. split; [rewrite E; now apply destined_insert|]. split; [rewrite E; apply real_insert; try assumption; congruence|]. split; [rewrite E; apply lookup_insert|]. split; [intros X; now rewrite (Md X)|].
    intros q Nq. destruct (O q) as [[S1 S2]|[(S1 & S2 & S3) W]].
    - left. split; [rewrite E, lookup_insert_ne by congruence; exact S1|]. intros Y. rewrite Ot; [now apply S2|exact Nq|congruence].
    - right. split; [|exact W]. split; [exact S1|]. split; [rewrite E, lookup_insert_ne by congruence; exact S2|]. rewrite Ot; [exact S3|exact Nq|congruence].
  Qed.
  (** Taken away first *)
  Definition without (e e1 : disk) (ns : list string) : Prop := nodes e1 = delete (below T ns) (nodes e) /\ forall q, q <> below T ns -> nodes e !! q <> None -> mode_of e1 q = mode_of e q.
  Lemma put_without e e1 e2 ns x M : without e e1 ns -> put e1 e2 ns x M -> put e e2 ns x M.
  Proof.
    intros [E Md] (D & R & X & Mx & O). split; [exact D|]. split; [exact R|]. split; [exact X|]. split; [exact Mx|]. intros q Nq. destruct (O q Nq) as [[S1 S2]|[(S1 & S2 & S3) W]].
    - left. rewrite E, lookup_delete_ne in S1, S2 by congruence. split; [exact S1|]. intros Y. rewrite S2 by exact Y. now apply Md.
    - right. split; [|exact W]. rewrite E, lookup_delete_ne in S1 by congruence. now split.
  Qed.
  Lemma settle_without e ns : without e (settle umask e (delete (below T ns) (nodes e))) ns.
  Proof. split; [reflexivity|]. intros q Nq K. rewrite settle_mode, lookup_delete_ne by congruence. destruct (nodes e !! q); [reflexivity|congruence]. Qed.
  Lemma without_real e e1 ns : real (nodes e) -> (forall n, In n ns -> name n) -> nodes e !! below T ns <> Some NDir -> without e e1 ns -> real (nodes e1).
  Proof.
    intros R H K [E _] p y L. rewrite E in L. apply lookup_delete_Some in L as [Ne L]. destruct (R p y L) as (ks & Nk & Hk & Ek & Dk). exists ks. split; [exact Nk|]. split; [exact Hk|]. split; [exact Ek|]. intros a b Ea Na Nb. rewrite E, lookup_delete_ne; [now apply (Dk a b)|].
    intros X. apply K. rewrite X. now apply (Dk a b).
  Qed.
  Lemma without_destined e e1 ns : destined (nodes e) rs -> (forall n, In n ns -> name n) -> ns <> [] -> without e e1 ns -> destined (nodes e1) rs.
  Proof.
    intros [_ D] H N [E _]. split; [exact HR|]. intros a b Ea Na. rewrite E, lookup_delete_ne; [now apply (D a b)|]. rewrite at_below. intros X. apply below_slash_inj in X; [|apply names_app; now split|exact (prefix_names a b rs Ea HR)].
    rewrite <- X in Ea. apply (f_equal (@List.length string)) in Ea. rewrite !app_length in Ea. destruct ns; [congruence|cbn in Ea; lia].
  Qed.
  Lemma without_opens e e1 ns : opens rs (nodes e) ns -> without e e1 ns -> opens rs (nodes e1) ns.
  Proof.
    intros O [E _] a b Ea Na Nb. rewrite E. destruct (decide (below T ns = below T a)) as [X|X]; [left; rewrite X; apply lookup_delete|]. rewrite lookup_delete_ne by exact X. now apply (O a b).
  Qed.
End put.

(** ** One member of install.tar *)
Section tar.
  Context (rs : list string) (HR : forall n, In n rs -> name n) (umask : N).
  Notation T := (below "/" rs).
  Notation sp := (String.concat "/").
  Strategy 100 [locate] 1000 [walk].
  Lemma rel_loc fl (g : fs) ns : destined g rs -> ns <> [] -> (forall n, In n ns -> name n) -> locate T fl g (sp ns) = walk 40 fl g T ns.
  Proof. intros _ N H. now rewrite locate_relative, split_names by first [assumption|now apply concat_ne|now apply concat_relative]. Qed.
  Lemma rel_dir a n : (forall x, In x (a ++ [n]) -> name x) -> dirname (sp (a ++ [n])) = sp a /\ basename (sp (a ++ [n])) = n.
  Proof.
    intros H. split; [now apply dirname_names|]. apply names_app in H as [Ha Hn]. assert (Nn : name n) by (apply Hn; now left).
    destruct (nil_or_not a) as [->|Na]; [cbn [app String.concat]; unfold basename; now rewrite (proj2 (rfind_none slash n) (proj2 (proj2 (proj2 Nn))))|]. rewrite concat_snoc by exact Na. apply basename_under, Nn.
  Qed.
  Lemma rel_top : sp [] = "" \/ forall g, destined g rs -> e_exists T g (sp []) = true. Proof. now left. Qed.
  Lemma rel_some ns : ns <> [] -> (forall n, In n ns -> name n) -> sp ns <> "".
  Proof. intros N H E. destruct ns as [|n ns]; [congruence|]. destruct (H n (or_introl eq_refl)) as (Nn & _). destruct n; [congruence|]. destruct ns; discriminate E. Qed.

  Section member.
    Context (ns : list string) (H : forall n, In n ns -> name n) (N : ns <> []).
    Notation P := (below T ns).
    Notation t := (sp ns).
    Context (m : tmember) (Tm : t_name m = t).

    Lemma paved_free e e' : nodes e !! P = None -> paved rs umask e e' ns -> nodes e' !! P = None.
    Proof.
      intros K (_ & _ & _ & O). destruct (O P) as [[S _]|[_ (b & c & E & Nb & Nc & X)]]; [congruence|]. exfalso. apply place_inj in X; [|exact HR|exact H|exact (prefix_names b c ns E H)]. rewrite <- X in E. apply (f_equal (@List.length string)) in E. rewrite app_length in E. destruct c; [congruence|cbn in E; lia].
    Qed.
    (** The parents in tarfile's extract *)
    Lemma parents e (q : prog disk unit) (R : disk -> Prop) : real (nodes e) -> destined (nodes e) rs -> opens rs (nodes e) ns -> (forall e', paved rs umask e e' ns -> does q e' R) ->
      does (d <~ ask (fun d => d) ;; _ <~ (if String.eqb (dirname t) "" || e_exists T (nodes d) (dirname t) then ret tt else lift umask (os_makedirs T (Datatypes.S (String.length (dirname t))) (dirname t))) ;; q) e R.
    Proof.
      intros Re De O K. apply does_ask. destruct (exists_last N) as (a & n & Ea). assert (Di : dirname t = sp a) by (rewrite Ea; apply rel_dir; now rewrite <- Ea). rewrite Di. assert (Ha := prefix_names a [n] ns Ea H).
      destruct (nil_or_not a) as [Ya|Na].
      - assert (X : (sp a =? "") = true) by now rewrite Ya. rewrite X. cbn [orb]. eapply does_then; [apply does_ret with (R := fun x => x = e); reflexivity|]. intros x ->. apply K. apply (paved_already rs HR umask e ns a n); try assumption. congruence.
      - rewrite (proj2 (String.eqb_neq _ _) (rel_some a Na Ha)). cbn [orb]. assert (Oa : opens rs (nodes e) a) by (intros b c E Nb Nc; apply (O b (c ++ [n])%list); [rewrite Ea, E; now rewrite app_assoc|exact Nb|destruct c; discriminate]).
        assert (Ka : nodes e !! below T a = None \/ nodes e !! below T a = Some NDir) by (apply (O a [n]); [exact Ea|exact Na|discriminate]).
        rewrite (exists_a rs HR T sp rel_loc (nodes e) a) by assumption. destruct Ka as [Ka|Ka]; rewrite Ka.
        + eapply does_then; [|intros e'; apply K]. apply (pave rs HR umask T sp rel_loc rel_dir rel_top rel_some e ns a n); try assumption.
          assert (L : forall l : list string, (forall x, In x l -> name x) -> List.length l <= String.length (sp l)).
          { induction l as [|x l IH]; intros Hl; [cbn; lia|]. assert (Nx : x <> "") by (destruct (Hl x) as (Y & _); [now left|exact Y]). destruct l as [|y l]; [cbn; destruct x; [congruence|cbn; lia]|]. change (sp (x :: y :: l)) with (x ++ "/" ++ sp (y :: l)). rewrite !str_app_length. specialize (IH (fun z I => Hl z (or_intror I))). cbn [List.length] in *. cbn [String.length]. destruct x; [congruence|cbn [String.length]; lia]. }
          specialize (L a Ha). lia.
        + eapply does_then; [apply does_ret with (R := fun x => x = e); reflexivity|]. intros x ->. apply K. apply (paved_already rs HR umask e ns a n); try assumption. now intros _.
    Qed.
    Lemma chmod_put e e1 e' x k j (M : BinNums.N -> Prop) (R : disk -> Prop) : paved rs umask e e1 ns -> nodes e1 !! P = None -> adds T e1 e' ns x j -> (forall u, x <> NLink u) -> M k -> (forall e2, put rs umask e e2 ns x M -> R e2) ->
      does (try_except (os_chmod T t k) is_os_error (ret tt)) e' R.
    Proof.
      intros Pv K A Nl Mk W. pose proof Pv as (D1 & R1 & Dd & _). pose proof A as (X & _).
      assert (L : locate T true (nodes e') t = Some P).
      { apply (reach rs HR T sp rel_loc); try assumption; [rewrite X; now apply destined_insert|rewrite X; now apply dirs_insert|]. intros _ u. rewrite X, lookup_insert. intros E. injection E as ->. now apply (Nl u). }
      assert (Nd : node_at (nodes e') P = Some x) by (rewrite (node_there rs HR) by assumption; rewrite X; apply lookup_insert).
      assert (E : os_chmod T t k e' = ([mkDisk (nodes e') (<[ P := k ]> (modes e'))], Ok tt)) by (unfold os_chmod; rewrite ask_eq, L, Nd; reflexivity).
      unfold does, result, final, try_except. rewrite E. split; [reflexivity|]. cbn [fst List.last]. apply W. apply (put_paved rs HR umask e e1 _ ns x k M Pv H N K); [|exact Mk]. eapply adds_chmod. exact A.
    Qed.
    (** What the place was is taken away. *)
    Lemma cleared e (q : prog disk unit) (R : disk -> Prop) : real (nodes e) -> destined (nodes e) rs -> opens rs (nodes e) ns -> nodes e !! P <> Some NDir -> nodes e !! P <> Some NOther ->
      (forall e1, without rs e e1 ns -> does q e1 R) ->
      does (d <~ ask (fun d => d) ;; _ <~ (if true && (e_isfile T (nodes d) (t_name m) || e_islink T (nodes d) (t_name m)) then try_except (lift umask (os_unlink T (t_name m))) is_os_error (ret tt) else ret tt) ;; q) e R.
    Proof.
      intros Re De O K1 K2 Q. apply does_ask. rewrite Tm. cbn [andb]. unfold e_isfile, e_islink. destruct (nodes e !! P) as [x|] eqn:X.
      - assert (Dd : dirs rs (nodes e) ns) by (apply (real_dirs rs HR); try assumption; rewrite X; discriminate).
        rewrite (lstat_there rs HR T sp rel_loc (nodes e) ns) by assumption. rewrite X. assert (Y : (match os_stat T (nodes e) t with Some (NFile _) => true | _ => false end || match Some x with Some (NLink _) => true | _ => false end) = true).
        { destruct x as [c| |u|]; try congruence; [|apply orb_true_r]. rewrite (stat_there rs HR T sp rel_loc (nodes e) ns); try assumption; [now rewrite X|intros u; rewrite X; discriminate]. }
        rewrite Y. eapply does_then; [|exact Q]. assert (E : os_unlink T t (nodes e) = ([delete P (nodes e)], Ok tt)).
        { unfold os_unlink. rewrite ask_eq, (reach rs HR T sp rel_loc) by (assumption || discriminate). rewrite (node_there rs HR), X by assumption. destruct x; [reflexivity|congruence|reflexivity|congruence]. }
        unfold does, result, final, try_except, lift. rewrite E. cbn [fst snd settle_all List.last]. split; [reflexivity|apply settle_without].
      - rewrite (stat_absent rs HR T sp rel_loc (nodes e) ns), (lstat_absent rs HR T sp rel_loc (nodes e) ns) by assumption. cbn [orb].
        eapply does_then; [apply does_ret with (R := fun x => x = e); reflexivity|]. intros x ->. apply Q. split; [symmetry; now apply delete_notin|reflexivity].
    Qed.
    Lemma tar_file_put e c : t_what m = AFile c -> real (nodes e) -> destined (nodes e) rs -> opens rs (nodes e) ns -> nodes e !! P <> Some NDir -> nodes e !! P <> Some NOther ->
      does (tar_member T umask true m) e (fun e' => put rs umask e e' ns (NFile c) (eq (t_mode m))).
    Proof.
      intros W Re De O K1 K2. unfold tar_member. apply cleared; try assumption. intros e1 Wo. unfold tar_extract. rewrite Tm, rstrip_names, W by assumption.
      assert (F : nodes e1 !! P = None) by (rewrite (proj1 Wo); apply lookup_delete). apply parents; [apply (without_real rs e e1 ns); assumption|apply (without_destined rs HR e e1 ns); assumption|apply (without_opens rs e e1 ns); assumption|]. intros e2 Pv. pose proof Pv as (D2 & R2 & Dd & _). pose proof (paved_free e1 e2 F Pv) as F2.
      eapply does_then with (Q := fun e' => exists k, adds T e2 e' ns (NFile c) k).
      - assert (L : locate T true (nodes e2) t = Some P) by (apply (reach rs HR T sp rel_loc); try assumption; intros _ u; rewrite F2; discriminate).
        assert (E : write_file T t c (nodes e2) = ([<[ P := NFile "" ]> (nodes e2); <[ P := NFile c ]> (<[ P := NFile "" ]> (nodes e2))], Ok tt)).
        { unfold write_file. rewrite ask_eq. unfold os_stat. rewrite L, (node_there rs HR), F2 by assumption. assert (E1 : os_write T t "" (nodes e2) = ([<[ P := NFile "" ]> (nodes e2)], Ok tt)) by (unfold os_write; rewrite ask_eq, L, (node_there rs HR), F2 by assumption; reflexivity).
          unfold andthen. rewrite E1. cbn [List.last]. assert (L' : locate T true (<[ P := NFile "" ]> (nodes e2)) t = Some P).
          { apply (reach rs HR T sp rel_loc); try assumption; [now apply destined_insert|now apply dirs_insert|]. intros _ u. rewrite lookup_insert. discriminate. }
          unfold os_write. rewrite ask_eq, L', (node_there rs HR), lookup_insert by assumption. reflexivity. }
        unfold does, result, final, lift. rewrite E. cbn [fst snd]. split; [reflexivity|]. cbn [settle_all List.last]. eexists. exact (adds_over T umask _ _ _ _ _ (NFile c) (settle_adds T umask e2 ns (NFile "") F2)).
      - intros e3 [k A]. eapply (chmod_put e1 e2 e3 (NFile c) (t_mode m) k (eq (t_mode m))); [exact Pv|exact F2|exact A|intros u; discriminate|reflexivity|]. intros e4 Pt. now apply (put_without rs umask e e1).
    Qed.
    Lemma tar_link_put e u : t_what m = ALink u -> real (nodes e) -> destined (nodes e) rs -> opens rs (nodes e) ns -> nodes e !! P <> Some NDir -> nodes e !! P <> Some NOther ->
      does (tar_member T umask true m) e (fun e' => put rs umask e e' ns (NLink u) (eq (t_mode m))).
    Proof.
      intros W Re De O K1 K2. unfold tar_member. apply cleared; try assumption. intros e1 Wo. unfold tar_extract. rewrite Tm, rstrip_names, W by assumption.
      assert (F : nodes e1 !! P = None) by (rewrite (proj1 Wo); apply lookup_delete). apply parents; [apply (without_real rs e e1 ns); assumption|apply (without_destined rs HR e e1 ns); assumption|apply (without_opens rs e e1 ns); assumption|]. intros e2 Pv. pose proof Pv as (D2 & R2 & Dd & _). pose proof (paved_free e1 e2 F Pv) as F2.
      apply does_ask. unfold e_lexists. rewrite (lstat_there rs HR T sp rel_loc), F2 by assumption. eapply does_then; [apply does_ret with (R := fun x => x = e2); reflexivity|]. intros x ->.
      eapply lift_does; [unfold os_symlink; rewrite ask_eq, (reach rs HR T sp rel_loc) by (assumption || discriminate); rewrite (node_there rs HR), F2 by assumption; reflexivity|].
      apply (put_without rs umask e e1 _ _ _ _ Wo). destruct (settle_adds T umask e2 ns (NLink u) F2) as (X & Y & Z). apply (put_paved rs HR umask e1 e2 _ ns (NLink u) (t_mode m) (eq (t_mode m)) Pv H N F2); [|reflexivity]. split; [exact X|]. split; [|exact Z]. intros V. now elim (V u).
    Qed.
    Lemma tar_dir_put e : t_what m = ADir -> real (nodes e) -> destined (nodes e) rs -> opens rs (nodes e) ns -> nodes e !! P = None \/ nodes e !! P = Some NDir ->
      does (tar_member T umask true m) e (fun e' => put rs umask e e' ns NDir (eq (t_mode m))).
    Proof.
      intros W Re De O K. unfold tar_member. apply does_ask. rewrite Tm. cbn [andb]. assert (Y : e_isfile T (nodes e) t || e_islink T (nodes e) t = false).
      { unfold e_isfile, e_islink. destruct K as [K|K]; [rewrite (stat_absent rs HR T sp rel_loc (nodes e) ns), (lstat_absent rs HR T sp rel_loc (nodes e) ns) by assumption; reflexivity|].
        assert (Dd : dirs rs (nodes e) ns) by (apply (real_dirs rs HR); try assumption; rewrite K; discriminate). rewrite (stat_there rs HR T sp rel_loc (nodes e) ns), (lstat_there rs HR T sp rel_loc (nodes e) ns), K; try assumption; [reflexivity|intros u; rewrite K; discriminate]. }
      rewrite Y. eapply does_then; [apply does_ret with (R := fun x => x = e); reflexivity|]. intros x ->. unfold tar_extract. rewrite Tm, rstrip_names, W by assumption. apply parents; try assumption. intros e2 Pv. pose proof Pv as (D2 & R2 & Dd & Ot). destruct K as [K|K].
      - pose proof (paved_free e e2 K Pv) as F2. apply does_ask. unfold e_lexists. rewrite (lstat_there rs HR T sp rel_loc), F2 by assumption. eapply does_then with (Q := fun e' => adds T e2 e' ns NDir (new_mode umask NDir)).
        + eapply lift_does; [unfold os_mkdir; rewrite ask_eq, (reach rs HR T sp rel_loc) by (assumption || discriminate); rewrite (node_there rs HR), F2 by assumption; reflexivity|]. now apply settle_adds.
        + intros e3 A. eapply (chmod_put e e2 e3 NDir (t_mode m) _ (eq (t_mode m))); [exact Pv|exact F2|exact A|intros u; discriminate|reflexivity|]. intros e4 Pt. exact Pt.
      - assert (F2 : nodes e2 !! P = Some NDir) by (destruct (Ot P) as [[S _]|[(S & _) _]]; congruence). apply does_ask. unfold e_lexists. rewrite (lstat_there rs HR T sp rel_loc), F2 by assumption. eapply does_then; [apply does_ret with (R := fun x => x = e2); reflexivity|]. intros x ->.
        assert (E : os_chmod T t (t_mode m) e2 = ([mkDisk (nodes e2) (<[ P := t_mode m ]> (modes e2))], Ok tt)).
        { unfold os_chmod. rewrite ask_eq, (reach rs HR T sp rel_loc); try assumption; [|intros _ u; rewrite F2; discriminate]. rewrite (node_there rs HR), F2 by assumption. reflexivity. }
        unfold does, result, final, try_except. rewrite E. split; [reflexivity|]. cbn [fst List.last]. split; [exact D2|]. split; [exact R2|]. split; [exact F2|]. split; [intros _; unfold mode_of; cbn [modes]; now rewrite lookup_insert|].
        intros q Nq. assert (Mq : mode_of (mkDisk (nodes e2) (<[ P := t_mode m ]> (modes e2))) q = mode_of e2 q) by (unfold mode_of; cbn [modes]; rewrite lookup_insert_ne by congruence; reflexivity).
        destruct (Ot q) as [[S1 S2]|[(S1 & S2 & S3) X]]; [left; split; [exact S1|intros Z; rewrite Mq; now apply S2]|right; split; [split; [exact S1|]; split; [exact S2|now rewrite Mq]|exact X]].
    Qed.
  End member.
End tar.
