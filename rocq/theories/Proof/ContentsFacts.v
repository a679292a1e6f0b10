From Coq Require Import String Ascii List Bool Arith Lia.
From stdpp Require Import gmap strings.
From Verif Require Import Model.Py Model.Path Model.Contents Spec.PathSpec Spec.ContentsSpec Proof.PyFacts Proof.PathFacts.
Import ListNotations.
Open Scope string_scope.

(** ** Names *)
Lemma text_app p q : text (p ++ q)%list = text p ++ text q.
Proof. induction p as [|n p IH]; [reflexivity|]. cbn [text fold_right app]. fold (text (p ++ q)%list) (text p). rewrite IH. now rewrite !str_app_assoc. Qed.
Lemma text_cons n p : text (n :: p) = "/" ++ n ++ text p.
Proof. reflexivity. Qed.
Lemma split_text p : List.Forall good_name p -> forall n, free_of "/" n -> py_split slash (n ++ text p) = n :: p.
Proof.
  intros F. induction F as [|m p [Nm Fm] F IH]; intros n Fn.
  - cbn [text fold_right]. rewrite str_app_nil_r. now apply split_no_sep.
  - rewrite text_cons. change ("/" ++ m ++ text p) with (String slash (m ++ text p)).
    rewrite (split_app_sep slash n (m ++ text p)) by exact Fn. f_equal. now apply IH.
Qed.
Lemma split_text0 p : List.Forall good_name p -> py_split slash (text p) = "" :: p.
Proof. intros F. apply (split_text p F ""). intros []. Qed.
Lemma text_inj p q : List.Forall good_name p -> List.Forall good_name q -> text p = text q -> p = q.
Proof. intros F G E. assert (K : "" :: p = "" :: q) by (rewrite <- !split_text0 by assumption; now rewrite E). congruence. Qed.
Lemma short_inj p q : List.Forall good_name p -> List.Forall good_name q -> short p = short q -> p = q.
Proof.
  intros F G. destruct p as [|n p], q as [|m q]; cbn [short]; intros E.
  - reflexivity.
  - inversion G as [|? ? [N _] _]; subst. destruct m; [now elim N|discriminate E].
  - inversion F as [|? ? [N _] _]; subst. destruct n; [now elim N|discriminate E].
  - apply text_inj; [assumption|assumption|]. rewrite !text_cons. now rewrite E.
Qed.
Lemma names_of_text p : List.Forall good_name p -> names_of (text p) = p.
Proof.
  intros F. unfold names_of. rewrite split_text0 by exact F. cbn. induction F as [|n p [N _] F IH]; [reflexivity|].
  cbn. apply String.eqb_neq in N. rewrite N. cbn. now f_equal.
Qed.
Lemma text_no_end s p : ~ ends_in_slash s -> List.Forall good_name p -> ~ ends_in_slash (s ++ text p).
Proof.
  revert s. induction p as [|n p IH]; intros s E F; cbn [text fold_right]; [now rewrite str_app_nil_r|].
  inversion F as [|? ? [N Fn] F']; subst. fold (text p). replace (s ++ "/" ++ n ++ text p) with ((s ++ "/" ++ n) ++ text p) by now rewrite !str_app_assoc.
  apply IH; [|assumption]. intros K. rewrite <- str_app_assoc in K. apply ends_slash_app in K; [|assumption]. now apply free_no_end in K.
Qed.
Lemma text_nonempty p : p <> [] -> text p <> "".
Proof. destruct p; [congruence|]. intros _. rewrite text_cons. discriminate. Qed.
Lemma splitpath_text p : p <> [] -> List.Forall good_name p -> splitpath (text p) = "" :: p.
Proof.
  intros N F. rewrite splitpath_plain; [now apply split_text0|now apply text_nonempty|].
  intros K. apply (text_no_end "" p); [|exact F|exact K]. intros [u H]. destruct u; discriminate H.
Qed.
Lemma subpath_text p q : p <> [] -> q <> [] -> List.Forall good_name p -> List.Forall good_name q ->
  subpath (text p) (text q) = true <-> covers p q.
Proof.
  intros Np Nq F G. unfold subpath. rewrite !splitpath_text by assumption. rewrite (prefix_iff _ string_eqb_iff). unfold covers.
  split; intros [r H]; exists r; cbn in *; congruence.
Qed.
Lemma short_relative p : p <> [] -> List.Forall good_name p -> relative_path (short p).
Proof.
  intros N F. destruct p as [|n p]; [congruence|]. clear N. revert n F. induction p as [|m p IH]; intros n F; inversion F as [|? ? [N Fn] F']; subst; cbn [short].
  - cbn [text fold_right]. rewrite str_app_nil_r. now constructor.
  - rewrite text_cons. constructor; [assumption|assumption|]. now apply (IH m).
Qed.
Lemma lstrip_text p : p <> [] -> List.Forall good_name p -> py_lstrip "/" (text p) = short p.
Proof.
  intros N F. pose proof (rel_lstrip _ (short_relative p N F)) as R. destruct p as [|n p]; [congruence|].
  rewrite text_cons. cbn [short] in *. exact R.
Qed.
Lemma lstrip_short p : p <> [] -> List.Forall good_name p -> py_lstrip "/" (short p) = short p.
Proof. intros N F. apply rel_lstrip. now apply short_relative. Qed.
Lemma text_short p : p <> [] -> text p = "/" ++ short p.
Proof. destruct p; [congruence|]. reflexivity. Qed.

Lemma Forall_covers p f : covers p f -> List.Forall good_name f -> List.Forall good_name p.
Proof. intros [r ->] F. now apply List.Forall_app in F. Qed.
Lemma covers_refl p : covers p p. Proof. exists []. now rewrite app_nil_r. Qed.
Lemma covers_trans p q r : covers p q -> covers q r -> covers p r.
Proof. intros [a ->] [b ->]. exists (a ++ b)%list. now rewrite app_assoc. Qed.
Lemma covers_len p q : covers p q -> (length p <= length q)%nat.
Proof. intros [r ->]. rewrite app_length. lia. Qed.
Lemma covers_compare p q f : covers p f -> covers q f -> (length p <= length q)%nat -> covers p q.
Proof.
  revert q f. induction p as [|n p IH]; intros q f [a Ha] [b Hb] L; [now exists q|].
  destruct q as [|m q]; [cbn in L; lia|]. destruct f as [|k f]; [discriminate Ha|].
  injection Ha as -> Ha. injection Hb as -> Hb. destruct (IH q f) as [r ->]; [now exists a|now exists b|cbn in L; lia|]. now exists r.
Qed.
Lemma covers_antisym p q : covers p q -> covers q p -> p = q.
Proof.
  intros [a ->] [b H]. rewrite <- app_assoc in H. rewrite <- (app_nil_r p) in H at 1. apply app_inv_head in H.
  symmetry in H. apply app_eq_nil in H as [-> _]. now rewrite app_nil_r.
Qed.
Lemma covers_starts p f : covers p f -> py_startswith (text f) (text p) = true.
Proof. intros [r ->]. apply startswith_iff. exists (text r). apply text_app. Qed.
Lemma covers_dec p f : {covers p f} + {~ covers p f}.
Proof.
  destruct (prefix String.eqb p f) eqn:E; [left|right].
  - now apply (prefix_iff _ string_eqb_iff) in E.
  - intros H. apply (prefix_iff _ string_eqb_iff) in H. congruence.
Qed.

(** ** Trees *)
Section node_ind.
  Context (P : node -> Prop) (Hf : forall c, P (NFile c)) (Hl : forall g to, P (NLink g to))
    (Hd : forall es, (forall n c, In (n, c) es -> P c) -> P (NDir es)).
  Fixpoint node_induction (t : node) : P t :=
    match t with
    | NFile c => Hf c
    | NLink g to => Hl g to
    | NDir es => Hd es ((fix go (es : list (string * node)) : forall n c, In (n, c) es -> P c :=
        match es with
        | [] => fun n c H => match H with end
        | (m, d) :: es => fun n c H => match H with
                                       | or_introl E => eq_ind d P (node_induction d) c (f_equal snd E)
                                       | or_intror H => go es n c H
                                       end
        end) es)
    end.
End node_ind.

Lemma entry_of_iff es n c : List.NoDup (map fst es) -> entry_of n es = Some c <-> In (n, c) es.
Proof.
  induction es as [|[m d] es IH]; intros D; cbn; [split; [discriminate|tauto]|]. apply NoDup_cons_iff in D as [N D].
  destruct (String.eqb_spec n m) as [->|K].
  - split; [intros H; left; congruence|]. intros [H|H]; [congruence|]. elim N. exact (in_map fst _ _ H).
  - rewrite IH by exact D. split; [now right|]. intros [H|H]; [congruence|exact H].
Qed.
Lemma find_lies t p x : well_formed t -> find_node t p = Some x <-> lies_at t p x.
Proof.
  revert t. induction p as [|n p IH]; intros t W; cbn.
  - split; [intros H; injection H as ->; constructor|]. intros H. now inversion H.
  - split.
    + destruct t as [c|g to|es]; try discriminate. destruct (entry_of n es) as [c|] eqn:E; [|discriminate]. intros H.
      inversion W as [| |? D G]; subst. apply entry_of_iff in E; [|exact D]. destruct (G _ _ E) as [_ Wc].
      econstructor; [exact E|]. now apply IH.
    + intros H. inversion H as [|es m c q y I L]; subst. inversion W as [| |? D G]; subst.
      rewrite (proj2 (entry_of_iff es n c D) I). destruct (G _ _ I) as [_ Wc]. now apply IH.
Qed.
Lemma lies_app t p q x y : lies_at t p x -> lies_at x q y -> lies_at t (p ++ q) y.
Proof. induction 1; intros L; [exact L|]. cbn. econstructor; [eassumption|]. now apply IHlies_at. Qed.
Lemma lies_split t p q y : lies_at t (p ++ q) y -> exists x, lies_at t p x /\ lies_at x q y.
Proof.
  revert t. induction p as [|n p IH]; intros t L; cbn in L; [exists t; split; [constructor|exact L]|].
  inversion L as [|es m c r z I L']; subst. destruct (IH _ L') as (x & A & B). exists x. split; [|exact B]. econstructor; [exact I|exact A].
Qed.
Lemma lies_names t p x : well_formed t -> lies_at t p x -> List.Forall good_name p /\ well_formed x.
Proof.
  intros W L. induction L as [x|es n c p x I L IH]; [split; [constructor|exact W]|].
  inversion W as [| |? D G]; subst. destruct (G _ _ I) as [K Wc]. destruct (IH Wc) as [F Wx]. split; [now constructor|exact Wx].
Qed.
Lemma lies_fun t p x y : well_formed t -> lies_at t p x -> lies_at t p y -> x = y.
Proof. intros W A B. apply (find_lies _ _ _ W) in A. apply (find_lies _ _ _ W) in B. congruence. Qed.

(** ** The longest of several beginnings of one text *)
Lemma leb_prefixes x y s : (exists a, s = x ++ a) -> (exists b, s = y ++ b) -> String.leb x y = true <-> (String.length x <= String.length y)%nat.
Proof.
  revert y s. induction x as [|c x IH]; intros y s [a Ha] [b Hb].
  - cbn. destruct y; cbn; split; try lia; reflexivity.
  - destruct y as [|d y].
    + cbn. split; [discriminate|lia].
    + subst s. cbn in Hb. injection Hb as -> Hb. unfold String.leb. cbn. 
      assert (E : Ascii.compare d d = Eq) by (unfold Ascii.compare; apply N.compare_refl). rewrite E.
      rewrite <- Nat.succ_le_mono. apply (IH y (x ++ a)); [now exists a|now exists b].
Qed.
Lemma greatest_spec l s : (forall x, In x l -> exists a, s = x ++ a) ->
  match greatest l with
  | None => l = []
  | Some y => In y l /\ forall x, In x l -> (String.length x <= String.length y)%nat
  end.
Proof.
  induction l as [|x l IH]; intros H; cbn; [reflexivity|]. specialize (IH (fun z Hz => H z (or_intror Hz))).
  destruct (greatest l) as [y|] eqn:E.
  - destruct IH as [I M]. pose proof (leb_prefixes x y s (H x (or_introl eq_refl)) (H y (or_intror I))) as B.
    destruct (String.leb x y).
    + split; [now right|]. intros z [<-|Hz]; [now apply B|now apply M].
    + split; [now left|]. intros z [<-|Hz]; [lia|]. specialize (M z Hz). destruct (le_lt_dec (String.length x) (String.length y)) as [L|L]; [apply B in L; discriminate L|lia].
  - subst l. split; [now left|]. intros z [<-|[]]. lia.
Qed.

Lemma occurs_iff m s : occurs m s = true <-> exists a b, s = a ++ m ++ b.
Proof.
  induction s as [|c s IH]; cbn [occurs].
  - rewrite orb_false_r, startswith_iff. split.
    + intros [r H]. now exists "", r.
    + intros (a & b & H). destruct a; [|discriminate H]. now exists b.
  - rewrite orb_true_iff, startswith_iff, IH. split.
    + intros [[r H]|(a & b & H)]; [now exists "", r|]. exists (String c a), b. cbn. now rewrite H.
    + intros (a & b & H). destruct a as [|d a]; [left; now exists b|]. right. injection H as -> H. now exists a, b.
Qed.

(** ** The walk through a directory *)
Section contents.
  Context (sha1 : string -> string) (install : string) (t0 : node).
  Context (Pd : proper_dir install) (W : well_formed t0).

  Definition mark (x : node) : option string :=
    match x with NFile c => Some (sha1 c) | NLink g _ => Some (sha1 g) | NDir _ => None end.
  Definition excluded (base : list string) (f : list string) : bool := existsb (py_startswith (text f)) base.
  Definition links_only (ls : list string) : Prop :=
    forall s, In s ls -> exists p g to, lies_at t0 p (NLink g to) /\ s = text p ++ "/".

  Lemma hep excl f : has_excluded_prefix install excl (install ++ text f) = excluded excl f.
  Proof. unfold has_excluded_prefix, excluded. now rewrite drop_app. Qed.
  Lemma below_link s f y : (exists p g to, lies_at t0 p (NLink g to) /\ s = text p ++ "/") -> lies_at t0 f y -> py_startswith (text f) s = false.
  Proof.
    intros (p & g & to & L & ->) Lf. destruct (py_startswith (text f) (text p ++ "/")) eqn:E; [|reflexivity].
    apply startswith_iff in E as [r E]. pose proof (proj1 (lies_names _ _ _ W L)) as Fp. pose proof (proj1 (lies_names _ _ _ W Lf)) as Ff.
    assert (K : f = (p ++ py_split slash r)%list).
    { assert (H : ("" :: f)%list = (("" :: p) ++ py_split slash r)%list); [|cbn in H; congruence].
      rewrite <- (split_text0 f Ff), <- (split_text0 p Fp), E. rewrite str_app_assoc. exact (split_app slash (text p) r). }
    rewrite K in Lf. apply lies_split in Lf as (x & A & B). rewrite <- (lies_fun _ _ _ _ W L A) in B.
    inversion B as [z Hz Hn|]. exfalso. exact (split_nonempty slash r (eq_sym Hn)).
  Qed.
  Lemma excl_same base ls f y : links_only ls -> lies_at t0 f y -> excluded (base ++ ls)%list f = excluded base f.
  Proof.
    intros Hl Lf. unfold excluded. rewrite existsb_app.
    replace (existsb (py_startswith (text f)) ls) with false; [apply orb_false_r|]. symmetry.
    destruct (existsb (py_startswith (text f)) ls) eqn:E; [|reflexivity]. apply existsb_exists in E as (s & I & E).
    rewrite (below_link s f y (Hl s I) Lf) in E. discriminate E.
  Qed.
  Lemma join_root r n : List.Forall good_name r -> good_name n -> join_path (install ++ text r) [n] = install ++ text (r ++ [n])%list.
  Proof.
    intros Fr [N Fn]. destruct Pd as [Ni Ei]. unfold join_path. cbn [fold_left]. rewrite join2_name; [|destruct install; [congruence|discriminate]|now apply text_no_end|assumption|assumption].
    rewrite text_app, str_app_assoc. cbn [text fold_right]. now rewrite str_app_nil_r.
  Qed.

  Lemma link_dirs_spec r es0 es base ls : lies_at t0 r (NDir es0) -> (forall e, In e es -> In e es0) -> links_only ls ->
    let w := link_dirs sha1 install (install ++ text r) es (base ++ ls)%list in
    exists ls', snd w = (base ++ ls')%list /\ links_only ls' /\
      forall path h, In (path, h) (fst w) <-> exists n g, In (n, NLink g ToDir) es /\ path = install ++ text (r ++ [n])%list /\
        h = Some (sha1 g) /\ excluded base (r ++ [n]) = false.
  Proof.
    intros L. destruct (lies_names _ _ _ W L) as [Fr We]. inversion We as [| |? D G]; subst. clear D.
    revert ls. induction es as [|[n c] es IH]; intros ls Hin Hl.
    { exists ls. cbn. split; [reflexivity|]. split; [exact Hl|]. intros path h. split; [tauto|]. intros (n & g & [] & _). }
    assert (Hin' : forall e, In e es -> In e es0) by (intros e H; apply Hin; now right).
    assert (I0 : In (n, c) es0) by (apply Hin; now left). destruct (G n c I0) as [Gn Wc].
    assert (Skip : (forall g, c <> NLink g ToDir) -> exists ls', snd (link_dirs sha1 install (install ++ text r) es (base ++ ls)%list) = (base ++ ls')%list /\ links_only ls' /\
      forall path h, In (path, h) (fst (link_dirs sha1 install (install ++ text r) es (base ++ ls)%list)) <-> exists m g, In (m, NLink g ToDir) ((n, c) :: es) /\ path = install ++ text (r ++ [m])%list /\
        h = Some (sha1 g) /\ excluded base (r ++ [m]) = false).
    { intros Nc. destruct (IH ls Hin' Hl) as (ls' & S & Hl' & E). exists ls'. split; [exact S|]. split; [exact Hl'|]. intros path h. rewrite E.
      split; intros (m & g & I & R); exists m, g; (split; [|exact R]); [now right|]. destruct I as [I|I]; [|exact I]. injection I as -> ->. now elim (Nc g). }
    destruct c as [ct|g [ct| |]|ds]; try (apply Skip; intros; discriminate). clear Skip. cbn [link_dirs].
    rewrite join_root by assumption. assert (Ln : lies_at t0 (r ++ [n]) (NLink g ToDir)) by (apply (lies_app _ _ _ _ _ L); econstructor; [exact I0|constructor]).
    rewrite hep, (excl_same _ _ _ _ Hl Ln). destruct (excluded base (r ++ [n])) eqn:X.
    - destruct (IH ls Hin' Hl) as (ls' & S & Hl' & E). exists ls'. split; [exact S|]. split; [exact Hl'|]. intros path h. rewrite E.
      split; intros (m & g' & I & R); exists m, g'; (split; [|exact R]); [now right|]. destruct I as [I|I]; [|exact I]. injection I as -> ->. destruct R as (_ & _ & R). congruence.
    - rewrite drop_app. rewrite <- app_assoc.
      assert (Hl2 : links_only (ls ++ [(text (r ++ [n])%list ++ "/")%string])%list).
      { intros s I. apply in_app_or in I as [I|[<-|[]]]; [now apply Hl|]. exists (r ++ [n])%list, g, ToDir. now split. }
      destruct (IH _ Hin' Hl2) as (ls' & S & Hl' & E). exists ls'. cbn [fst snd]. split; [exact S|]. split; [exact Hl'|].
      intros path h. cbn [In]. rewrite E. split.
      + intros [H|(m & g' & I & R)]; [injection H as <- <-; exists n, g; repeat split; [now left|exact X]|]. exists m, g'. split; [now right|exact R].
      + intros (m & g' & [I|I] & R); [|right; exists m, g'; now split]. injection I as -> ->. left. destruct R as (-> & -> & _). reflexivity.
  Qed.

  Lemma plain_files_spec r es0 es base ls : lies_at t0 r (NDir es0) -> (forall e, In e es -> In e es0) -> links_only ls ->
    forall path h, In (path, h) (plain_files sha1 install (install ++ text r) es (base ++ ls)%list) <->
      exists n c, In (n, c) es /\ (forall es, c <> NDir es) /\ (forall g, c <> NLink g ToDir) /\ path = install ++ text (r ++ [n])%list /\
        h = mark c /\ excluded base (r ++ [n]) = false.
  Proof.
    intros L Hin Hl path h. destruct (lies_names _ _ _ W L) as [Fr We]. inversion We as [| |? D G]; subst. clear D.
    induction es as [|[n c] es IH]; [cbn; split; [tauto|intros (n & c & [] & _)]|].
    specialize (IH (fun e H => Hin e (or_intror H))). assert (I0 : In (n, c) es0) by (apply Hin; now left). destruct (G n c I0) as [Gn Wc].
    assert (Ln : lies_at t0 (r ++ [n]) c) by (apply (lies_app _ _ _ _ _ L); econstructor; [exact I0|constructor]).
    cbn [plain_files]. rewrite join_root by assumption. rewrite hep, (excl_same _ _ _ _ Hl Ln).
    assert (More : forall b : Prop, (b <-> (forall es, c <> NDir es) /\ (forall g, c <> NLink g ToDir) /\ path = install ++ text (r ++ [n])%list /\ h = mark c /\ excluded base (r ++ [n]) = false) ->
      (b \/ In (path, h) (plain_files sha1 install (install ++ text r) es (base ++ ls)%list)) <->
      exists m d, In (m, d) ((n, c) :: es) /\ (forall es, d <> NDir es) /\ (forall g, d <> NLink g ToDir) /\ path = install ++ text (r ++ [m])%list /\ h = mark d /\ excluded base (r ++ [m]) = false).
    { intros b Hb. rewrite Hb, IH. split.
      - intros [R|(m & d & I & R)]; [exists n, c; split; [now left|exact R]|exists m, d; split; [now right|exact R]].
      - intros (m & d & [I|I] & R); [injection I as -> ->; now left|right; exists m, d; now split]. }
    assert (Not : ~ ((forall es, c <> NDir es) /\ (forall g, c <> NLink g ToDir) /\ path = install ++ text (r ++ [n])%list /\ h = mark c /\ excluded base (r ++ [n]) = false) ->
      In (path, h) (plain_files sha1 install (install ++ text r) es (base ++ ls)%list) <->
      exists m d, In (m, d) ((n, c) :: es) /\ (forall es, d <> NDir es) /\ (forall g, d <> NLink g ToDir) /\ path = install ++ text (r ++ [m])%list /\ h = mark d /\ excluded base (r ++ [m]) = false).
    { intros Hb. rewrite <- (More False); [tauto|]. split; [tauto|exact Hb]. }
    assert (Yes : forall a, a = (install ++ text (r ++ [n])%list, mark c) -> (forall es, c <> NDir es) -> (forall g, c <> NLink g ToDir) -> 
      In (path, h) (if excluded base (r ++ [n]) then plain_files sha1 install (install ++ text r) es (base ++ ls)%list else a :: plain_files sha1 install (install ++ text r) es (base ++ ls)%list) <->
      exists m d, In (m, d) ((n, c) :: es) /\ (forall es, d <> NDir es) /\ (forall g, d <> NLink g ToDir) /\ path = install ++ text (r ++ [m])%list /\ h = mark d /\ excluded base (r ++ [m]) = false).
    { intros a -> N1 N2. destruct (excluded base (r ++ [n])) eqn:X.
      - apply Not. intros (_ & _ & _ & _ & K). discriminate K.
      - cbn [In]. apply More. split; [intros H; injection H as <- <-; auto|]. intros (_ & _ & -> & -> & _). reflexivity. }
    destruct c as [ct|g [ct| |]|ds].
    - apply Yes; [reflexivity|congruence|congruence].
    - apply Yes; [reflexivity|congruence|congruence].
    - apply Not. intros (_ & K & _). now elim (K g).
    - apply Yes; [reflexivity|congruence|congruence].
    - apply Not. intros (K & _). now elim (K ds).
  Qed.

  Definition below (root : string) : list (string * node) -> list string -> list item * list string :=
    fix go es excl := match es with
      | [] => ([], excl)
      | (n, c) :: es =>
          match c with
          | NDir _ => let r := walk sha1 install (join_path root [n]) c excl in
                      let r2 := go es (snd r) in ((fst r ++ fst r2)%list, snd r2)
          | _ => go es excl
          end
      end.
  Lemma walk_dir root es excl : walk sha1 install root (NDir es) excl =
    let b := below root es excl in
    let links := link_dirs sha1 install root es (snd b) in
    let own := match es with [] => if has_excluded_prefix install (snd links) root then [] else [(root, None)] | _ => [] end in
    ((fst b ++ fst links ++ own ++ plain_files sha1 install root es (snd links))%list, snd links).
  Proof. reflexivity. Qed.

  Definition walk_right (t : node) : Prop := forall r base ls, lies_at t0 r t -> links_only ls ->
    let w := walk sha1 install (install ++ text r) t (base ++ ls)%list in
    exists ls', snd w = (base ++ ls')%list /\ links_only ls' /\
      forall path h, In (path, h) (fst w) <-> is_directory t /\ exists p x, produced t p x /\ path = install ++ text (r ++ p)%list /\
        h = mark x /\ excluded base (r ++ p) = false.

  Lemma below_spec r es0 es base ls : (forall n c, In (n, c) es0 -> walk_right c) -> lies_at t0 r (NDir es0) -> (forall e, In e es -> In e es0) -> links_only ls ->
    let w := below (install ++ text r) es (base ++ ls)%list in
    exists ls', snd w = (base ++ ls')%list /\ links_only ls' /\
      forall path h, In (path, h) (fst w) <-> exists n c p x, In (n, c) es /\ is_directory c /\ produced c p x /\ path = install ++ text (r ++ n :: p)%list /\
        h = mark x /\ excluded base (r ++ n :: p) = false.
  Proof.
    intros Rec L. destruct (lies_names _ _ _ W L) as [Fr We]. inversion We as [| |? D G]; subst. clear D.
    revert ls. induction es as [|[n c] es IH]; intros ls Hin Hl.
    { exists ls. cbn. split; [reflexivity|]. split; [exact Hl|]. intros path h. split; [tauto|]. intros (n & c & p & x & [] & _). }
    assert (Hin' : forall e, In e es -> In e es0) by (intros e H; apply Hin; now right).
    assert (I0 : In (n, c) es0) by (apply Hin; now left). destruct (G n c I0) as [Gn Wc].
    assert (Ln : lies_at t0 (r ++ [n]) c) by (apply (lies_app _ _ _ _ _ L); econstructor; [exact I0|constructor]).
    assert (Skip : ~ is_directory c -> exists ls', snd (below (install ++ text r) es (base ++ ls)%list) = (base ++ ls')%list /\ links_only ls' /\
      forall path h, In (path, h) (fst (below (install ++ text r) es (base ++ ls)%list)) <-> exists m d p x, In (m, d) ((n, c) :: es) /\ is_directory d /\ produced d p x /\ path = install ++ text (r ++ m :: p)%list /\
        h = mark x /\ excluded base (r ++ m :: p) = false).
    { intros Nc. destruct (IH ls Hin' Hl) as (ls' & S & Hl' & E). exists ls'. split; [exact S|]. split; [exact Hl'|]. intros path h. rewrite E.
      split; intros (m & d & p & x & I & R); exists m, d, p, x; (split; [|exact R]); [now right|]. destruct I as [I|I]; [|exact I]. injection I as -> ->. now elim Nc. }
    destruct c as [ct|g to|ds]; try (apply Skip; intros [? K]; discriminate K). clear Skip. cbn [below]. fold (below (install ++ text r)).
    rewrite join_root by assumption. destruct (Rec n _ I0 (r ++ [n])%list base ls Ln Hl) as (ls1 & S1 & Hl1 & E1).
    rewrite S1. destruct (IH ls1 Hin' Hl1) as (ls' & S & Hl' & E). exists ls'. cbn [fst snd]. split; [exact S|]. split; [exact Hl'|].
    intros path h. rewrite in_app_iff, E1, E. split.
    - intros [(Di & p & x & Pr & Hp & R)|(m & d & p & x & I & R)].
      + exists n, (NDir ds), p, x. split; [now left|]. split; [exact Di|]. split; [exact Pr|]. rewrite <- app_assoc in Hp, R. now split.
      + exists m, d, p, x. split; [now right|exact R].
    - intros (m & d & p & x & [I|I] & Di & Pr & Hp & R); [left|right; exists m, d, p, x; now repeat (split; try assumption)].
      injection I as -> <-. split; [exact Di|]. exists p, x. rewrite <- app_assoc. now repeat (split; try assumption).
  Qed.

  Lemma walk_spec t : walk_right t.
  Proof.
    induction t as [c|g to|es Rec] using node_induction; intros r base ls L Hl.
    - exists ls. cbn. split; [reflexivity|]. split; [exact Hl|]. intros path h. split; [tauto|]. intros [[es K] _]. discriminate K.
    - exists ls. cbn. split; [reflexivity|]. split; [exact Hl|]. intros path h. split; [tauto|]. intros [[es K] _]. discriminate K.
    - rewrite walk_dir. destruct (below_spec r es es base ls Rec L (fun e H => H) Hl) as (ls1 & S1 & Hl1 & E1). cbv zeta in S1 |- *. rewrite S1.
      destruct (link_dirs_spec r es es base ls1 L (fun e H => H) Hl1) as (ls2 & S2 & Hl2 & E2). cbv zeta in S2 |- *. rewrite S2. exists ls2. cbn [fst snd].
      split; [reflexivity|]. split; [exact Hl2|]. intros path h. rewrite !in_app_iff, E1, E2, (plain_files_spec r es es base ls2 L (fun e H => H) Hl2 path h).
      rewrite hep, (excl_same _ _ _ _ Hl2 L). split.
      + intros H. split; [now exists es|]. destruct H as [(n & c & p & x & I & _ & Pr & R)|[(n & g & I & R)|[H|(n & c & I & N1 & N2 & R)]]].
        * exists (n :: p), x. split; [|exact R]. destruct Pr as [Lp Np]. split; [|exact Np]. now apply (lies_below es n c).
        * exists [n], (NLink g ToDir). split; [|exact R]. split; [|intros ? K; discriminate K]. apply (lies_below es n _ _ _ I). constructor.
        * destruct es; [|now elim H]. destruct (excluded base r) eqn:X; [now elim H|]. destruct H as [H|[]]. injection H as <- <-.
          exists [], (NDir []). rewrite !app_nil_r. repeat split; [constructor|intros ? K; now injection K as <-|exact X].
        * exists [n], c. split; [|exact R]. split; [|intros es' K; now elim (N1 es')]. apply (lies_below es n _ _ _ I). constructor.
      + intros [_ (p & x & [Lp Np] & Hp & R)]. inversion Lp as [y|es' n c q y I Lq]; subst.
        * specialize (Np es eq_refl). subst es. right; right; left. rewrite !app_nil_r in *. destruct R as [-> ->]. now left.
        * destruct c as [ct|g to|ds].
          -- inversion Lq; subst. right; right; right. exists n, (NFile ct). repeat split; try congruence; apply R.
          -- inversion Lq; subst. destruct to as [ct| |].
             ++ right; right; right. exists n, (NLink g (ToFile ct)). repeat split; try congruence; apply R.
             ++ right; left. exists n, g. repeat split; try congruence; apply R.
             ++ right; right; right. exists n, (NLink g Nowhere). repeat split; try congruence; apply R.
          -- left. exists n, (NDir ds), q, x. split; [exact I|]. split; [now exists ds|]. split; [now split|]. now split.
  Qed.

  (** ** One listed path *)
  Lemma inside_text p : inside install (install ++ text p) = Some (text p).
  Proof.
    unfold inside. replace (py_startswith (install ++ text p) install) with true by (symmetry; apply startswith_iff; now exists (text p)).
    rewrite drop_app. destruct p as [|n p]; [reflexivity|].
    replace (py_startswith (text (n :: p)) "/") with true by (symmetry; apply startswith_iff; exists (n ++ text p); reflexivity). now rewrite orb_true_r.
  Qed.
  Lemma node_at_text p : List.Forall good_name p -> node_at install t0 (install ++ text p) = find_node t0 p.
  Proof.
    intros F. unfold node_at. rewrite inside_text, names_of_text by exact F.
    replace (py_endswith (install ++ text p) "/") with false.
    - destruct (find_node t0 p) as [[c|g to|es]|]; reflexivity.
    - symmetry. destruct (py_endswith (install ++ text p) "/") eqn:E; [|reflexivity]. apply endswith_iff in E.
      elim (text_no_end install p (proj2 Pd) F E).
  Qed.
  Lemma glob_text pi p : explicit pi p -> glob install t0 (install ++ text p) = match find_node t0 p with Some _ => [install ++ text p] | None => [] end.
  Proof.
    intros (N & F & E & M1 & M2 & M3). unfold glob. rewrite inside_text.
    replace (has_magic (text p)) with false.
    - now rewrite node_at_text.
    - symmetry. unfold has_magic. rewrite !orb_false_iff.
      assert (G : forall c, free_of c (text p) -> char_in c (text p) = false).
      { intros c K. destruct (char_in c (text p)) eqn:E'; [|reflexivity]. apply char_in_iff in E'. now elim K. }
      repeat split; now apply G.
  Qed.
  Lemma join_install p : p <> [] -> List.Forall good_name p -> join_path install [text p] = install ++ text p.
  Proof.
    intros N F. unfold join_path. cbn [fold_left]. unfold join_path2. rewrite lstrip_text by assumption. destruct Pd as [Ni Ei].
    destruct (String.eqb_spec install ""); [congruence|]. destruct (py_endswith install "/") eqn:K; [apply endswith_iff in K; contradiction|].
    cbn [orb]. now rewrite (text_short p N).
  Qed.
  Lemma join_short p : p <> [] -> List.Forall good_name p -> join_path install [short p] = install ++ text p.
  Proof.
    intros N F. unfold join_path. cbn [fold_left]. unfold join_path2. rewrite lstrip_short by assumption. destruct Pd as [Ni Ei].
    destruct (String.eqb_spec install ""); [congruence|]. destruct (py_endswith install "/") eqn:K; [apply endswith_iff in K; contradiction|].
    cbn [orb]. now rewrite (text_short p N).
  Qed.

  Definition top_mark (x : node) : option string :=
    match x with NFile c | NLink _ (ToFile c) => Some (sha1 c) | NLink g _ => Some (sha1 g) | NDir _ => None end.
  Definition yields (base : list string) (p f : list string) (x : node) (h : option string) : Prop :=
    produced t0 f x /\ covers p f /\
    ((p = f /\ ~ is_directory x /\ h = top_mark x) \/ ((p <> f \/ is_directory x) /\ h = mark x /\ excluded base f = false)).
  Lemma hashes_spec p base ls : List.Forall good_name p -> links_only ls ->
    let w := get_file_hashes sha1 install t0 (install ++ text p) (base ++ ls)%list in
    exists ls', snd w = (base ++ ls')%list /\ links_only ls' /\
      forall path h, In (path, h) (fst w) <-> exists f x, path = install ++ text f /\ yields base p f x h.
  Proof.
    intros F Hl. unfold get_file_hashes. rewrite node_at_text by exact F.
    assert (Single : forall x, find_node t0 p = Some x -> ~ is_directory x ->
      forall path h, In (path, h) [(install ++ text p, top_mark x)] <-> exists f x, path = install ++ text f /\ yields base p f x h).
    { intros x Fx Nx path h. apply (find_lies _ _ _ W) in Fx. cbn. split.
      - intros [H|[]]. injection H as <- <-. exists p, x. split; [reflexivity|]. split; [split; [exact Fx|intros es ->; elim Nx; now exists es]|].
        split; [apply covers_refl|]. left. auto.
      - intros (f & y & -> & [Ly Ny] & [r ->] & C). apply lies_split in Ly as (z & Lz & Ly). rewrite <- (lies_fun _ _ _ _ W Fx Lz) in Ly.
        inversion Ly as [z' Ez Er|]; [|subst; elim Nx; eexists; reflexivity]. subst. rewrite app_nil_r in *.
        destruct C as [(_ & _ & ->)|([C|C] & _)]; [now left|congruence|contradiction]. }
    destruct (find_node t0 p) as [[c|g to|es]|] eqn:Fx.
    - exists ls. cbn [fst snd]. split; [reflexivity|]. split; [exact Hl|]. apply (Single (NFile c) eq_refl). intros [? K]; discriminate K.
    - assert (Nd : ~ is_directory (NLink g to)) by (intros [? K]; discriminate K). pose proof (Single _ eq_refl Nd) as S. clear Single.
      destruct to; cbn [top_mark] in S; (exists ls; cbn [fst snd]; split; [reflexivity|]; split; [exact Hl|exact S]).
    - apply (find_lies _ _ _ W) in Fx. destruct (walk_spec (NDir es) p base ls Fx Hl) as (ls' & S & Hl' & Ew). exists ls'. split; [exact S|]. split; [exact Hl'|].
      intros path h. rewrite Ew. split.
      + intros [_ (q & x & [Lq Nq] & -> & -> & X)]. exists (p ++ q)%list, x. split; [reflexivity|]. split; [split; [now apply (lies_app _ _ _ _ _ Fx)|exact Nq]|].
        split; [now exists q|]. right. split; [|auto]. inversion Lq; subst; [right; now exists es|]. left. intros K. rewrite <- (app_nil_r p) in K at 1. apply app_inv_head in K. discriminate K.
      + intros (f & x & -> & [Lx Nx] & [q ->] & C). split; [now exists es|]. apply lies_split in Lx as (z & Lz & Lx). rewrite <- (lies_fun _ _ _ _ W Fx Lz) in Lx.
        exists q, x. split; [now split|]. split; [reflexivity|]. destruct C as [(C & Nd & _)|(_ & C)]; [|exact C].
        rewrite <- (app_nil_r p) in C at 1. apply app_inv_head in C. subst q. inversion Lx; subst. elim Nd. now exists es.
    - exists ls. cbn. split; [reflexivity|]. split; [exact Hl|]. intros path h. split; [tauto|]. intros (f & x & _ & [Lx _] & [q ->] & _).
      apply lies_split in Lx as (z & Lz & _). apply (find_lies _ _ _ W) in Lz. congruence.
  Qed.

  (** ** The packages of a spec *)
  Context (pkgs : list (list pathinfo)) (X : all_explicit pkgs) (U : unambiguous install t0 pkgs) (i : nat).

  Lemma in_nth pi : In pi (nth i pkgs []) <-> lists pkgs i pi.
  Proof.
    unfold lists. destruct (nth_error pkgs i) as [l|] eqn:E.
    - rewrite (nth_error_nth pkgs i [] E). split; [intros H; now exists l|]. intros (l' & K & H). congruence.
    - rewrite nth_overflow by now apply nth_error_None. split; [intros []|]. intros (l & K & _). congruence.
  Qed.
  Lemma names_in p : names pkgs i p <-> exists pi, In pi (nth i pkgs []) /\ explicit pi p.
  Proof. unfold names. split; intros (pi & H & K); exists pi; (split; [|exact K]); now apply in_nth. Qed.
  Lemma in_others (l : list pathinfo) : In l (others i pkgs) <-> exists j, j <> i /\ nth_error pkgs j = Some l.
  Proof.
    clear X U. unfold others. rewrite in_app_iff. revert i. induction pkgs as [|m ms IH]; intros k.
    - rewrite firstn_nil, skipn_nil. cbn. split; [tauto|]. intros (j & _ & H). destruct j; discriminate H.
    - destruct k as [|k]; cbn [firstn skipn In].
      + split.
        * intros [[]|H]. apply In_nth_error in H as [j H]. exists (S j). split; [lia|exact H].
        * intros (j & Nj & H). destruct j as [|j]; [lia|]. right. exact (nth_error_In ms j H).
      + specialize (IH k). split.
        * intros [[H|H]|H].
          -- exists O. split; [lia|]. cbn. congruence.
          -- destruct (proj1 IH (or_introl H)) as (j & Nj & Hj). exists (S j). split; [lia|exact Hj].
          -- destruct (proj1 IH (or_intror H)) as (j & Nj & Hj). exists (S j). split; [lia|exact Hj].
        * intros (j & Nj & H). destruct j as [|j]; [left; left; cbn in H; congruence|].
          assert (G : exists j, j <> k /\ nth_error ms j = Some l) by (exists j; split; [lia|exact H]).
          destruct (proj2 IH G) as [H'|H']; [left; now right|now right].
  Qed.

  Definition taken_away (f : list string) : Prop :=
    exists j q p', j <> i /\ names pkgs j q /\ covers q f /\ names pkgs i p' /\ covers p' q.
  Lemma excluded_iff f x : produced t0 f x -> excluded (check_path_collision i pkgs) f = true <-> taken_away f.
  Proof.
    intros Pf. unfold excluded. rewrite existsb_exists. unfold check_path_collision. split.
    - intros (s & I & E). apply in_flat_map in I as (pi & Ipi & I). apply in_flat_map in I as (l & Il & I). apply in_flat_map in I as (pj & Ipj & I).
      destruct (subpath (pi_path pi) (pi_path pj)) eqn:Sp; [|destruct I]. destruct I as [<-|[]].
      apply in_nth in Ipi. apply in_others in Il as (j & Nj & Il). assert (Lj : lists pkgs j pj) by (exists l; now split).
      destruct (X i pi Ipi) as [p' Ep]. destruct (X j pj Lj) as [q Eq]. pose proof Ep as (Np & Fp & Tp & _). pose proof Eq as (Nq & Fq & Tq & _).
      rewrite Tp, Tq in Sp. apply subpath_text in Sp; [|assumption..]. rewrite Tq in E. apply startswith_iff in E as [r E].
      assert (Nj' : names pkgs j q) by (exists pj; now split). exists j, q, p'. split; [exact Nj|]. split; [exact Nj'|]. split.
      + apply (U j q f x Nj' Pf). exists "", r. cbn. rewrite E. now rewrite str_app_assoc.
      + split; [exists pi; now split|exact Sp].
    - intros (j & q & p' & Nj & (pj & (l & Hl & Ij) & Eq) & Cq & (pi & Lpi & Ep) & Cp). exists (pi_path pj).
      pose proof Ep as (Np & Fp & Tp & _). pose proof Eq as (Nq & Fq & Tq & _). split; [|rewrite Tq; now apply covers_starts].
      apply in_flat_map. exists pi. split; [now apply in_nth|]. apply in_flat_map. exists l. split; [apply in_others; now exists j|].
      apply in_flat_map. exists pj. split; [exact Ij|]. rewrite Tp, Tq. rewrite (proj2 (subpath_text p' q Np Nq Fp Fq) Cp). now left.
  Qed.

  Lemma produced_names f x : produced t0 f x -> List.Forall good_name f.
  Proof. intros [L _]. exact (proj1 (lies_names _ _ _ W L)). Qed.
  Lemma explicit_fun pi p q : explicit pi p -> explicit pi q -> p = q.
  Proof. intros (_ & F & E & _) (_ & G & E' & _). apply text_inj; congruence. Qed.

  Lemma match_iff pi p f x : lists pkgs i pi -> explicit pi p -> produced t0 f x -> f <> [] ->
    match match_ install t0 (short f) (pi_path pi) with [] => false | _ => true end = true <-> covers p f.
  Proof.
    intros Li Ep Pf Nf. pose proof Ep as (Np & Fp & Tp & _). unfold match_. rewrite Tp, (glob_text pi p Ep), join_short by (assumption || exact (produced_names f x Pf)).
    assert (O : occurs (install ++ text p) (install ++ text f) = true <-> covers p f).
    { rewrite occurs_iff. split.
      - intros H. apply (U i p f x); [exists pi; now split|exact Pf|exact H].
      - intros [r ->]. exists "", (text r). cbn. rewrite text_app. now rewrite str_app_assoc. }
    destruct (find_node t0 p) as [z|] eqn:Fz.
    - cbn [List.filter]. destruct (occurs (install ++ text p) (install ++ text f)); [tauto|]. split; [discriminate|]. intros C. now apply O in C.
    - cbn. split; [discriminate|]. intros [r ->]. destruct Pf as [L _]. apply lies_split in L as (z & Lz & _). apply (find_lies _ _ _ W) in Lz. congruence.
  Qed.

  Lemma file_type_spec p f x : names pkgs i p -> covers p f -> produced t0 f x ->
    exists q pi, nearest pkgs i f q /\ first_entry pkgs i q pi /\
      get_file_type install t0 (short f) (nth i pkgs []) = Ok (pi_type pi, pi_permanent pi).
  Proof.
    intros Np Cp Pf. assert (Nf : f <> []). { destruct Np as (pi & _ & (N & _)). destruct Cp as [r ->]. destruct p; [congruence|discriminate]. }
    unfold get_file_type. set (good := fun pinfo => match match_ install t0 (short f) (pi_path pinfo) with [] => false | _ => true end).
    set (ms := map pi_path (List.filter good (nth i pkgs []))).
    assert (Ms : forall s, In s ms <-> exists q, names pkgs i q /\ covers q f /\ s = text q).
    { intros s. unfold ms. rewrite in_map_iff. split.
      - intros (pi & <- & I). apply filter_In in I as [I G]. apply in_nth in I. destruct (X i pi I) as [q Eq].
        exists q. split; [exists pi; now split|]. split; [apply (match_iff pi q f x I Eq Pf Nf); exact G|]. apply Eq.
      - intros (q & (pi & I & Eq) & C & ->). exists pi. split; [apply Eq|]. apply filter_In. split; [now apply in_nth|].
        apply (match_iff pi q f x I Eq Pf Nf); exact C. }
    assert (Pre : forall s, In s ms -> exists a, text f = s ++ a).
    { intros s Hs. apply Ms in Hs as (q & _ & [r ->] & ->). exists (text r). apply text_app. }
    pose proof (greatest_spec ms (text f) Pre) as G. destruct (greatest ms) as [best|].
    2:{ exfalso. assert (H : In (text p) ms) by (apply Ms; now exists p). rewrite G in H. destruct H. }
    destruct G as [Ib Mb]. apply Ms in Ib as (q & Nq & Cq & ->).
    assert (Near : nearest pkgs i f q).
    { split; [exact Nq|]. split; [exact Cq|]. intros r Nr Cr. assert (Hr : In (text r) ms) by (apply Ms; now exists r). apply Mb in Hr.
      destruct (le_lt_dec (length r) (length q)) as [L|L]; [exact (covers_compare r q f Cr Cq L)|].
      destruct (covers_compare q r f Cq Cr) as [u ->]; [lia|]. rewrite text_app, str_app_length in Hr. destruct u as [|n u]; [rewrite app_nil_r in L; lia|].
      rewrite text_cons, !str_app_length in Hr. change (String.length "/") with 1%nat in Hr. lia. }
    exists q. assert (Fil : forall l, (exists pi, In pi l /\ pi_path pi = text q) -> exists pi before after, l = (before ++ pi :: after)%list /\ pi_path pi = text q /\
        (forall pj, In pj before -> pi_path pj <> text q) /\ exists rest, List.filter (fun pinfo => String.eqb (text q) (pi_path pinfo)) l = pi :: rest).
    { induction l as [|pj l IH]; [intros (pi & [] & _)|]. intros (pi & I & E). cbn [List.filter]. destruct (String.eqb_spec (text q) (pi_path pj)) as [K|K].
      - exists pj, [], l. split; [reflexivity|]. split; [now symmetry|]. split; [intros ? []|]. eexists; reflexivity.
      - destruct IH as (pk & b & a & -> & Ek & Nb & rest & Hr); [exists pi; split; [|exact E]; destruct I as [->|I]; [now elim K|exact I]|].
        exists pk, (pj :: b), a. split; [reflexivity|]. split; [exact Ek|]. split; [|now exists rest]. intros pm [<-|Im]; [congruence|now apply Nb]. }
    destruct Nq as (pi & Lpi & Epi). destruct (Fil (nth i pkgs [])) as (pk & b & a & El & Ek & Nb & rest & Hr).
    { exists pi. split; [now apply in_nth|apply Epi]. }
    exists pk. split; [exact Near|]. split.
    - destruct Lpi as (l & Hl & _). exists l, b, a. split; [exact Hl|]. rewrite (nth_error_nth pkgs i [] Hl) in El. now repeat split.
    - now rewrite Hr.
  Qed.

  (** ** The whole list *)
  Definition right_info (f : list string) (x : node) (info : fileinfo) : Prop :=
    exists p pi, nearest pkgs i f p /\ first_entry pkgs i p pi /\ gi_type info = pi_type pi /\ gi_permanent info = pi_permanent pi /\
      fingerprint sha1 x (gi_hash info).
  Definition recorded (S : list string -> Prop) (d : gmap string fileinfo) : Prop :=
    (forall key info, d !! key = Some info -> exists f x, key = short f /\ S f /\ produced t0 f x /\ right_info f x info) /\
    (forall f, S f -> is_Some (d !! short f)).

  Lemma add_file_spec S d p f x h : recorded S d -> names pkgs i p -> covers p f -> produced t0 f x -> fingerprint sha1 x h ->
    exists d', add_file install t0 (nth i pkgs []) d (install ++ text f, h) = Ok d' /\ recorded (fun g => S g \/ g = f) d'.
  Proof.
    intros [R1 R2] Np Cp Pf Fp. assert (Nf : f <> []). { destruct Np as (pi & _ & (N & _)). destruct Cp as [r ->]. destruct p; [congruence|discriminate]. }
    pose proof (produced_names f x Pf) as Ff. unfold add_file. cbn [fst snd].
    rewrite <- (join_install f Nf Ff), (removepathprefix_join install (short f) (text f) (short_relative f Nf Ff) (lstrip_text f Nf Ff)). cbn [bind].
    destruct (file_type_spec p f x Np Cp Pf) as (q & pi & Near & Fi & ->). cbn [bind fst snd]. eexists. split; [reflexivity|]. split.
    - intros key info H. destruct (decide (key = short f)) as [->|K].
      + rewrite lookup_insert in H. injection H as <-. exists f, x. split; [reflexivity|]. split; [now right|]. split; [exact Pf|]. exists q, pi. repeat split; try reflexivity; try assumption; try apply Near; apply Fi.
      + rewrite lookup_insert_ne in H by congruence. destruct (R1 _ _ H) as (g & y & E & Sg & R). exists g, y. split; [exact E|]. split; [now left|exact R].
    - intros g [Sg| ->]; [|rewrite lookup_insert; now eexists]. destruct (decide (short g = short f)) as [->|K]; [rewrite lookup_insert; now eexists|].
      rewrite lookup_insert_ne by congruence. now apply R2.
  Qed.
  Lemma add_files_spec p items : names pkgs i p -> forall S d, recorded S d ->
    (forall path h, In (path, h) items -> exists f x, path = install ++ text f /\ covers p f /\ produced t0 f x /\ fingerprint sha1 x h) ->
    exists d', foldM (add_file install t0 (nth i pkgs [])) items d = Ok d' /\ recorded (fun g => S g \/ exists h x, In (install ++ text g, h) items /\ produced t0 g x) d'.
  Proof.
    intros Np. induction items as [|[path h] items IH]; intros S d R H.
    - exists d. split; [reflexivity|]. destruct R as [R1 R2]. split.
      + intros key info K. destruct (R1 key info K) as (f & x & E & Sf & Q). exists f, x. split; [exact E|]. split; [now left|exact Q].
      + intros f [Sf|(h & x & [] & _)]. now apply R2.
    - destruct (H path h (or_introl eq_refl)) as (f & x & -> & C & Pf & Fp). destruct (add_file_spec S d p f x h R Np C Pf Fp) as (d1 & E1 & R1).
      destruct (IH _ d1 R1) as (d2 & E2 & [Q1 Q2]). { intros path' h' I. apply H. now right. }
      exists d2. split; [cbn [foldM]; rewrite E1; exact E2|]. split.
      + intros key info K. destruct (Q1 key info K) as (g & y & E & Sg & Q). exists g, y. split; [exact E|]. split; [|exact Q].
        destruct Sg as [[Sg| ->]|(h' & z & I & Pz)]; [now left|right; exists h, x; split; [now left|exact Pf]|right; exists h', z; split; [now right|exact Pz]].
      + intros g Sg. apply Q2. destruct Sg as [Sg|(h' & z & [I|I] & Pz)]; [left; now left| |right; exists h', z; now split].
        left. right. injection I as I _. apply text_inj; [exact (produced_names g z Pz)|exact (produced_names f x Pf)|].
        apply (f_equal (py_drop (String.length install))) in I. rewrite !drop_app in I. now symmetry.
  Qed.

  Lemma recorded_ext S S' d : (forall f, S f <-> S' f) -> recorded S d -> recorded S' d.
  Proof.
    intros E [R1 R2]. split.
    - intros key info K. destruct (R1 key info K) as (f & x & Ek & Sf & Q). exists f, x. split; [exact Ek|]. split; [now apply E|exact Q].
    - intros f Sf. apply R2. now apply E.
  Qed.

  Definition coll : list string := check_path_collision i pkgs.
  Definition given_by (p f : list string) : Prop := exists x h, yields coll p f x h.
  Lemma yields_fingerprint base p f x h : yields base p f x h -> fingerprint sha1 x h.
  Proof.
    intros (_ & _ & [(_ & _ & ->)|(_ & -> & _)]).
    - destruct x as [c|g [c| |]|es]; constructor.
    - destruct x as [c|g to|es]; constructor.
  Qed.
  Lemma one_path pi p S d ls : lists pkgs i pi -> explicit pi p -> recorded S d -> links_only ls ->
    exists d' ls', foldM (add_path sha1 install t0 (nth i pkgs [])) (glob install t0 (join_path install [pi_path pi])) (d, (coll ++ ls)%list) = Ok (d', (coll ++ ls')%list) /\
      links_only ls' /\ recorded (fun f => S f \/ given_by p f) d'.
  Proof.
    intros Li Ep R Hl. pose proof Ep as (Np & Fp & Tp & _). assert (Nm : names pkgs i p) by (exists pi; now split).
    rewrite Tp, (join_install p Np Fp), (glob_text pi p Ep). destruct (find_node t0 p) as [z|] eqn:Fz.
    - cbn [foldM]. unfold add_path. cbn [fst snd]. destruct (hashes_spec p coll ls Fp Hl) as (ls' & Sn & Hl' & Eh). cbv zeta in Sn, Eh. rewrite Sn.
      destruct (add_files_spec p (fst (get_file_hashes sha1 install t0 (install ++ text p) (coll ++ ls)%list)) Nm S d R) as (d' & E & R').
      { intros path h I. apply Eh in I as (f & x & -> & Y). exists f, x. split; [reflexivity|]. split; [apply Y|]. split; [apply Y|]. exact (yields_fingerprint _ _ _ _ _ Y). }
      exists d', ls'. rewrite E. split; [reflexivity|]. split; [exact Hl'|]. apply (recorded_ext _ _ _ (fun f => conj
        (fun H => match H with or_introl a => or_introl a | or_intror b => or_intror b end) (fun H => H))) in R'. revert R'. apply recorded_ext.
      intros f. split; (intros [Sf|H]; [now left|right]).
      + destruct H as (h & x & I & Pf). apply Eh in I as (g & y & E' & Y). exists y, h.
        assert (f = g) as ->; [|exact Y]. apply text_inj; [exact (produced_names f x Pf)|exact (produced_names g y (proj1 Y))|].
        apply (f_equal (py_drop (String.length install))) in E'. now rewrite !drop_app in E'.
      + destruct H as (x & h & Y). exists h, x. split; [|apply Y]. apply Eh. exists f, x. now split.
    - exists d, ls. split; [reflexivity|]. split; [exact Hl|]. revert R. apply recorded_ext. intros f. split; [now left|]. intros [Sf|(x & h & [L _] & [r ->] & _)]; [exact Sf|].
      apply lies_split in L as (z & Lz & _). apply (find_lies _ _ _ W) in Lz. congruence.
  Qed.
  Lemma all_paths l : (forall pi, In pi l -> lists pkgs i pi) -> forall S d ls, recorded S d -> links_only ls ->
    exists d' ls', foldM (fun st pinfo => foldM (add_path sha1 install t0 (nth i pkgs [])) (glob install t0 (join_path install [pi_path pinfo])) st) l (d, (coll ++ ls)%list) = Ok (d', (coll ++ ls')%list) /\
      recorded (fun f => S f \/ exists pi p, In pi l /\ explicit pi p /\ given_by p f) d'.
  Proof.
    induction l as [|pi l IH]; intros Hin S d ls R Hl.
    - exists d, ls. split; [reflexivity|]. revert R. apply recorded_ext. intros f. split; [now left|]. intros [Sf|(pi & p & [] & _)]. exact Sf.
    - assert (Li : lists pkgs i pi) by (apply Hin; now left). destruct (X i pi Li) as [p Ep]. destruct (one_path pi p S d ls Li Ep R Hl) as (d1 & ls1 & E1 & Hl1 & R1).
      destruct (IH (fun q Hq => Hin q (or_intror Hq)) _ d1 ls1 R1 Hl1) as (d2 & ls2 & E2 & R2). exists d2, ls2. split; [cbn [foldM]; rewrite E1; exact E2|].
      revert R2. apply recorded_ext. intros f. split.
      + intros [[Sf|G]|(pj & q & I & Eq & G)]; [now left|right; exists pi, p; split; [now left|now split]|right; exists pj, q; split; [now right|now split]].
      + intros [Sf|(pj & q & [<-|I] & Eq & G)]; [left; now left|left; right; now rewrite (explicit_fun pi p q Ep Eq)|right; exists pj, q; now repeat split; try apply Eq; try apply G].
  Qed.

  Lemma given_belongs f : (exists pi p, In pi (nth i pkgs []) /\ explicit pi p /\ given_by p f) <-> belongs t0 pkgs i f.
  Proof.
    split.
    - intros (pi & p & I & Ep & x & h & Pf & C & Y). exists x, p. split; [exact Pf|]. split; [exists pi; split; [now apply in_nth|exact Ep]|]. split; [exact C|].
      destruct Y as [(-> & Nd & _)|(_ & _ & E)]; [left; now split|right]. intros T. apply (excluded_iff f x Pf) in T. unfold coll in E. congruence.
    - intros (x & p & Pf & (pi & Li & Ep) & C & Y). exists pi, p. split; [now apply in_nth|]. split; [exact Ep|]. 
      destruct (decide (p = f)) as [->|Npf].
      + destruct x as [c|g to|es].
        * exists (NFile c), (top_mark (NFile c)). split; [exact Pf|]. split; [exact C|]. left. repeat split. intros [? K]; discriminate K.
        * exists (NLink g to), (top_mark (NLink g to)). split; [exact Pf|]. split; [exact C|]. left. repeat split. intros [? K]; discriminate K.
        * destruct Y as [(_ & Nd)|Y]; [elim Nd; now exists es|]. exists (NDir es), None. split; [exact Pf|]. split; [exact C|]. right.
          split; [right; now exists es|]. split; [reflexivity|]. destruct (excluded coll f) eqn:E; [|reflexivity]. elim Y. now apply (excluded_iff f _ Pf).
      + destruct Y as [[K _]|Y]; [congruence|]. exists x, (mark x). split; [exact Pf|]. split; [exact C|]. right. split; [now left|]. split; [reflexivity|].
        destruct (excluded coll f) eqn:E; [|reflexivity]. elim Y. now apply (excluded_iff f x Pf).
  Qed.

  Lemma gen_files_spec : exists d, gen_files_xml sha1 install t0 pkgs i = Ok d /\ recorded (belongs t0 pkgs i) d.
  Proof.
    unfold gen_files_xml. fold coll. destruct (all_paths (nth i pkgs []) (fun pi H => proj1 (in_nth pi) H) (fun _ => False) ∅ []) as (d & ls & E & R).
    - split; [intros key info H; rewrite lookup_empty in H; discriminate H|intros f []].
    - intros s [].
    - rewrite app_nil_r in E. rewrite E. cbn [bind fst]. exists d. split; [reflexivity|]. revert R. apply recorded_ext. intros f. rewrite <- given_belongs. tauto.
  Qed.
End contents.
