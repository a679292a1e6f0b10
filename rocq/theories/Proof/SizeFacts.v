(** * Sizes of packages *)
From Coq Require Import String Ascii List Bool Arith Lia Permutation.
From stdpp Require Import gmap strings.
From Verif Require Import Model.Py Model.Path Model.Contents Model.Size Spec.PathSpec Spec.ContentsSpec Spec.SizeSpec
  Proof.PyFacts Proof.PathFacts Proof.ContentsFacts Proof.ContentsTop Proof.WildFacts.
Import ListNotations.
Open Scope string_scope.

(** ** Sums *)
Lemma total_cons {A} (w : A -> nat) a l : total w (a :: l) = w a + total w l.
Proof. reflexivity. Qed.
Lemma total_app {A} (w : A -> nat) l l' : total w (l ++ l')%list = total w l + total w l'.
Proof. unfold total. induction l as [|a l IH]; cbn; [reflexivity|]. rewrite IH. lia. Qed.
Lemma total_map {A B} (w : B -> nat) (g : A -> B) l : total w (map g l) = total (fun a => w (g a)) l.
Proof. induction l as [|a l IH]; [reflexivity|]. cbn. f_equal. exact IH. Qed.
Lemma total_ext {A} (w w' : A -> nat) l : (forall a, In a l -> w a = w' a) -> total w l = total w' l.
Proof. induction l as [|a l IH]; intros H; [reflexivity|]. cbn. rewrite H by now left. f_equal. apply IH. intros b I. apply H. now right. Qed.
Lemma total_perm {A} (w : A -> nat) l l' : Permutation l l' -> total w l = total w l'.
Proof. unfold total. induction 1; cbn; lia. Qed.
Lemma total_zero {A} (w : A -> nat) l : (forall a, In a l -> w a = 0) -> total w l = 0.
Proof. induction l as [|a l IH]; intros H; [reflexivity|]. cbn. rewrite H by now left. apply IH. intros b I. apply H. now right. Qed.
Lemma total_single {A} (w : A -> nat) l a : List.NoDup l -> In a l -> (forall b, In b l -> b <> a -> w b = 0) -> total w l = w a.
Proof.
  induction l as [|c l IH]; intros D I H; [destruct I|]. apply NoDup_cons_iff in D as [N D]. cbn. destruct I as [->|I].
  - fold (total w l). rewrite (total_zero w l); [lia|]. intros b Ib. apply H; [now right|]. intros ->. contradiction.
  - fold (total w l). rewrite (H c); [|now left|intros ->; contradiction]. apply IH; [exact D|exact I|]. intros b Ib. apply H. now right.
Qed.
Lemma total_plus {A} (w w' : A -> nat) l : total (fun a => w a + w' a) l = total w l + total w' l.
Proof. unfold total. induction l as [|a l IH]; cbn; [reflexivity|]. rewrite IH. lia. Qed.
Lemma total_swap {A B} (w : A -> B -> nat) l l' : total (fun a => total (w a) l') l = total (fun b => total (fun a => w a b) l) l'.
Proof.
  induction l as [|a l IH]; cbn; [symmetry; now apply total_zero|]. fold (total (fun a => total (w a) l') l). rewrite IH.
  rewrite <- total_plus. apply total_ext. reflexivity.
Qed.
Lemma total_filter {A} (w : A -> nat) (p : A -> bool) l : total w (List.filter p l) = total (fun a => if p a then w a else 0) l.
Proof. induction l as [|a l IH]; [reflexivity|]. unfold total in *. cbn. destruct (p a); cbn; now rewrite IH. Qed.
Lemma fold_total {A} (w : A -> nat) l : forall s, fold_left (fun s a => s + w a) l s = s + total w l.
Proof. induction l as [|a l IH]; intros s; cbn; [lia|]. rewrite IH. cbn. unfold total. lia. Qed.
Lemma total_const {A} k (l : list A) : total (fun _ => k) l = k * length l.
Proof. induction l as [|a l IH]; cbn; [lia|]. fold (total (fun _ => k) l). rewrite IH. lia. Qed.

(** ** All that was produced *)
Fixpoint enum (t : node) : list (list string * node) :=
  match t with
  | NDir ((_ :: _) as es) =>
      (fix go (es : list (string * node)) := match es with [] => [] | (n, c) :: es => (map (fun e => (n :: fst e, snd e)) (enum c) ++ go es)%list end) es
  | _ => [([], t)]
  end.
Fixpoint enum_all (es : list (string * node)) : list (list string * node) :=
  match es with [] => [] | (n, c) :: es => (map (fun e => (n :: fst e, snd e)) (enum c) ++ enum_all es)%list end.
Lemma enum_dir e es : enum (NDir (e :: es)) = enum_all (e :: es).
Proof.
  change (enum (NDir (e :: es))) with ((fix go (es : list (string * node)) := match es with [] => [] | (n, c) :: es => (map (fun e => (n :: fst e, snd e)) (enum c) ++ go es)%list end) (e :: es)).
  generalize (e :: es). clear. induction l as [|[n c] l IH]; [reflexivity|]. cbn [enum_all]. now rewrite <- IH.
Qed.
Lemma enum_all_in es f x : In (f, x) (enum_all es) <-> exists n c p, In (n, c) es /\ f = n :: p /\ In (p, x) (enum c).
Proof.
  induction es as [|[n c] es IH]; cbn [enum_all]; [split; [intros []|intros (n & c & p & [] & _)]|]. rewrite in_app_iff, in_map_iff, IH. split.
  - intros [([p y] & E & I)|(n' & c' & p & I & R)]; [injection E as <- <-; exists n, c, p; split; [now left|]; now split|exists n', c', p; split; [now right|exact R]].
  - intros (n' & c' & p & [E|I] & -> & J); [injection E as <- <-; left; now exists (p, x)|right; now exists n', c', p].
Qed.
Lemma enum_in t : forall f x, In (f, x) (enum t) <-> produced t f x.
Proof.
  induction t as [c|g to|es Rec] using node_induction; intros f x.
  - cbn. split; [intros [E|[]]; injection E as <- <-; split; [constructor|discriminate]|intros [L _]; inversion L; subst; now left].
  - cbn. split; [intros [E|[]]; injection E as <- <-; split; [constructor|discriminate]|intros [L _]; inversion L; subst; now left].
  - destruct es as [|e es].
    + cbn. split; [intros [E|[]]; injection E as <- <-; split; [constructor|now intros es [= <-]]|intros [L _]; inversion L as [|es n c p y I]; subst; [now left|destruct I]].
    + rewrite enum_dir, enum_all_in. split.
      * intros (n & c & p & I & -> & J). apply (Rec n c I) in J as [L N]. split; [now apply (lies_below _ n c)|exact N].
      * intros [L N]. inversion L as [|es' n c p y I L']; subst; [specialize (N _ eq_refl); discriminate N|]. exists n, c, p. split; [exact I|]. split; [reflexivity|]. apply (Rec n c I). now split.
Qed.
Lemma enum_nodup t : well_formed t -> List.NoDup (enum t).
Proof.
  induction t as [c|g to|es Rec] using node_induction; intros W; try (repeat constructor; intros []).
  destruct es as [|e es]; [repeat constructor; intros []|]. rewrite enum_dir. inversion W as [| |es' D K]; subst. clear W. revert Rec D K. generalize (e :: es). clear.
  induction l as [|[n c] l IH]; intros Rec D K; [constructor|]. cbn [enum_all]. cbn in D. apply NoDup_cons_iff in D as [N D].
  assert (Dl : List.NoDup (enum_all l)) by (apply IH; [intros m d I; apply (Rec m); now right|exact D|intros m d I; apply K; now right]).
  assert (Dm : List.NoDup (map (fun e => (n :: fst e, snd e)) (enum c))).
  { apply FinFun.Injective_map_NoDup; [intros [a b] [a' b'] E; cbn in E; congruence|]. apply (Rec n c); [now left|]. apply (K n c). now left. }
  revert Dm. assert (Dis : forall e, In e (map (fun e => (n :: fst e, snd e)) (enum c)) -> ~ In e (enum_all l)).
  { intros e I J. apply in_map_iff in I as ([p y] & <- & _). apply enum_all_in in J as (m & d & q & I & E & _). injection E as <- _. apply N. exact (in_map fst _ _ I). }
  revert Dis. generalize (map (fun e => (n :: fst e, snd e)) (enum c)). clear -Dl. induction l0 as [|a l0 IH]; intros Dis Dm; [exact Dl|].
  apply NoDup_cons_iff in Dm as [Na Dm]. cbn. constructor; [rewrite in_app_iff; intros [I|I]; [contradiction|now apply (Dis a); [left|]]|]. apply IH; [intros e I; apply Dis; now right|exact Dm].
Qed.
Lemma enum_enumerates t : well_formed t -> enumerates t (enum t).
Proof. intros W. split; [now apply enum_nodup|exact (enum_in t)]. Qed.
Lemma enumerates_perm t l l' : enumerates t l -> enumerates t l' -> Permutation l l'.
Proof. intros [D H] [D' H']. apply NoDup_Permutation; [now apply NoDup_ListNoDup..|]. intros [f x]. rewrite !elem_of_list_In, H, H'. reflexivity. Qed.

Definition is_dir_link (x : node) : bool := match x with NLink _ ToDir => true | _ => false end.
Lemma is_dir_link_iff x : is_dir_link x = true <-> link_to_directory x.
Proof. unfold link_to_directory. destruct x as [|g []|]; cbn; split; intros H; first [discriminate H|(destruct H; discriminate)|eauto]. Qed.
Definition walked (x : node) : nat := if is_dir_link x then 0 else weight x.
Fixpoint walk_all (es : list (string * node)) : nat :=
  match es with
  | [] => 0
  | (_, c) :: es => match c with NDir _ => walk_size c | _ => walked c end + walk_all es
  end.
Lemma walk_size_dir es : walk_size (NDir es) = walk_all es.
Proof. cbn [walk_size]. induction es as [|[n c] es IH]; [reflexivity|]. cbn [walk_all]. rewrite <- IH. destruct c as [c|g []|es']; reflexivity. Qed.
Lemma walk_enum t : (forall es, t = NDir es -> walk_size t = total (fun e => walked (snd e)) (enum t)) /\ ((forall es, t <> NDir es) -> walked t = total (fun e => walked (snd e)) (enum t)).
Proof.
  induction t as [c|g to|es Rec] using node_induction.
  - split; [discriminate|]. intros _. cbn. lia.
  - split; [discriminate|]. intros _. cbn. lia.
  - split; [|intros H; now destruct (H es)]. intros es' _. rewrite walk_size_dir. destruct es as [|e es]; [reflexivity|]. rewrite enum_dir. revert Rec. generalize (e :: es). clear.
    induction l as [|[n c] l IH]; intros Rec; [reflexivity|]. cbn [walk_all enum_all]. rewrite total_app, total_map, IH by (intros m d I; apply (Rec m); now right).
    f_equal. cbn [snd]. destruct (Rec n c (or_introl eq_refl)) as [R1 R2]. destruct c as [c|g to|es']; [apply R2; discriminate|apply R2; discriminate|now apply (R1 es')].
Qed.

(** ** The part below a path *)
Definition covers_b (q f : list string) : bool := prefix String.eqb q f.
Lemma covers_b_iff q f : covers_b q f = true <-> covers q f.
Proof. unfold covers_b. apply (prefix_iff _ string_eqb_iff). Qed.
Lemma total_below t q z l (g : list string -> node -> nat) : well_formed t -> lies_at t q z -> enumerates t l ->
  total (fun e => if covers_b q (fst e) then g (skipn (length q) (fst e)) (snd e) else 0) l = total (fun e => g (fst e) (snd e)) (enum z).
Proof.
  intros W L E. pose proof (proj2 (lies_names _ _ _ W L)) as Wz.
  rewrite <- (total_filter (fun e => g (skipn (length q) (fst e)) (snd e)) (fun e => covers_b q (fst e))).
  transitivity (total (fun e => g (skipn (length q) (fst e)) (snd e)) (map (fun e => (q ++ fst e, snd e)%list) (enum z))).
  - apply total_perm. apply NoDup_Permutation.
    + apply NoDup_ListNoDup. apply List.NoDup_filter. exact (proj1 E).
    + apply NoDup_ListNoDup. apply FinFun.Injective_map_NoDup; [intros [a b] [a' b'] K; cbn in K; injection K as K1 K2; apply app_inv_head in K1; congruence|]. now apply enum_nodup.
    + intros [f x]. rewrite !elem_of_list_In, filter_In, in_map_iff. cbn [fst]. rewrite (proj2 E), covers_b_iff. split.
      * intros [[Lf N] [r ->]]. exists (r, x). split; [reflexivity|]. apply enum_in. apply lies_split in Lf as (z' & A & B). rewrite (lies_fun _ _ _ _ W L A). now split.
      * intros ([r y] & K & I). cbn in K. injection K as <- <-. apply enum_in in I as [Lr N]. split; [split; [exact (lies_app _ _ _ _ _ L Lr)|exact N]|now exists r].
  - rewrite total_map. apply total_ext. intros [r y] _. cbn [fst snd]. now rewrite skipn_app, skipn_all, Nat.sub_diag.
Qed.

Lemma tail_eq a b c : (a ++ b)%string = (a ++ c)%string -> b = c.
Proof. induction a as [|x a IH]; [auto|]. cbn. intros [= H]. auto. Qed.
(** ** glob finds each name once *)
Lemma glob_names_nodup p : forall t, well_formed t -> List.Forall (free_of "[") p -> forall root, List.NoDup (glob_names t root p).
Proof.
  induction p as [|a p IH]; intros t Wt F root; [repeat constructor; intros []|].
  inversion F as [|a' p' Fa Fp]; subst. cbn [glob_names]. destruct t as [c|g to|es]; [constructor|constructor|]. inversion Wt as [| |es' Nd K]; subst.
  destruct (has_magic a) eqn:Ma.
  - clear Wt. revert Nd K. induction es as [|[n c] es IHes]; intros Nd K; [constructor|]. cbn [flat_map fst snd]. cbn in Nd. apply NoDup_cons_iff in Nd as [N Nd].
    assert (D1 : List.NoDup (if shown a n && fnmatch a n then glob_names c (root ++ "/" ++ n) p else [])).
    { destruct (_ && _); [|constructor]. apply IH; [|exact Fp]. apply (K n c). now left. }
    assert (D2 := IHes Nd (fun m d I => K m d (or_intror I))).
    revert D1. match goal with |- List.NoDup ?l0 -> List.NoDup (_ ++ ?r)%list => assert (Dis : forall e, In e l0 -> ~ In e r) end.
    { intros m I J. destruct (shown a n && fnmatch a n); [|destruct I]. destruct (K n c (or_introl eq_refl)) as [Gn Wc].
      apply (glob_names_iff p c Wc Fp) in I as (q & z & -> & _ & Lq). apply in_flat_map in J as ((n' & c') & I' & J). cbn [fst snd] in J. destruct (shown a n' && fnmatch a n'); [|destruct J].
      destruct (K n' c' (or_intror I')) as [Gn' Wc']. apply (glob_names_iff p c' Wc' Fp) in J as (q' & z' & E & _ & Lq').
      assert (T : text (n :: q) = text (n' :: q')) by (rewrite !text_cons; rewrite !str_app_assoc in E; apply tail_eq in E; exact E).
      apply text_inj in T; [|constructor; [assumption|now apply (lies_names c q z)]|constructor; [assumption|now apply (lies_names c' q' z')]]. injection T as <- _. apply N. exact (in_map fst _ _ I'). }
    revert Dis D2. generalize (if shown a n && fnmatch a n then glob_names c (root ++ "/" ++ n) p else []). clear.
    intros l0 Dis D2. induction l0 as [|x l0 IH]; intros Dm; [exact D2|].
    apply NoDup_cons_iff in Dm as [Na Dm]. cbn. constructor; [rewrite in_app_iff; intros [I|I]; [contradiction|now apply (Dis x); [left|]]|]. apply IH; [intros e I; apply Dis; now right|exact Dm].
  - destruct (entry_of a es) as [c|] eqn:E; [|constructor]. apply IH; [|exact Fp]. apply (entry_of_iff es a c Nd) in E. exact (proj2 (K a c E)).
Qed.

Section sizes.
  Context (install : string) (t : node) (Pd : proper_dir install) (W : well_formed t).
  (** What an entry that stands for [q] adds for the file [f] *)
  Definition share (q f : list string) (x : node) : nat :=
    if covers_b q f then if is_dir_link x then if bool_decide (q = f) then weight x else 0 else weight x else 0.
  Lemma dir_size_share q z l : lies_at t q z -> enumerates t l -> dir_size install t (install ++ text q) = total (fun e => share q (fst e) (snd e)) l.
  Proof using Pd W.
    intros L E. pose proof (proj1 (lies_names _ _ _ W L)) as F. unfold dir_size. rewrite (node_at_text _ _ Pd q F), (proj2 (find_lies t q z W) L).
    pose (g := fun (r : list string) x => if is_dir_link x then match r with [] => weight x | _ => 0 end else weight x).
    transitivity (total (fun e => g (fst e) (snd e)) (enum z)).
    - destruct z as [c|h to|es]; [cbn; lia|unfold g; cbn; destruct to; cbn; lia|]. rewrite (proj1 (walk_enum (NDir es)) es eq_refl). apply total_ext. intros [r x] I. cbn [fst snd]. unfold walked, g.
      destruct (is_dir_link x) eqn:K; [|reflexivity]. destruct r; [|reflexivity]. apply enum_in in I as [I _]. inversion I; subst. discriminate K.
    - rewrite <- (total_below t q z l g W L E). apply total_ext. intros [f x] _. cbn [fst snd]. unfold share, g. destruct (covers_b q f) eqn:C; [|reflexivity].
      apply covers_b_iff in C as [r ->]. rewrite skipn_app, skipn_all, Nat.sub_diag. cbn [skipn app]. destruct (is_dir_link x); [|reflexivity].
      destruct r as [|n r]; [rewrite app_nil_r, bool_decide_true; reflexivity|]. rewrite bool_decide_false; [reflexivity|]. intros K. apply (f_equal length) in K. rewrite app_length in K. cbn in K. lia.
  Qed.
  Lemma glob_nodup pi p : pattern pi p -> List.NoDup (glob install t (install ++ text p)).
  Proof using Pd W.
    intros (N & F & E & B). unfold glob. rewrite inside_text. destruct (has_magic (text p)).
    - rewrite names_of_text by exact F. apply glob_names_nodup; [exact W|now apply free_text].
    - destruct (node_at install t (install ++ text p)); repeat constructor. intros [].
  Qed.
  Lemma pattern_fun pi p p' : pattern pi p -> pattern pi p' -> p = p'.
  Proof. intros (_ & F & E & _) (_ & F' & E' & _). apply text_inj; [exact F|exact F'|]. congruence. Qed.
  Lemma entry_size pi p l hit : pattern pi p -> enumerates t l -> (forall f x, hit f x = true <-> counts pi f x) ->
    total (dir_size install t) (glob install t (join_path install [pi_path pi])) = total (fun e => if hit (fst e) (snd e) then weight (snd e) else 0) l.
  Proof using Pd W.
    intros Ep E Hh. pose proof Ep as (N & F & T & B). rewrite T, (join_install install Pd p N F).
    pose proof (glob_iff install t Pd W pi p Ep) as Gi. pose proof (glob_nodup pi p Ep) as Gn.
    set (at_ := fun m => names_of (py_drop (String.length install) m)).
    assert (At : forall q, List.Forall good_name q -> at_ (install ++ text q) = q) by (intros q Fq; unfold at_; rewrite drop_app; now apply names_of_text).
    transitivity (total (fun m => total (fun e => share (at_ m) (fst e) (snd e)) l) (glob install t (install ++ text p))).
    { apply total_ext. intros m Im. apply Gi in Im as (q & z & -> & M & L). rewrite (At q (proj1 (lies_names _ _ _ W L))). exact (dir_size_share q z l L E). }
    rewrite total_swap. apply total_ext. intros [f x] I. cbn [fst snd]. apply (proj2 E) in I as [Lf Pf]. destruct (hit f x) eqn:H.
    - apply Hh in H as (p' & q & Ep' & M & C & Lk). rewrite (pattern_fun pi _ _ Ep' Ep) in M. clear p' Ep'. pose proof C as [r Ef]. rewrite Ef in Lf. apply lies_split in Lf as (z & Lq & Lr).
      pose proof (proj1 (lies_names _ _ _ W Lq)) as Fq.
      rewrite (total_single _ _ (install ++ text q) Gn).
      + rewrite (At q Fq). unfold share. rewrite (proj2 (covers_b_iff q f) C). destruct (is_dir_link x) eqn:K; [|reflexivity]. apply is_dir_link_iff in K. rewrite bool_decide_true by now apply Lk. reflexivity.
      + apply Gi. eauto.
      + intros m Im Nm. apply Gi in Im as (q' & z' & -> & M' & L'). rewrite (At q' (proj1 (lies_names _ _ _ W L'))). unfold share. destruct (covers_b q' f) eqn:C'; [|reflexivity]. destruct Nm.
        apply covers_b_iff in C'. assert (K : length q' = length q) by (apply Forall2_length in M; apply Forall2_length in M'; lia).
        rewrite (covers_antisym q' q); [reflexivity|apply (covers_compare _ _ f); auto; lia..].
    - apply total_zero. intros m Im. apply Gi in Im as (q & z & -> & M & L). rewrite (At q (proj1 (lies_names _ _ _ W L))). unfold share. destruct (covers_b q f) eqn:C; [|reflexivity]. apply covers_b_iff in C.
      assert (K : forall k, (link_to_directory x -> q = f) -> k = 0) by (intros k Q; exfalso; enough (false = true) by discriminate; rewrite <- H; apply Hh; exists p, q; auto).
      destruct (is_dir_link x) eqn:D; [|apply K; intros Z; apply is_dir_link_iff in Z; congruence]. destruct (bool_decide (q = f)) eqn:Q; [|reflexivity]. apply bool_decide_eq_true in Q. now apply K.
  Qed.

  Theorem size_exact pinfos l hit : (forall pi, In pi pinfos -> exists p, pattern pi p) -> enumerates t l -> (forall pi f x, In pi pinfos -> hit pi f x = true <-> counts pi f x) ->
    installed_size install t pinfos = total (fun e => weight (snd e) * length (List.filter (fun pi => hit pi (fst e) (snd e)) pinfos)) l.
  Proof using Pd W.
    intros X E Hh. unfold installed_size.
    assert (K : forall pinfos s, fold_left (fun size path => fold_left (fun size p => size + dir_size install t p) (glob install t (join_path install [pi_path path])) size) pinfos s =
       s + total (fun pi => total (dir_size install t) (glob install t (join_path install [pi_path pi]))) pinfos).
    { clear. induction pinfos as [|pi pinfos IH]; intros s; cbn [fold_left]; [cbn; lia|]. rewrite IH, fold_total. rewrite (total_cons (fun pi => total (dir_size install t) (glob install t (join_path install [pi_path pi])))). lia. }
    rewrite K. cbn [Nat.add].
    transitivity (total (fun pi => total (fun e => if hit pi (fst e) (snd e) then weight (snd e) else 0) l) pinfos).
    { apply total_ext. intros pi I. destruct (X pi I) as [p Ep]. apply (entry_size pi p l (hit pi) Ep E). intros f x. now apply Hh. }
    rewrite total_swap. apply total_ext. intros [f x] _. cbn [fst snd]. rewrite <- (total_filter (fun _ => weight x)). apply total_const.
  Qed.

  (** Counted once, and wholly its own: what files.xml records *)
  Context (sha1 : string -> string) (pkgs : list (list pathinfo)) (X : all_patterns pkgs) (i : nat).
  Definition stands_b (p n : string) : bool := if has_magic p then shown p n && fnmatch p n else String.eqb p n.
  Fixpoint below_b (p f : list string) : option (list string) :=
    match p, f with
    | [], _ => Some f
    | a :: p, n :: f => if stands_b a n then below_b p f else None
    | _, [] => None
    end.
  Definition counts_b (pi : pathinfo) (f : list string) (x : node) : bool :=
    match below_b (names_of (pi_path pi)) f with
    | None => false
    | Some r => if is_dir_link x then match r with [] => true | _ => false end else true
    end.
  Lemma stands_b_iff p n : free_of "[" p -> stands_b p n = true <-> stands_for p n.
  Proof.
    intros F. unfold stands_b. destruct (has_magic p) eqn:M; [now apply stands_magic|]. rewrite (stands_plain p n M F). apply String.eqb_eq.
  Qed.
  Lemma below_b_iff p : List.Forall (free_of "[") p -> forall f r, below_b p f = Some r <-> exists q, matches_path p q /\ f = (q ++ r)%list.
  Proof.
    induction p as [|a p IH]; intros F f r.
    - cbn. split; [intros [= ->]; exists []; split; [constructor|reflexivity]|]. intros (q & M & ->). inversion M; subst. reflexivity.
    - inversion F as [|a' p' Fa Fp]; subst. destruct f as [|n f]; cbn [below_b].
      + split; [discriminate|]. intros (q & M & E). inversion M; subst. discriminate E.
      + destruct (stands_b a n) eqn:S.
        * rewrite (IH Fp). apply (stands_b_iff a n Fa) in S. split; [intros (q & M & ->); exists (n :: q); split; [now constructor|reflexivity]|].
          intros (q & M & E). inversion M as [|a' n' p' q' S' M']; subst. injection E as -> ->. eauto.
        * split; [discriminate|]. intros (q & M & E). inversion M as [|a' n' p' q' S' M']; subst. injection E as -> ->. apply (stands_b_iff a n' Fa) in S'. congruence.
  Qed.
  Lemma counts_b_iff pi p f x : pattern pi p -> counts_b pi f x = true <-> counts pi f x.
  Proof.
    intros Ep. pose proof Ep as (N & F & T & B). unfold counts_b. rewrite T, names_of_text by exact F. pose proof (below_b_iff p (free_text _ _ B) f) as Bi. split.
    - destruct (below_b p f) as [r|]; [|discriminate]. destruct (proj1 (Bi r) eq_refl) as (q & M & E). intros H. exists p, q. split; [exact Ep|]. split; [exact M|]. split; [now exists r|].
      intros K. apply is_dir_link_iff in K. rewrite K in H. destruct r; [|discriminate H]. now rewrite E, app_nil_r.
    - intros (p' & q & Ep' & M & [r E] & K). rewrite (pattern_fun pi _ _ Ep' Ep) in M. rewrite (proj2 (Bi r) (ex_intro _ q (conj M E))).
      destruct (is_dir_link x) eqn:D; [|reflexivity]. apply is_dir_link_iff, K in D. rewrite D in E. rewrite <- (app_nil_r f) in E at 1. apply app_inv_head in E. now subst r.
  Qed.

  Lemma filter_at_most_one {A} (h : A -> bool) l : (forall a b x y z, l = (x ++ a :: y ++ b :: z)%list -> h a = true -> h b = true -> False) ->
    length (List.filter h l) = if existsb h l then 1 else 0.
  Proof.
    induction l as [|a l IH]; intros H; [reflexivity|]. cbn. destruct (h a) eqn:E; cbn.
    - f_equal. replace (List.filter h l) with (@nil A); [reflexivity|]. symmetry. destruct (List.filter h l) as [|b r] eqn:R; [reflexivity|].
      assert (I : In b (List.filter h l)) by (rewrite R; now left). apply filter_In in I as [I Hb]. apply in_split in I as (y & z & ->). destruct (H a b [] y z eq_refl E Hb).
    - apply IH. intros c d x y z -> . exact (H c d (a :: x) y z eq_refl).
  Qed.

  Theorem size_recorded d : once t (nth i pkgs []) -> undivided t pkgs i -> no_links_below t pkgs i -> gen_files_xml sha1 install t pkgs i = Ok d ->
    installed_size install t (nth i pkgs []) = total (fun e => recorded_size install t (fst e)) (map_to_list d).
  Proof using Pd W X.
    intros On Un Nl G. assert (Xi : forall pi, In pi (nth i pkgs []) -> exists p, pattern pi p) by (intros pi I; apply in_nth in I; exact (X i pi I)).
    rewrite (size_exact (nth i pkgs []) (enum t) counts_b Xi (enum_enumerates t W)).
    2: { intros pi f x I. destruct (Xi pi I) as [p Ep]. exact (counts_b_iff pi p f x Ep). }
    destruct (wild_exact sha1 install t Pd W pkgs X i) as (d' & G' & R). rewrite G in G'. injection G' as <-.
    set (mine := fun e : list string * node => existsb (fun pi => counts_b pi (fst e) (snd e)) (nth i pkgs [])).
    transitivity (total (fun e => if mine e then weight (snd e) else 0) (enum t)).
    { apply total_ext. intros [f x] I. cbn [fst snd]. apply enum_in in I. rewrite filter_at_most_one.
      - unfold mine. cbn [fst snd]. destruct (existsb _ _); lia.
      - intros a b y z w E Ha Hb. destruct (Xi a) as [p Ep]; [rewrite E, in_app_iff; right; now left|]. destruct (Xi b) as [p' Ep']; [rewrite E, !in_app_iff; right; right; rewrite in_app_iff; right; now left|].
        apply (counts_b_iff a p f x Ep) in Ha. apply (counts_b_iff b p' f x Ep') in Hb. exact (On a b y z w f x E I Ha Hb). }
    rewrite <- (total_filter (fun e => weight (snd e)) mine). rewrite <- (total_map (recorded_size install t) fst (map_to_list d)).
    transitivity (total (recorded_size install t) (map (fun e => short (fst e)) (List.filter mine (enum t)))).
    - rewrite total_map. apply total_ext. intros [f x] I. cbn [fst snd]. apply filter_In in I as [I M]. apply enum_in in I as [L Pf]. pose proof (proj1 (lies_names _ _ _ W L)) as F.
      assert (Nf : f <> []).
      { unfold mine in M. cbn [fst snd] in M. apply existsb_exists in M as (pi & I & C). destruct (Xi pi I) as [p Ep]. apply (counts_b_iff pi p f x Ep) in C as (p' & q & Ep' & Mq & [r ->] & _).
        intros K. apply app_eq_nil in K as [-> _]. inversion Mq; subst. now destruct Ep'. }
      unfold recorded_size. rewrite (join_short install Pd f Nf F). unfold dir_size. rewrite (node_at_text _ _ Pd f F), (proj2 (find_lies t f x W) L).
      destruct x as [c|g to|es]; [reflexivity|reflexivity|]. rewrite (Pf es eq_refl). reflexivity.
    - apply total_perm. apply NoDup_Permutation.
      + apply NoDup_ListNoDup. assert (D : List.NoDup (map fst (List.filter mine (enum t)))).
        { pose proof (List.NoDup_filter mine (enum_nodup t W)) as D. assert (K : forall a b, In a (List.filter mine (enum t)) -> In b (List.filter mine (enum t)) -> fst a = fst b -> a = b).
          { intros [f x] [f' y] I J E. cbn in E. subst f'. apply filter_In in I as [I _]. apply filter_In in J as [J _]. apply enum_in in I as [I _]. apply enum_in in J as [J _]. now rewrite (lies_fun _ _ _ _ W I J). }
          clear -D K. induction (List.filter mine (enum t)) as [|a l IH]; [constructor|]. apply NoDup_cons_iff in D as [N D]. cbn. constructor.
          - intros I. apply in_map_iff in I as (b & E & I). apply N. rewrite (K a b); [exact I|now left|now right|now symmetry].
          - apply IH; [exact D|]. intros b c I J. apply K; now right. }
        rewrite <- map_map. assert (K : forall f, In f (map fst (List.filter mine (enum t))) -> List.Forall good_name f).
        { intros f I. apply in_map_iff in I as ([f' x] & <- & I). apply filter_In in I as [I _]. apply enum_in in I as [I _]. exact (proj1 (lies_names _ _ _ W I)). }
        clear -D K. induction (map fst (List.filter mine (enum t))) as [|a l IH]; [constructor|]. apply NoDup_cons_iff in D as [N D]. cbn. constructor.
        * intros I. apply in_map_iff in I as (b & E & I). apply N. apply short_inj in E; [now subst b|apply K; now right|apply K; now left].
        * apply IH; [exact D|]. intros b I. apply K. now right.
      + exact (NoDup_fst_map_to_list d).
      + intros key. rewrite elem_of_list_In, elem_of_list_fmap, in_map_iff. transitivity (is_Some (d !! key)).
        * rewrite R. split.
          -- intros ([f x] & <- & I). cbn [fst]. exists f. split; [reflexivity|]. apply filter_In in I as [I M]. apply enum_in in I. unfold mine in M. cbn [fst snd] in M.
             apply existsb_exists in M as (pi & Ip & C). destruct (Xi pi Ip) as [p Ep]. apply (counts_b_iff pi p f x Ep) in C as (p' & q & Ep' & Mq & Cq & _).
             assert (Fu : found_under pkgs i q) by (exists pi, p'; split; [now apply in_nth|now split]). exists x, q. split; [exact I|]. split; [exact Fu|]. split; [exact Cq|]. right. exact (Un f x q I Fu Cq).
          -- intros (f & -> & x & q & Px & Fu & Cq & _). exists (f, x). split; [reflexivity|]. apply filter_In. split; [now apply enum_in|]. unfold mine. cbn [fst snd]. apply existsb_exists.
             pose proof Fu as (pi & p & Li & Ep & Mq). exists pi. split; [now apply in_nth|]. apply (counts_b_iff pi p f x Ep). exists p, q. split; [exact Ep|]. split; [exact Mq|]. split; [exact Cq|]. exact (Nl f x q Px Fu Cq).
        * split; [intros [info I]; exists (key, info); split; [reflexivity|now apply elem_of_map_to_list]|]. intros ([k info] & -> & I). apply elem_of_map_to_list in I. cbn. eauto.
  Qed.
End sizes.

Lemma recorded_weight install t sha1 pkgs i d key info : proper_dir install -> well_formed t -> all_patterns pkgs -> gen_files_xml sha1 install t pkgs i = Ok d -> d !! key = Some info ->
  exists f x, key = short f /\ produced t f x /\ recorded_size install t key = weight x.
Proof.
  intros Pd W X G K. destruct (wild_exact sha1 install t Pd W pkgs X i) as (d' & G' & R). rewrite G in G'. injection G' as <-.
  destruct (proj1 (R key) (ex_intro _ info K)) as (f & -> & x & q & Px & (pi & p & Li & Ep & Mq) & [r Ef] & _). exists f, x. split; [reflexivity|]. split; [exact Px|]. destruct Px as [L Pf].
  pose proof (proj1 (lies_names _ _ _ W L)) as F. assert (Nf : f <> []) by (rewrite Ef; intros Z; apply app_eq_nil in Z as [-> _]; inversion Mq; subst; now destruct Ep).
  unfold recorded_size. rewrite (join_short install Pd f Nf F). unfold dir_size. rewrite (node_at_text _ _ Pd f F), (proj2 (find_lies t f x W) L).
  destruct x as [c|g to|es]; [reflexivity|reflexivity|]. rewrite (Pf es eq_refl). reflexivity.
Qed.

(** ** Deciding the conditions *)
Definition once_check (t : node) (pinfos : list pathinfo) : bool :=
  forallb (fun e => Nat.leb (length (List.filter (fun pi => counts_b pi (fst e) (snd e)) pinfos)) 1) (enum t).
Lemma once_check_ok t pinfos : (forall pi, In pi pinfos -> exists p, pattern pi p) -> once_check t pinfos = true -> once t pinfos.
Proof.
  intros X H a b y z w f x E P Ca Cb. unfold once_check in H. rewrite forallb_forall in H. specialize (H (f, x) (proj2 (enum_in t f x) P)). cbn [fst snd] in H. apply Nat.leb_le in H.
  destruct (X a) as [p Ep]; [rewrite E, in_app_iff; right; now left|]. destruct (X b) as [p' Ep']; [rewrite E, !in_app_iff; right; right; rewrite in_app_iff; right; now left|].
  apply (counts_b_iff a p f x Ep) in Ca. apply (counts_b_iff b p' f x Ep') in Cb.
  rewrite E, !List.filter_app in H. cbn [List.filter] in H. rewrite Ca, !List.filter_app in H. cbn [List.filter] in H. rewrite Cb in H. rewrite !app_length in H. cbn [length] in H. rewrite app_length in H. cbn in H. lia.
Qed.
Lemma undivided_check_ok t pkgs i : all_patterns pkgs -> check_path_collision i pkgs = [] -> undivided t pkgs i.
Proof. intros X E f x q _ _ _ B. apply (excluded_wild id "" pkgs X i) in B. rewrite E in B. discriminate B. Qed.
Definition links_check (t : node) (pinfos : list pathinfo) : bool :=
  forallb (fun e => negb (is_dir_link (snd e)) || forallb (fun pi => match below_b (names_of (pi_path pi)) (fst e) with Some (_ :: _) => false | _ => true end) pinfos) (enum t).
Lemma links_check_ok t pkgs i : links_check t (nth i pkgs []) = true -> no_links_below t pkgs i.
Proof.
  intros H f x q P (pi & p & Li & Ep & M) [r E] K. unfold links_check in H. rewrite forallb_forall in H. specialize (H (f, x) (proj2 (enum_in t f x) P)). cbn [fst snd] in H.
  apply is_dir_link_iff in K. rewrite K in H. cbn in H. rewrite forallb_forall in H. specialize (H pi (proj2 (in_nth pkgs i pi) Li)). pose proof Ep as (_ & F & T & B).
  rewrite T, names_of_text in H by exact F. rewrite (proj2 (below_b_iff p (free_text _ _ B) f r) (ex_intro _ q (conj M E))) in H. destruct r; [|discriminate H]. now rewrite E, app_nil_r.
Qed.
